(** * C42 - C46: the road generators *)
From Coq Require Import ssreflect.
From Verif.Model Require Import Api.
From Verif.Inst Require Import Quarter.
From Verif.Spec Require Import SpecState SpecHistory SpecLanes SpecGenerate.
From Verif.Proof Require Import Monad DictFacts PlanViewFacts NetFrame Reach Steps History Invariants LaneLinks Generate.
From Verif.Properties Require Import PHistory PLaneLinks.
Local Open Scope general_if_scope.
Local Open Scope nat_scope.

Section Generators.
  Context {F : Type} `{!Num F}.
  Implicit Types (h : heap F).

  Lemma stored_free {V} (f : heap F → gmap nat V) h P x : stored f h P → h_next h ≤ x → f h !! x = None.
  Proof. intros Hs Hx. destruct (f h !! x) as [v|] eqn:E; [|done]. destruct (Hs _ _ E) as [Hl _]. lia. Qed.
  Lemma stored_old {V} (f : heap F → gmap nat V) h P x v : stored f h P → f h !! x = Some v → x < h_next h.
  Proof. intros Hs Hx. by destruct (Hs _ _ Hx). Qed.
  Lemma as_ref_ok (m : H (F:=F) ref) h h' r : m h = (Ok r, h') → as_ref m h = (Ok (RRef r), h').
  Proof. intros E. unfold as_ref. by rewrite (bind_run _ _ _ _ _ E). Qed.
  Lemma as_ref_err (m : H (F:=F) ref) h h' e : m h = (Err e, h') → as_ref m h = (Err e, h').
  Proof. intros E. unfold as_ref. by rewrite (bind_run_err _ _ _ _ _ E). Qed.

  (** a lane table that only grows *)
  Lemma seq_lookup_place a n i x : seq a n !! i = Some x → x = a + i ∧ i < n.
  Proof. intros E. apply lookup_seq in E. lia. Qed.

  Lemma untouched_run h h' (N : no_dangling h) :
    (∀ x, x < h_next h → h_geom h' !! x = h_geom h !! x) → (∀ x, x < h_next h → h_pv h' !! x = h_pv h !! x) →
    (∀ x, x < h_next h → h_lane h' !! x = h_lane h !! x) → (∀ x, x < h_next h → h_sec h' !! x = h_sec h !! x) →
    (∀ x, x < h_next h → h_lanes h' !! x = h_lanes h !! x) → (∀ x, x < h_next h → h_linker h' !! x = h_linker h !! x) →
    (∀ x, x < h_next h → h_conn h' !! x = h_conn h !! x) → (∀ x, x < h_next h → h_junc h' !! x = h_junc h !! x) →
    (∀ x, x < h_next h → h_obj h' !! x = h_obj h !! x) → (∀ x, x < h_next h → h_road h' !! x = h_road h !! x) →
    (∀ x, x < h_next h → h_odr h' !! x = h_odr h !! x) → h_ids h' = h_ids h → untouched h h'.
  Proof.
    destruct N. intros. unfold untouched, kept. split_and!; try done; intros r v Hr.
    all: lazymatch type of Hr with ?f _ !! _ = _ =>
      match goal with N : stored f _ _, E : ∀ x, _ → f _ !! x = f _ !! x |- _ => rewrite (E r (stored_old _ _ _ _ _ N Hr)); exact Hr end end.
  Qed.

  (** a section whose side lanes are at known addresses *)
  Lemma section_lanes h' sec s l r (fl fr : nat → ref) (P : place → ref → Prop) : h_sec h' !! sec = Some s →
    ls_left s = map fl (seq 0 l) → ls_right s = map fr (seq 0 r) →
    P Centre (ls_center s) → (∀ i, i < l → P (LeftOf i) (fl i)) → (∀ i, i < r → P (RightOf i) (fr i)) →
    lane_counts h' sec = (l, r) ∧ ∀ p x, lane_at h' sec p = Some x → P p x.
  Proof.
    intros Hs El Er Pc Pl Pr. split.
    - unfold lane_counts. rewrite (lookup_total_correct _ _ _ Hs) El Er !map_length !seq_length. done.
    - intros p x. unfold lane_at. rewrite Hs. destruct p as [|i|i].
      + intros [= <-]. done.
      + rewrite El list_lookup_fmap. destruct (seq 0 l !! i) as [y|] eqn:E; [|done]. apply lookup_seq in E as [-> Hi]. intros [= <-]. by apply Pl.
      + rewrite Er list_lookup_fmap. destruct (seq 0 r !! i) as [y|] eqn:E; [|done]. apply lookup_seq in E as [-> Hi]. intros [= <-]. by apply Pr.
  Qed.
  Lemma seq_map a n : seq a n = map (λ i, a + i) (seq 0 n).
  Proof. apply list_eq. intros i. rewrite list_lookup_fmap. destruct (decide (i < n)).
    - rewrite !lookup_seq_lt //.
    - rewrite !lookup_seq_ge //; lia.
  Qed.

  Lemma new_in {V} (f : heap F → gmap nat V) h h' P x v : stored f h P → h_next h ≤ x → f h' !! x = Some v → is_new f h h' x.
  Proof. intros Hs Hx Hv. split; [by eapply stored_free|by eexists]. Qed.
  (** assembling [new_road_with] *)
  Lemma new_road_intro h h' x id ty gs l r width mark pv ls sec s (fl fr : nat → ref) : no_dangling h →
    h_next h ≤ pv → h_next h ≤ ls → h_next h ≤ sec → h_next h ≤ x →
    h_road h' !! x = Some (road_new id pv ls ty None None) → h_pv h' !! pv = Some (planview_new <| pv_raw := gs |>) →
    h_lanes h' !! ls = Some [sec] → h_sec h' !! sec = Some s → ls_s s = fofZ 0 →
    ls_left s = map fl (seq 0 l) → ls_right s = map fr (seq 0 r) →
    (let P := λ p y, h_next h ≤ y ∧ h_lane h' !! y = Some (std_lane (lane_number p) (width p) (mark p)) in
     P Centre (ls_center s) ∧ (∀ i, i < l → P (LeftOf i) (fl i)) ∧ (∀ i, i < r → P (RightOf i) (fr i))) →
    new_road_with h h' x id ty gs l r width mark.
  Proof.
    intros [] Ppv Pls Psec Px Er Ep Els Es E0 El Ear (Pc & Pl & Pr).
    destruct (section_lanes h' sec s l r fl fr (λ p y, h_next h ≤ y ∧ h_lane h' !! y = Some (std_lane (lane_number p) (width p) (mark p))) Es El Ear Pc Pl Pr) as [Hc Hp].
    exists pv, ls, sec, s. split_and!; try done; try (eapply new_in; eassumption).
    intros p y Hy. destruct (Hp p y Hy) as [H1 H2]. split; [eapply new_in; eassumption|].
    eexists. split; [exact H2|]. done.
  Qed.

  Lemma knows_length_iff (g : geom F) : knows_length g ↔ geom_length g ≠ None.
  Proof. by destruct g. Qed.
  Lemma knows_not (g : geom F) : ¬ knows_length g → geom_length g = None.
  Proof. rewrite knows_length_iff. destruct (geom_length g); [|done]. intros []; done. Qed.
  (** ** C42 *)
  Theorem C42_create_road h gs id l r ty mark w : reachable h → Forall (exists_in h_geom h) gs →
    (∀ g, g ∈ gs → knows_length (h_geom h !!! g)) →
    ∃ x h', step (OpCreateRoad gs id l r ty mark w) h = (Ok (RRef x), h') ∧ untouched h h' ∧
      new_road_with h h' x id ty gs l r (λ p, match p with Centre => fofZ 0 | _ => w end)
        (λ p, match p with Centre => mark | _ => standard_mark (if outermost l r p then rmt_solid else rmt_broken) end).
  Proof.
    intros Hr Hg Hl. pose proof (reachable_no_dangling _ Hr) as N. pose proof N as [].
    eexists _, _. split.
    { unfold step. rewrite guarded_true; [by apply all_have_true|]. apply as_ref_ok, create_road_run. intros g Hin. by apply knows_length_iff, Hl. }
    set (n := h_next h) in *.
    split.
    { apply untouched_run; [done|..]; intros; simpl; try done; rewrite ?ins_from_old ?lookup_insert_ne //; lia. }
    eapply (new_road_intro _ _ _ _ _ _ _ _ _ _ n (n + 3 + l + r) (n + 2) _ (λ i, n + 3 + i) (λ i, n + 3 + l + i)); fold n; try lia; try done.
    1-4: simpl; apply lookup_insert.
    - done.
    - simpl. apply seq_map.
    - simpl. apply seq_map.
    - simpl. split_and!.
      + lia.
      + rewrite ins_from_old; [lia|]. by rewrite lookup_insert.
      + intros i Hi. split; [lia|]. apply (ins_from_new _ (n + 3) _ i). unfold road_lanes. rewrite lookup_app_l; [by rewrite map_length seq_length|].
        rewrite list_lookup_fmap lookup_seq_lt //. simpl. unfold side_mark. by case_bool_decide.
      + intros i Hi. split; [lia|]. rewrite -(Nat.add_assoc (n + 3)). apply ins_from_new. unfold road_lanes. rewrite lookup_app_r; [rewrite map_length seq_length; lia|].
        rewrite map_length seq_length. replace (l + i - l) with i by lia.
        rewrite list_lookup_fmap lookup_seq_lt //. simpl. unfold side_mark. by case_bool_decide.
  Qed.

  (** ** C43 *)
  Lemma add_geometries_err pv h : ∀ gs p pm, pm !! pv = Some p → (∃ g, g ∈ gs ∧ geom_length (h_geom h !!! g) = None) →
    ∃ gs', add_geometries pv gs (h <| h_pv := pm |>) = (Err TypeError, h <| h_pv := <[pv := p <| pv_raw := pv_raw p ++ gs' |>]> pm |>).
  Proof.
    induction gs as [|g gs IH]; intros p pm Hp (g0 & Hg & E0); [by apply elem_of_nil in Hg|].
    destruct (geom_length (h_geom h !!! g)) as [x|] eqn:E.
    - apply elem_of_cons in Hg as [->|Hg]; [congruence|].
      destruct (IH _ _ (lookup_insert pm pv (p <| pv_raw := pv_raw p ++ [g] |>)) (ex_intro _ g0 (conj Hg E0))) as [gs' IHe].
      exists (g :: gs'). unfold add_geometries in *. cbn [for_each]. erewrite bind_run; last first.
      { rewrite (bind_run _ _ _ _ _ (add_geometry_run _ g _ _ _ Hp)). unfold get_geom. rewrite bind_gets. simpl. rewrite E. done. }
      rewrite IHe insert_insert. simpl. by rewrite -app_assoc.
    - exists [g]. unfold add_geometries. cbn [for_each]. erewrite bind_run_err; [done|].
      rewrite (bind_run _ _ _ _ _ (add_geometry_run _ g _ _ _ Hp)). unfold get_geom. rewrite bind_gets. simpl. rewrite E. done.
  Qed.
  (** a primitive that has no length yet makes create_road raise TypeError; no object that existed before is changed *)
  Theorem C43_refuted h gs id l r ty mark w g : reachable h → Forall (exists_in h_geom h) gs →
    g ∈ gs → ¬ knows_length (h_geom h !!! g) →
    ∃ h', step (OpCreateRoad gs id l r ty mark w) h = (Err TypeError, h') ∧ untouched h h'.
  Proof.
    intros Hr Hg Hin E%knows_not. pose proof (reachable_no_dangling _ Hr) as N.
    pose (h0 := h <| h_next := S (h_next h) |>).
    destruct (add_geometries_err (h_next h) h0 gs planview_new (<[h_next h := planview_new]> (h_pv h)) (lookup_insert _ _ _) (ex_intro _ g (conj Hin E))) as [gs' Ee].
    eexists. split.
    - unfold step. rewrite guarded_true; [by apply all_have_true|]. apply as_ref_err. unfold create_road. erewrite bind_run; [|done].
      erewrite bind_run_err; [|exact Ee]. done.
    - unfold h0. rewrite insert_insert. apply untouched_run; [done|..]; intros; simpl; try done. rewrite lookup_insert_ne //; lia.
  Qed.
  (** so create_road succeeds exactly on primitives that know their length *)
  Theorem C43_iff h gs id l r ty mark w : reachable h → Forall (exists_in h_geom h) gs →
    (∃ x h', step (OpCreateRoad gs id l r ty mark w) h = (Ok (RRef x), h')) ↔ ∀ g, g ∈ gs → knows_length (h_geom h !!! g).
  Proof.
    intros Hr Hg. split.
    - intros (x & h' & E) g Hin. destruct (decide (geom_length (h_geom h !!! g) = None)) as [En|]; [exfalso|by apply knows_length_iff].
      assert (¬ knows_length (h_geom h !!! g)) by by rewrite knows_length_iff En; intros []. destruct (C43_refuted h gs id l r ty mark w g Hr Hg Hin ltac:(done)) as (h2 & E2 & _). rewrite E in E2. done.
    - intros Hl. destruct (C42_create_road h gs id l r ty mark w Hr Hg Hl) as (x & h' & E & _). by eauto.
  Qed.
  (** no arc given by its angle, and no normalized ParamPoly3, is accepted when it has just been constructed *)
  Theorem C43_refuted_new h c a au bu cu du av bv cv dv prange id l r ty mark w (o : op F) : reachable h →
    o = OpArc c None (Some a) ∨ o = OpPoly au bu cu du av bv cv dv prange None →
    ∀ g h', step o h = (Ok (RRef g), h') → ∃ h2, step (OpCreateRoad [g] id l r ty mark w) h' = (Err TypeError, h2).
  Proof.
    intros Hr Ho g h' E.
    assert (Hr' : reachable h').
    { replace h' with (run h [o]); [by apply run_reachable|]. simpl. by rewrite E. }
    assert (∃ x, h_geom h' !! g = Some x ∧ geom_length x = None) as (x & Hx & El).
    { destruct Ho as [-> | ->]; unfold step, as_ref in E.
      - unfold mk_arc in E. destruct (fiszero c); [discriminate E|]. unfold lift, bind, new_geom, ret in E. injection E as <- <-.
        simpl. eexists. split; [apply lookup_insert|done].
      - unfold mk_poly in E. destruct (prange =? "arcLength")%string; simpl in E; [discriminate E|]. unfold lift, bind, new_geom, ret in E. injection E as <- <-.
        simpl. eexists. split; [apply lookup_insert|done]. }
    destruct (C43_refuted h' [g] id l r ty mark w g Hr') as (h2 & E2 & _); [|by left| |by eauto].
    - constructor; [by eexists|constructor].
    - rewrite (lookup_total_correct _ _ _ Hx) knows_length_iff El. by intros [].
  Qed.
  (** a line, a spiral given by its length or by an angle that is not 0, an arc and a polynomial given with a length are accepted
      as soon as they have been constructed *)
  Theorem C43_new h len cs ce c a pr au bu cu du av bv cv dv id l r ty mark w (o : op F) : reachable h →
    o ∈ [OpLine len; OpSpiral cs ce (Some len) None None; OpArc c (Some len) None; OpPoly au bu cu du av bv cv dv pr (Some len)] ∨
    (o = OpSpiral cs ce None (Some a) None ∧ fiszero a = false) →
    ∀ g h', step o h = (Ok (RRef g), h') → ∃ x h2, step (OpCreateRoad [g] id l r ty mark w) h' = (Ok (RRef x), h2).
  Proof.
    intros Hr Ho g h' E.
    assert (Hr' : reachable h').
    { replace h' with (run h [o]); [by apply run_reachable|]. simpl. by rewrite E. }
    assert (∃ x, h_geom h' !! g = Some x ∧ knows_length x) as (x & Hx & El).
    { rewrite !elem_of_cons elem_of_nil in Ho. destruct Ho as [[->|[->|[->|[->|[]]]]]|[-> Ha]]; unfold step, as_ref in E.
      - unfold mk_line, bind, new_geom, ret in E. injection E as <- <-. simpl. eexists. by split; [apply lookup_insert|].
      - unfold mk_spiral, lift, bind, new_geom, ret in E. simpl in E. injection E as <- <-. simpl. eexists. by split; [apply lookup_insert|].
      - unfold mk_arc in E. destruct (fiszero c); [discriminate E|]. unfold lift, bind, new_geom, ret in E. injection E as <- <-.
        simpl. eexists. by split; [apply lookup_insert|].
      - unfold mk_poly in E. destruct (pr =? "arcLength")%string; simpl in E; unfold lift, bind, new_geom, ret in E; injection E as <- <-;
        simpl; eexists; by split; [apply lookup_insert|].
      - unfold mk_spiral, ftruthy_opt, ftruthy, lift, bind, new_geom, ret in E. simpl in E. rewrite Ha in E. simpl in E. injection E as <- <-. simpl. eexists. by split; [apply lookup_insert|]. }
    apply C43_iff; [done|constructor; [by eexists|constructor]|].
    intros g' ->%elem_of_list_singleton. by rewrite (lookup_total_correct _ _ _ Hx).
  Qed.

  (** ** C44 *)
  Lemma sides_lookup c w i : i < c → sides_lanes c w !! (2 * i) = Some (std_lane (lane_number (RightOf i)) w STD_ROADMARK_BROKEN) ∧
    sides_lanes c w !! (2 * i + 1) = Some (std_lane (lane_number (LeftOf i)) w STD_ROADMARK_BROKEN).
  Proof.
    intros Hi. unfold sides_lanes. assert (G : ∀ c k i, i < c → let f := λ i, [std_lane (lane_number (RightOf i)) w STD_ROADMARK_BROKEN; std_lane (lane_number (LeftOf i)) w STD_ROADMARK_BROKEN] in
       concat (map f (seq k c)) !! (2 * i) = Some (std_lane (lane_number (RightOf (k + i))) w STD_ROADMARK_BROKEN) ∧
       concat (map f (seq k c)) !! (2 * i + 1) = Some (std_lane (lane_number (LeftOf (k + i))) w STD_ROADMARK_BROKEN)).
    { clear. induction c as [|c IH]; intros k i Hi; [lia|]. intros f. cbn [seq map concat]. destruct i as [|i].
      - simpl. by rewrite Nat.add_0_r.
      - replace (2 * S i) with (S (S (2 * i))) by lia. replace (S (S (2 * i)) + 1) with (S (S (2 * i + 1))) by lia. unfold f at 1 3. cbn [app lookup list_lookup].
        destruct (IH (S k) i ltac:(lia)) as [H1 H2]. replace (k + S i) with (S k + i) by lia. done. }
    apply (G c 0 i Hi).
  Qed.
  Theorem C44_create_straight_road h id len junction n w : reachable h →
    ∃ x h' g, step (OpCreateStraightRoad id len junction n w) h = (Ok (RRef x), h') ∧ untouched h h' ∧
      is_new h_geom h h' g ∧ h_geom h' !! g = Some (GLine len) ∧
      new_road_with h h' x id junction [g] n n (λ p, match p with Centre => fofZ 3 | _ => w end) (λ _, standard_mark rmt_broken).
  Proof.
    intros Hr. pose proof (reachable_no_dangling _ Hr) as N. pose proof N as [].
    eexists _, _, (h_next h). split; [unfold step; apply as_ref_ok, create_straight_run|]. set (m := h_next h) in *.
    split. { apply untouched_run; [done|..]; intros; simpl; try done; rewrite ?ins_from_old ?lookup_insert_ne //; lia. }
    split. { eapply new_in; [eassumption|done|]. simpl. apply lookup_insert. }
    split; [simpl; apply lookup_insert|].
    eapply (new_road_intro _ _ _ _ _ _ _ _ _ _ (m + 1) (m + 4 + 2 * n) (m + 3) _ (λ i, m + 4 + 2 * i + 1) (λ i, m + 4 + 2 * i)); fold m; try lia; try done.
    1-4: simpl; apply lookup_insert.
    1-3: done.
    change (h_lane _) with (ins_from (m + 4) (sides_lanes n w) (<[m + 2 := std_lane 0 (fofZ 3) STD_ROADMARK_BROKEN]> (h_lane h))).
    split_and!.
    - simpl; lia.
    - rewrite ins_from_old; [simpl; lia|]. apply lookup_insert.
    - intros i Hi. split; [lia|]. rewrite -Nat.add_assoc. apply ins_from_new. apply sides_lookup, Hi.
    - intros i Hi. split; [lia|]. apply ins_from_new. apply sides_lookup, Hi.
  Qed.

  (** ** C45 *)
  Theorem C45_create_cloth_arc_cloth h curv aa ca id junction cs n w : reachable h → fiszero (directed curv ca curv) = false →
    ∃ x h' g1 g2 g3, step (OpCreateClothArcCloth curv aa ca id junction cs n w) h = (Ok (RRef x), h') ∧ untouched h h' ∧
      let adj := directed curv ca in
      (is_new h_geom h h' g1 ∧ is_new h_geom h h' g2 ∧ is_new h_geom h h' g3) ∧
      Ok (h_geom h' !!! g1) = mk_spiral (adj cs) (adj curv) None (Some (adj ca)) None ∧
      h_geom h' !!! g2 = GArc (adj curv) None (Some (adj aa)) ∧
      Ok (h_geom h' !!! g3) = mk_spiral (adj curv) (adj cs) None (Some (adj ca)) None ∧
      new_road_with h h' x id junction [g1; g2; g3] n n (λ p, match p with Centre => fofZ 3 | _ => w end) (λ _, standard_mark rmt_broken).
  Proof.
    intros Hr Hz. pose proof (reachable_no_dangling _ Hr) as N. pose proof N as [].
    set (adj := directed curv ca) in *.
    assert (Hsp : ∀ a b, ∃ g, mk_spiral a b None (Some (adj ca)) None = Ok g).
    { intros a b. unfold mk_spiral. simpl. destruct (ftruthy (adj ca)); eauto. }
    destruct (Hsp (adj cs) (adj curv)) as [g1 E1]. destruct (Hsp (adj curv) (adj cs)) as [g3 E3].
    assert (E2 : mk_arc (adj curv) None (Some (adj aa)) = Ok (GArc (adj curv) None (Some (adj aa)))) by (unfold mk_arc; by rewrite Hz).
    set (m := h_next h) in *.
    eexists _, _, (m + 1), (m + 2), (m + 3). split. { unfold step. apply as_ref_ok. exact (create_cac_run h curv aa ca id junction cs n w g1 _ g3 E1 E2 E3). }
    fold m.
    split. { apply untouched_run; [done|..]; intros; simpl; try done; rewrite ?lookup_insert_ne ?ins_from_old ?lookup_insert_ne //; lia. }
    cbv zeta.
    assert (G : ∀ i v, [g1; GArc (adj curv) None (Some (adj aa)); g3] !! i = Some v → ins_from (m + 1) [g1; GArc (adj curv) None (Some (adj aa)); g3] (h_geom h) !! (m + 1 + i) = Some v).
    { intros. by apply ins_from_new. }
    pose proof (G 0 _ eq_refl) as G1. pose proof (G 1 _ eq_refl) as G2. pose proof (G 2 _ eq_refl) as G3. clear G.
    replace (m + 1 + 0) with (m + 1) in G1 by lia. replace (m + 1 + 1) with (m + 2) in G2 by lia. replace (m + 1 + 2) with (m + 3) in G3 by lia.
    split_and!.
    - eapply new_in; [eassumption|lia|exact G1].
    - eapply new_in; [eassumption|lia|exact G2].
    - eapply new_in; [eassumption|lia|exact G3].
    - rewrite E1. f_equal. apply lookup_total_correct. exact G1.
    - apply lookup_total_correct. exact G2.
    - rewrite E3. f_equal. apply lookup_total_correct. exact G3.
    - eapply (new_road_intro _ _ _ _ _ _ _ _ _ _ m (m + 6 + 2 * n) (m + 5) _ (λ i, m + 6 + 2 * i + 1) (λ i, m + 6 + 2 * i)); fold m; try lia; try done.
      1-4: simpl; apply lookup_insert.
      1-3: done.
      change (h_lane _) with (ins_from (m + 6) (sides_lanes n w) (<[m + 4 := std_lane 0 (fofZ 3) STD_ROADMARK_BROKEN]> (h_lane h))).
      split_and!.
      + simpl; lia.
      + rewrite ins_from_old; [simpl; lia|]. apply lookup_insert.
      + intros i Hi. split; [lia|]. rewrite -Nat.add_assoc. apply ins_from_new. apply sides_lookup, Hi.
      + intros i Hi. split; [lia|]. apply ins_from_new. apply sides_lookup, Hi.
  Qed.

  (** ** C46 *)
  (** [section_used h o cp]: the lane section of the first road that get_lanes_offset looks at: its first section if the
      connecting road starts at its END, its last section if at its START *)
  Definition section_used h (o : road) (cp : ContactPoint) : option ref :=
    match cp with cp_end => first_section h o | cp_start => last_section h o end.
  Lemma section_used_run h o cp sec : section_used h o cp = Some sec →
    road_section o (Some (match cp with cp_end => 0 | cp_start => -1 end)%Z) h = (Ok (h_sec h !!! sec), h).
  Proof.
    intros E. assert (Ei : py_index (sections h o) (match cp with cp_end => 0 | cp_start => -1 end)%Z = Some sec).
    { by destruct cp; [rewrite py_index_last|rewrite py_index_0]. }
    unfold road_section, get_lanes. rewrite bind_gets. unfold sections in Ei. unfold py_index_opt. rewrite Ei. done.
  Qed.
  Lemma first_section_run h o sec : first_section h o = Some sec → road_section o (Some 0%Z) h = (Ok (h_sec h !!! sec), h).
  Proof. intros E. apply (section_used_run h o cp_end sec E). Qed.

  (** roads with different lane counts: NameError, whatever the roads are *)
  Theorem C46_refuted h r1 r2 o1 o2 cp s1 s2 : h_road h !! r1 = Some o1 → h_road h !! r2 = Some o2 →
    section_used h o1 cp = Some s1 → first_section h o2 = Some s2 → lane_counts h s1 ≠ lane_counts h s2 →
    get_lanes_offset r1 r2 cp h = (Err NameError, h).
  Proof.
    intros H1 H2 S1 S2 Hc. unfold get_lanes_offset, get_road. rewrite !bind_gets.
    rewrite (lookup_total_correct _ _ _ H1) (lookup_total_correct _ _ _ H2).
    rewrite (bind_run _ _ _ _ _ (section_used_run _ _ _ _ S1)) (bind_run _ _ _ _ _ (first_section_run _ _ _ S2)).
    unfold lane_counts in Hc. case_bool_decide as C1; case_bool_decide as C2; simpl; try done. exfalso. apply Hc. congruence.
  Qed.
  (** equal lane counts: the number of left lanes and the width of the innermost left lane *)
  Theorem C46_equal h r1 r2 o1 o2 cp s1 s2 x : h_road h !! r1 = Some o1 → h_road h !! r2 = Some o2 →
    section_used h o1 cp = Some s1 → first_section h o2 = Some s2 → lane_counts h s1 = lane_counts h s2 → lane_at h s1 (LeftOf 0) = Some x →
    get_lanes_offset r1 r2 cp h = (Ok ((lane_counts h s1).1, ln_a (h_lane h !!! x)), h).
  Proof.
    intros H1 H2 S1 S2 [= C1 C2] Hx. unfold get_lanes_offset, get_road. rewrite !bind_gets.
    rewrite (lookup_total_correct _ _ _ H1) (lookup_total_correct _ _ _ H2).
    rewrite (bind_run _ _ _ _ _ (section_used_run _ _ _ _ S1)) (bind_run _ _ _ _ _ (first_section_run _ _ _ S2)).
    rewrite C1 C2 !bool_decide_true //. simpl. unfold lane_at in Hx. destruct (h_sec h !! s1) as [s|] eqn:Es; [|done].
    rewrite (lookup_total_correct _ _ _ Es) in C1 |- *. destruct (ls_left s) as [|y l]; [done|]. injection Hx as ->. simpl.
    unfold get_lane. rewrite bind_ret bind_gets. unfold ret. simpl. by rewrite -C1.
  Qed.

  (** without lane sections, or without left lanes: IndexError *)
  Theorem C46_nothing h r1 r2 o1 o2 cp : h_road h !! r1 = Some o1 → h_road h !! r2 = Some o2 →
    section_used h o1 cp = None ∨ first_section h o2 = None ∨
      (∃ s1 s2, section_used h o1 cp = Some s1 ∧ first_section h o2 = Some s2 ∧ lane_counts h s1 = lane_counts h s2 ∧ (lane_counts h s1).1 = 0) →
    get_lanes_offset r1 r2 cp h = (Err IndexError, h).
  Proof.
    intros H1 H2 C. unfold get_lanes_offset, get_road. rewrite !bind_gets. rewrite (lookup_total_correct _ _ _ H1) (lookup_total_correct _ _ _ H2).
    assert (None_used : section_used h o1 cp = None → road_section o1 (Some (match cp with cp_end => 0 | cp_start => -1 end)%Z) h = (Err IndexError, h)).
    { intros E. unfold road_section, get_lanes. rewrite bind_gets. unfold section_used, first_section, last_section, sections in E.
      assert (Es : h_lanes h !!! rd_lanes o1 = []). { destruct cp; [by apply last_None|by apply head_None]. } rewrite Es. by destruct cp. }
    assert (None_first : first_section h o2 = None → road_section o2 (Some 0%Z) h = (Err IndexError, h)).
    { intros E. unfold road_section, get_lanes. rewrite bind_gets. unfold first_section, sections in E. apply head_None in E. by rewrite E. }
    destruct (section_used h o1 cp) as [s1|] eqn:S1; [|by rewrite (bind_run_err _ _ _ _ _ (None_used eq_refl))].
    rewrite (bind_run _ _ _ _ _ (section_used_run _ _ _ _ S1)).
    destruct (first_section h o2) as [s2|] eqn:S2; [|by rewrite (bind_run_err _ _ _ _ _ (None_first eq_refl))].
    rewrite (bind_run _ _ _ _ _ (first_section_run _ _ _ S2)).
    destruct C as [C|[C|(x1 & x2 & [= <-] & [= <-] & [= C1 C2] & C0)]]; [done..|]. rewrite C1 C2 !bool_decide_true //. simpl.
    unfold lane_counts in C0. simpl in C0. rewrite C1 in C0. rewrite -C1 in C0. by destruct (ls_left (h_sec h !!! s1)).
  Qed.
  Lemma offset_succeeds h r1 r2 o1 o2 cp n w h' : h_road h !! r1 = Some o1 → h_road h !! r2 = Some o2 → get_lanes_offset r1 r2 cp h = (Ok (n, w), h') →
    ∃ s1 s2, section_used h o1 cp = Some s1 ∧ first_section h o2 = Some s2 ∧ lane_counts h s1 = lane_counts h s2 ∧ (lane_counts h s1).1 ≠ 0.
  Proof.
    intros H1 H2 E. pose proof (C46_nothing h r1 r2 o1 o2 cp H1 H2) as N. pose proof (C46_refuted h r1 r2 o1 o2 cp) as D.
    destruct (section_used h o1 cp) as [s1|] eqn:S1; [|by rewrite N in E; [left|]].
    destruct (first_section h o2) as [s2|] eqn:S2; [|by rewrite N in E; [right; left|]].
    exists s1, s2. split; [done|]. split; [done|]. destruct (decide (lane_counts h s1 = lane_counts h s2)) as [Hc|Hc]; [|by rewrite (D s1 s2) in E].
    split; [done|]. intros H0. rewrite N in E; [|done]. right. right. by exists s1, s2.
  Qed.
  (** so it succeeds exactly if both roads have lane sections, with equally many lanes on each side, of which at least one is left *)
  Theorem C46_iff h r1 r2 o1 o2 cp : reachable h → h_road h !! r1 = Some o1 → h_road h !! r2 = Some o2 →
    (∃ n w h', get_lanes_offset r1 r2 cp h = (Ok (n, w), h')) ↔
    ∃ s1 s2, section_used h o1 cp = Some s1 ∧ first_section h o2 = Some s2 ∧ lane_counts h s1 = lane_counts h s2 ∧ (lane_counts h s1).1 ≠ 0.
  Proof.
    intros Hr H1 H2. split.
    - intros (n & w & h' & E). by eapply offset_succeeds.
    - intros (s1 & s2 & S1 & S2 & Hc & Hn). assert (exists_in h_sec h s1) as [s Hs].
      { apply (nd_lanes_sec h (rd_lanes o1) s1 (reachable_no_dangling _ Hr)).
        - rewrite -(lookup_total_correct _ _ _ H1). apply nd_road_lanes; [by apply reachable_no_dangling|by eexists].
        - destruct cp; simpl in S1; [by apply last_Some_elem_of|by apply head_Some_elem_of]. }
      pose proof Hn as Hn'. unfold lane_counts in Hn'. rewrite (lookup_total_correct _ _ _ Hs) in Hn'. destruct (ls_left s) as [|x xs] eqn:El; [done|].
      eexists _, _, _. eapply (C46_equal h r1 r2 o1 o2 cp s1 s2 x); try done. unfold lane_at. by rewrite Hs El.
  Qed.

  (** create_junction_roads asks this of its first two roads, too; so it cannot join roads without left lanes (one-way roads), whatever the rest is *)
  Theorem C46_first_two h roads angles r junction sp ap num r1 r2 o1 o2 rs : h_road h !! r1 = Some o1 → h_road h !! r2 = Some o2 →
    (step (OpCreateJunctionRoads (r1 :: r2 :: roads) angles r junction sp ap num) h).1 = Ok (RRefs rs) →
    ∃ s1 s2, first_section h o1 = Some s1 ∧ first_section h o2 = Some s2 ∧ lane_counts h s1 = lane_counts h s2 ∧ (lane_counts h s1).1 ≠ 0.
  Proof.
    intros H1 H2 E. unfold step, guarded in E. destruct (all_have _ _ _); [|done]. unfold as_refs in E.
    destruct (create_junction_roads (r1 :: r2 :: roads) angles r junction sp ap num h) as [[js|e] h'] eqn:C; [clear E|exfalso; revert E; unfold bind; by rewrite C]. unfold create_junction_roads in C. apply bind_ok in C as (ll & h1 & C1 & C). unfold lift in C1.
    destruct (junction_linelength r sp) as [ll'|]; [|done]. injection C1 as -> <-.
    apply bind_ok in C as (js' & h1 & C & _). cbn [length Nat.sub seq] in C. cbn [junction_outer] in C.
    apply bind_ok in C as (ri & h2 & C1 & C). apply or_raise_ok in C1 as [[= <-] ->]. rewrite (bool_decide_true (0 = 0)) // in C.
    apply bind_ok in C as ([] & h2 & C1 & C). apply bind_ok in C as (row & h3 & C & _). cbn [length Nat.sub seq junction_inner] in C.
    apply bind_ok in C as (t & h4 & C & _). unfold junction_road in C. apply bind_ok in C as (aj & h5 & C2 & C). apply or_raise_ok in C2 as [_ ->].
    apply bind_ok in C as (ai & h5 & C2 & C). apply or_raise_ok in C2 as [_ ->].
    apply bind_ok in C as (ri & h5 & C2 & C). apply or_raise_ok in C2 as [[= <-] ->].
    apply bind_ok in C as (rj & h5 & C2 & C). apply or_raise_ok in C2 as [[= <-] ->].
    apply bind_ok in C as ([n w] & h5 & C & _).
    assert (Same : h_lanes h2 = h_lanes h ∧ h_sec h2 = h_sec h ∧ ∀ y o, h_road h !! y = Some o → ∃ o', h_road h2 !! y = Some o' ∧ rd_lanes o' = rd_lanes o).
    { unfold add_successor, get_road in C1. rewrite bind_gets in C1. destruct (rd_succ _); [done|]. apply bind_ok in C1 as (k & h6 & K1 & C1).
      assert (h6 = h) as -> by (unfold lift in K1; by destruct (mk_link _ _ _ _ _); injection K1). clear K1.
      unfold upd_road, modify in C1. injection C1 as <-. split; [done|]. split; [done|]. intros y o Hy. simpl.
      destruct (decide (y = r1)) as [->|Hne]; [|rewrite lookup_insert_ne //; by exists o]. rewrite lookup_insert (lookup_total_correct _ _ _ Hy). by eexists. }
    destruct Same as (EL & ES & ER). destruct (ER r1 o1 H1) as (o1' & H1' & L1), (ER r2 o2 H2) as (o2' & H2' & L2).
    destruct (offset_succeeds h2 r1 r2 o1' o2' cp_end n w h5 H1' H2' C) as (s1 & s2 & S1 & S2 & Hc).
    exists s1, s2. unfold section_used, first_section, sections, lane_counts in *. rewrite EL L1 in S1. rewrite EL L2 in S2. rewrite ES in Hc. done.
  Qed.

  (** neither function ever raises the documented exception *)
  Definition never (e : exn) {A} (m : H (F:=F) A) : Prop := ∀ h, (m h).1 ≠ Err e.
  Lemma never_bind e {A B} (m : H (F:=F) A) (k : A → H (F:=F) B) : never e m → (∀ a, never e (k a)) → never e (bind m k).
  Proof. intros Hm Hk h. unfold bind. specialize (Hm h). destruct (m h) as [[a|e'] h']; [apply Hk|]. simpl in *. congruence. Qed.
  Lemma never_ret e {A} (a : A) : never e (ret a). Proof. done. Qed.
  Lemma never_gets e {A} (f : heap F → A) : never e (gets f). Proof. done. Qed.
  Lemma never_modify e (f : heap F → heap F) : never e (modify f). Proof. done. Qed.
  Lemma never_or e e' {A} (o : option A) : e' ≠ e → never e (or_raise e' o). Proof. intros Hne h. destruct o; simpl; congruence. Qed.
  Lemma never_raise e e' {A} : e' ≠ e → never e (raise (A:=A) e'). Proof. intros Hne h. simpl. congruence. Qed.
  Lemma never_each e {A} (f : A → H (F:=F) unit) l : (∀ a, never e (f a)) → never e (for_each f l).
  Proof. intros Hf. induction l as [|a l IH]; [done|]. by apply never_bind. Qed.
  Ltac nev := repeat first [done | apply never_bind; [|intros ?] | apply never_ret | apply never_gets | apply never_modify | apply never_or; done | apply never_raise; done
    | apply never_each; intros ? | case_match ].
  Lemma never_offset r1 r2 cp : never NotSameAmountOfLanesError (get_lanes_offset r1 r2 cp).
  Proof. unfold get_lanes_offset, road_section, py_index_opt, get_road, get_lanes, get_sec, get_lane. nev. Qed.
  Theorem C46_never h : (∀ r1 r2 cp, (get_lanes_offset r1 r2 cp h).1 ≠ Err NotSameAmountOfLanesError) ∧
    (∀ rs an r j sp ap n, (step (OpCreateJunctionRoads rs an r j sp ap n) h).1 ≠ Err NotSameAmountOfLanesError).
  Proof.
    split; [intros; apply never_offset|]. intros. unfold step, guarded. destruct (all_have _ _ _); [|done].
    assert (Hlk : ∀ r et id cp off, never NotSameAmountOfLanesError (add_successor r et id cp off) ∧ never NotSameAmountOfLanesError (add_predecessor r et id cp off)).
    { intros. unfold add_successor, add_predecessor, get_road, upd_road. split; nev. }
    assert (Hs : ∀ sec n w, never NotSameAmountOfLanesError (create_sides sec n w)).
    { intros. unfold create_sides, standard_lane, lane_a, lane_ctor, lane_add_roadmark, add_right_lane, add_left_lane, new_lane, upd_lane, upd_sec, get_sec, lane_set_id. nev. }
    assert (Hst : ∀ a b c d e, never NotSameAmountOfLanesError (create_straight_road a b c d e)).
    { intros. unfold create_straight_road. apply never_bind; [done|intros ?]. apply never_bind; [done|intros ?]. apply never_bind; [unfold pv_add_geometry, upd_pv; nev|intros ?].
      apply never_bind; [unfold standard_lane, lane_a, lane_ctor, lane_add_roadmark, upd_lane; nev|intros ?].
      apply never_bind; [unfold lanesection_ctor, lane_set_id, upd_lane; nev|intros ?]. apply never_bind; [apply Hs|intros ?].
      intros hh. rewrite finish_run. done. }
    assert (Hsp : ∀ a b c, (mk_spiral (F:=F) a b None (Some c) None) ≠ Err NotSameAmountOfLanesError).
    { intros. unfold mk_spiral. simpl. by destruct (ftruthy c). }
    assert (Hcac : ∀ a b c d e f g i, never NotSameAmountOfLanesError (create_cloth_arc_cloth a b c d e f g i)).
    { intros. unfold create_cloth_arc_cloth. apply never_bind; [done|intros ?]. apply never_bind; [intros hh; apply Hsp|intros ?]. apply never_bind; [done|intros ?].
      apply never_bind; [intros hh; unfold mk_arc, lift; simpl; case_match; done|intros ?]. apply never_bind; [done|intros ?].
      apply never_bind; [intros hh; apply Hsp|intros ?]. apply never_bind; [done|intros ?].
      do 3 (apply never_bind; [unfold pv_add_geometry, upd_pv; nev|intros ?]).
      apply never_bind; [unfold standard_lane, lane_a, lane_ctor, lane_add_roadmark, upd_lane; nev|intros ?].
      apply never_bind; [unfold lanesection_ctor, lane_set_id, upd_lane; nev|intros ?]. apply never_bind; [apply Hs|intros ?].
      intros hh. rewrite finish_run. done. }
    assert (Hroad : ∀ rs an r j sp ap ll cp i n jj, never NotSameAmountOfLanesError (junction_road rs an r j sp ap ll cp i n jj)).
    { intros. unfold junction_road. do 4 (apply never_bind; [by apply never_or|intros ?]). apply never_bind; [apply never_offset|intros [? ?]].
      apply never_bind; [case_match; [apply Hst|apply Hcac]|intros ?]. apply never_bind; [done|intros ?]. apply never_bind; [apply Hlk|intros ?].
      apply never_bind; [done|intros ?]. apply never_bind; [apply Hlk|intros ?]. done. }
    assert (Hin : ∀ rs an r j sp ap ll cp i js n, never NotSameAmountOfLanesError (junction_inner rs an r j sp ap ll cp i n js)).
    { clear -Hroad. intros rs an r j sp ap ll cp i js. induction js as [|jj js IH]; intros n; [done|]. simpl. apply never_bind; [apply Hroad|intros ?]. apply never_bind; [apply IH|intros ?]. done. }
    assert (Hout : ∀ rs an r j sp ap ll l n, never NotSameAmountOfLanesError (junction_outer rs an r j sp ap ll n l)).
    { clear -Hin Hlk. intros rs an r j sp ap ll l. induction l as [|i l IH]; intros n; [done|]. simpl. apply never_bind; [by apply never_or|intros ?].
      apply never_bind; [case_match; apply Hlk|intros ?]. apply never_bind; [apply Hin|intros ?]. apply never_bind; [apply IH|intros ?]. done. }
    revert h. apply (never_bind _ (create_junction_roads rs an r j sp ap n)); [|done]. unfold create_junction_roads. apply never_bind.
    { intros hh. unfold lift, junction_linelength. simpl. destruct (fiszero r); [done|]. unfold euler_create, rbind. destruct (fiszero _); [done|].
      by repeat case_match. }
    intros ?. apply never_bind; [apply Hout|intros ?]. apply never_bind; [by apply never_or|intros ?]. apply never_bind; [apply Hlk|done].
  Qed.
End Generators.

(** ** Concrete cases *)
Section Examples.
  Definition line_and_arc : list (op Z) := [OpLine 10; OpArc 1 (Some 2) None; OpArc 1 None (Some 1)]%Z.
  Definition white : roadmark Z := standard_mark rmt_solid_solid.
  Example C42_example_hypotheses : let h := run heap_init line_and_arc in
    reachable h ∧ Forall (exists_in h_geom h) [0; 1; 0] ∧ (∀ g, g ∈ [0; 1; 0] → knows_length (h_geom h !!! g)).
  Proof.
    intros h. split; [by exists line_and_arc|]. split; [repeat constructor; eexists; vm_compute; reflexivity|].
    intros g Hg. rewrite !elem_of_cons elem_of_nil in Hg. destruct Hg as [->|[->|[->|[]]]]; vm_compute; first [exact I|discriminate].
  Qed.
  Definition lane_view (h : heap Z) (l : ref) := let o := h_lane h !!! l in (ln_id o, ln_a o, rm_type <$> ln_roadmark o).
  Definition section_view (h : heap Z) (r : ref) := map (λ s, let s := h_sec h !!! s in
    (map (lane_view h) (ls_left s), lane_view h (ls_center s), map (lane_view h) (ls_right s))) (h_lanes h !!! rd_lanes (h_road h !!! r)).
  Example C42_example : let h := run heap_init (line_and_arc ++ [OpCreateRoad [0; 1; 0] (PInt 7) 2 1 (-1) white 4%Z]) in
    section_view h 10 = [([(Some 1, 4, Some rmt_broken); (Some 2, 4, Some rmt_solid)], (Some 0, 0, Some rmt_solid_solid), [(Some (-1), 4, Some rmt_solid)])]%Z.
  Proof. vm_compute. reflexivity. Qed.
  Example C43_example : (step (OpCreateRoad [0; 2] (PInt 7) 2 1 (-1) white 4%Z) (run heap_init line_and_arc)).1 = Err TypeError.
  Proof. vm_compute. reflexivity. Qed.
  Example C44_example : let h := run heap_init [OpCreateStraightRoad (PInt 7) 10%Z 5%Z 2 4%Z] in
    section_view h 9 = [([(Some 1, 4, Some rmt_broken); (Some 2, 4, Some rmt_broken)], (Some 0, 3, Some rmt_broken),
      [(Some (-1), 4, Some rmt_broken); (Some (-2), 4, Some rmt_broken)])]%Z ∧ rd_type (h_road h !!! 9) = 5%Z.
  Proof. split; vm_compute; reflexivity. Qed.

  (** Roads whose touching lane sections agree are refused (with NameError) when the section at the other end of the first road
      differs, and accepted when they differ but the section at the other end agrees. *)
  Definition meeting (lrs1 : list (nat * nat)) (n2 : nat) : list (op Z) := road_ops 0 (PInt 1) (-1) lrs1 ++ road_ops n2 (PInt 2) (-1) [(1, 1)].
  Theorem C46_refuted_sections :
    (let h := run heap_init (meeting [(2, 2); (1, 1)] 13) in ∃ o1 o2 s1 s2, h_road h !! 2 = Some o1 ∧ h_road h !! 15 = Some o2 ∧
       last_section h o1 = Some s1 ∧ first_section h o2 = Some s2 ∧ lane_counts h s1 = lane_counts h s2 ∧
       (get_lanes_offset 2 15 cp_end h).1 = Err NameError ∧ (step (OpCreateJunctionRoads [2; 15] [0; 1]%Z 5%Z 100 1%Z 1%Z 200) h).1 = Err NameError) ∧
    (let h := run heap_init (meeting [(1, 1); (2, 2)] 13) in ∃ o1 o2 s1 s2, h_road h !! 2 = Some o1 ∧ h_road h !! 15 = Some o2 ∧
       last_section h o1 = Some s1 ∧ first_section h o2 = Some s2 ∧ lane_counts h s1 ≠ lane_counts h s2 ∧
       (get_lanes_offset 2 15 cp_end h).1 = Ok (1, 3%Z)).
  Proof.
    split; intros h; eexists _, _, _, _; split_and!; try (vm_compute; reflexivity). vm_compute. discriminate.
  Qed.
  (** roads without left lanes cannot be joined *)
  Definition one_way : list (op Z) :=
    [OpLine 100; OpLine 100; OpCreateRoad [0%nat] (PInt 0) 0 1 (-1) white 3; OpCreateRoad [1%nat] (PInt 1) 0 1 (-1) white 3]%Z.
  Example C46_one_way : let h := run heap_init one_way in ∃ o1 o2 s1 s2, h_road h !! 7 = Some o1 ∧ h_road h !! 13 = Some o2 ∧
    section_used h o1 cp_end = Some s1 ∧ first_section h o2 = Some s2 ∧ lane_counts h s1 = (0, 1) ∧ lane_counts h s2 = (0, 1) ∧
    (step (OpCreateJunctionRoads [7; 13] [0; 2]%Z 5%Z 100 1%Z 1%Z 200) h).1 = Err IndexError.
  Proof. intros h; eexists _, _, _, _; split_and!; vm_compute; reflexivity. Qed.
  (** two roads with two lanes on each side: joined *)
  Example C46_first_two_example : let h := run heap_init [OpCreateStraightRoad (PInt 0) 100 (-1) 2 3; OpCreateStraightRoad (PInt 1) 100 (-1) 2 3]%Z in
    reachable h ∧ (∃ o1 o2 s1 s2, h_road h !! 9 = Some o1 ∧ h_road h !! 19 = Some o2 ∧ section_used h o1 cp_end = Some s1 ∧ first_section h o2 = Some s2 ∧
      lane_counts h s1 = (2, 2) ∧ lane_counts h s2 = (2, 2)) ∧
    (step (OpCreateJunctionRoads [9; 19] [0; 2]%Z 5%Z 100 1%Z 1%Z 200) h).1 = Ok (RRefs [29]).
  Proof. intros h. split; [by eexists|]. split; [eexists _, _, _, _; split_and!; vm_compute; reflexivity|vm_compute; reflexivity]. Qed.
  Example C46_example : let h := run heap_init (meeting [(2, 1)] 8) in ∃ o1 o2 s1 s2, h_road h !! 2 = Some o1 ∧ h_road h !! 10 = Some o2 ∧
    section_used h o1 cp_start = Some s1 ∧ first_section h o2 = Some s2 ∧ lane_counts h s1 ≠ lane_counts h s2.
  Proof. intros h; eexists _, _, _, _; split_and!; try (vm_compute; reflexivity). vm_compute. discriminate. Qed.
End Examples.

Print Assumptions C46_nothing.
Print Assumptions C46_iff.
Print Assumptions C46_first_two.
