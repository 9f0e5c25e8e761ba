(** * Executing create_junction_roads *)
From Coq Require Import ssreflect.
From Verif.Model Require Import Api.
From Verif.Spec Require Import SpecState SpecHistory SpecLanes SpecGenerate SpecJunctionRoads.
From Verif.Proof Require Import Monad DictFacts PlanViewFacts NetFrame Reach Steps History Invariants LaneLinks Generate.
From Verif.Properties Require Import PHistory PGenerators.
Local Open Scope general_if_scope.
Local Open Scope nat_scope.

Lemma elem_of_pairs n i j : (i, j) ∈ pairs n ↔ i < j < n.
Proof.
  unfold pairs. rewrite elem_of_list_In in_concat. split.
  - intros (l & Hl & Hi). apply in_map_iff in Hl as (i' & <- & Hi'). apply in_map_iff in Hi as (j' & [= -> ->] & Hj).
    apply in_seq in Hi', Hj. lia.
  - intros H. exists (map (λ j, (i, j)) (seq (S i) (n - S i))). split.
    + apply in_map_iff. exists i. split; [done|]. apply in_seq. lia.
    + apply in_map_iff. exists j. split; [done|]. apply in_seq. lia.
Qed.
Lemma NoDup_pairs n : NoDup (pairs n).
Proof.
  unfold pairs. assert (G : ∀ c a, NoDup (concat (map (λ i, map (λ j, (i, j)) (seq (S i) (n - S i))) (seq a c)))).
  { induction c as [|c IH]; intros a; simpl; [constructor|]. apply NoDup_app. split_and!.
    - apply NoDup_fmap_2; [by intros ? ? [= ]|apply NoDup_ListNoDup, seq_NoDup].
    - intros [i j] H1 H2. apply elem_of_list_In, in_map_iff in H1 as (j' & [= <- <-] & _).
      apply elem_of_list_In, in_concat in H2 as (l & Hl & Hi). apply in_map_iff in Hl as (i' & <- & Hi').
      apply in_map_iff in Hi as (j'' & [= <- <-] & _). apply in_seq in Hi'. lia.
    - apply IH. }
  apply G.
Qed.
Lemma pairs_S n : length (pairs (S n)) = length (pairs n) + n.
Proof.
  unfold pairs. rewrite seq_S map_app concat_app app_length. simpl. rewrite Nat.sub_diag /= Nat.add_0_r.
  assert (G : ∀ c a, a + c = n → length (concat (map (λ i, map (λ j, (i, j)) (seq (S i) (n - i))) (seq a c))) =
    length (concat (map (λ i, map (λ j, (i, j)) (seq (S i) (n - S i))) (seq a c))) + c).
  { induction c as [|c IH]; intros a Ha; simpl; [done|]. rewrite !app_length !map_length !seq_length IH; lia. }
  rewrite (G n 0 eq_refl). lia.
Qed.
Lemma length_pairs n : 2 * length (pairs n) = n * (n - 1).
Proof. induction n as [|n IH]; [done|]. rewrite pairs_S. simpl. nia. Qed.

Section JunctionRoads.
  Context {F : Type} `{!Num F}.
  Implicit Types (h : heap F) (o : road).

  Lemma kept_refl {V} (f : heap F → gmap nat V) h : kept f h h. Proof. by intros ??. Qed.
  Lemma kept_trans {V} (f : heap F → gmap nat V) h1 h2 h3 : kept f h1 h2 → kept f h2 h3 → kept f h1 h3.
  Proof. intros A B r v Hr. auto. Qed.
  Lemma untouched_as h h' : untouched h h' ↔ untouched_but [] h h'.
  Proof.
    unfold untouched, untouched_but. split; intros (?&?&?&?&?&?&?&?&?&R&?&?); split_and!; try done.
    - intros r o _. apply R.
    - intros r o. apply R, not_elem_of_nil.
  Qed.
  Lemma but_refl rs h : untouched_but rs h h.
  Proof. unfold untouched_but. split_and!; try done; try apply kept_refl. Qed.
  Lemma but_trans rs h1 h2 h3 : untouched_but rs h1 h2 → untouched_but rs h2 h3 → untouched_but rs h1 h3.
  Proof.
    intros (?&?&?&?&?&?&?&?&?&R1&?&I1) (?&?&?&?&?&?&?&?&?&R2&?&I2). unfold untouched_but.
    split_and!; try (eapply kept_trans; eassumption); [intros; by apply R2, R1|congruence].
  Qed.
  Lemma but_more rs rs' h h' : rs ⊆ rs' → untouched_but rs h h' → untouched_but rs' h h'.
  Proof. intros S (?&?&?&?&?&?&?&?&?&R&?&?). unfold untouched_but. split_and!; try done. intros r o Hr. apply R. by intros ?%S. Qed.
  (** an update of a road *)
  Lemma but_upd rs h r o : r ∈ rs → untouched_but rs h (h <| h_road := <[r := o]> (h_road h) |>).
  Proof.
    intros Hr. unfold untouched_but. simpl. split_and!; try (intros ?? ; done); try done.
    intros r' o' Hn E. simpl. rewrite lookup_insert_ne //. by intros ->.
  Qed.
  Lemma is_new_later {V} (f : heap F → gmap nat V) h0 h1 h2 h3 x : kept f h0 h1 → is_new f h1 h2 x → kept f h2 h3 → is_new f h0 h3 x.
  Proof.
    intros K1 [E1 [v E2]] K2. split; [|exists v; by apply K2]. destruct (f h0 !! x) as [w|] eqn:E; [|done].
    apply K1 in E. congruence.
  Qed.
  Lemma is_new_road_later rs h0 h1 h2 h3 x : untouched_but rs h0 h1 → is_new h_road h1 h2 x → untouched_but rs h2 h3 →
    (∀ r, r ∈ rs → is_Some (h_road h1 !! r)) → is_new h_road h0 h3 x.
  Proof.
    intros (_&_&_&_&_&_&_&_&_&R1&_) [E1 [v E2]] (_&_&_&_&_&_&_&_&_&R2&_) Hrs.
    assert (Hx : x ∉ rs). { intros Hx. destruct (Hrs x Hx). congruence. }
    split; [|exists v; by apply R2]. destruct (h_road h0 !! x) as [w|] eqn:E; [|done]. rewrite (R1 _ _ Hx E) in E1. done.
  Qed.

  Lemma lane_at_kept h h' sec s p : h_sec h !! sec = Some s → kept h_sec h h' → lane_at h' sec p = lane_at h sec p.
  Proof. intros Hs K. unfold lane_at. by rewrite Hs (K _ _ Hs). Qed.
  Lemma counts_kept h h' sec s : h_sec h !! sec = Some s → kept h_sec h h' → lane_counts h' sec = lane_counts h sec.
  Proof. intros Hs K. unfold lane_counts. by rewrite (lookup_total_correct _ _ _ Hs) (lookup_total_correct _ _ _ (K _ _ Hs)). Qed.

  Lemma joined_later rs h0 h1 h2 h3 x id ty gs l rr w m p s : untouched_but rs h0 h1 →
    new_road_joined h1 h2 x id ty gs l rr w m p s → untouched_but rs h2 h3 → (∀ r, r ∈ rs → is_Some (h_road h1 !! r)) →
    new_road_joined h0 h3 x id ty gs l rr w m p s.
  Proof.
    intros U1 (pv & ls & sec & sc & N1 & N2 & N3 & N4 & Er & Ep & El & Es & E0 & Ec & Hl) U2 Hrs.
    pose proof U1 as (_&Kp1&Kl1&Ks1&Ks'1&_&_&_&_&R1&_). pose proof U2 as (_&Kp2&Kl2&Ks2&Ks'2&_&_&_&_&R2&_).
    assert (Hx : x ∉ rs). { intros Hx. destruct (Hrs x Hx). destruct N1. congruence. }
    exists pv, ls, sec, sc. split_and!; eauto using is_new_later, is_new_road_later.
    - rewrite -Ec. by eapply counts_kept.
    - intros q y Hy. rewrite (lane_at_kept _ _ _ _ q Es Ks2) in Hy. destruct (Hl q y Hy) as (N & o & Eo & Po & Mo).
      split; [by eapply is_new_later|]. exists o. auto.
  Qed.
  Lemma course_later rs h0 h1 h2 h3 gs r ll sp ap t : untouched_but rs h0 h1 → connecting_course h1 h2 gs r ll sp ap t → untouched_but rs h2 h3 →
    connecting_course h0 h3 gs r ll sp ap t.
  Proof.
    intros (K1&_) (N & C) (K2&_). split; [intros g Hg; eapply is_new_later; eauto|].
    destruct (fiszero (fsign t)).
    - destruct C as (g & -> & E). exists g. auto.
    - destruct C as (g1&g2&g3&x1&x3&-> & E1 & E2 & E3 & M). exists g1, g2, g3, x1, x3. split_and!; auto; apply M.
  Qed.

  (** ** Roads that have nothing in common *)
  Definition all_new h h' (x : ref) : Prop := is_new h_road h h' x ∧ is_new h_pv h h' (rd_planview (h_road h' !!! x)) ∧
    (∃ o, h_road h' !! x = Some o ∧ is_Some (h_lanes h' !! rd_lanes o) ∧ ∀ sec, sec ∈ sections h' o → is_Some (h_sec h' !! sec)) ∧
    ∀ l, has_lane h' x l → is_new h_lane h h' l.
  Definition strangers h (xs : list ref) : Prop := ∀ i j x y, xs !! i = Some x → xs !! j = Some y → i ≠ j → ¬ in_common h x y.

  Lemma in_common_sym h x y : in_common h x y → in_common h y x.
  Proof. intros [?|(l & ? & ?)]; [by left|right; by exists l]. Qed.
  Lemma joined_all_new h h' x id ty gs l rr w m p s : new_road_joined h h' x id ty gs l rr w m p s → all_new h h' x.
  Proof.
    intros (pv & ls & sec & sc & N1 & N2 & N3 & N4 & Er & Ep & El & Es & E0 & Ec & Hl). split; [done|]. split; [by rewrite (lookup_total_correct _ _ _ Er)|].
    assert (Esec : sections h' (h_road h' !!! x) = [sec]). { unfold sections. rewrite (lookup_total_correct _ _ _ Er) /=. by rewrite (lookup_total_correct _ _ _ El). }
    rewrite (lookup_total_correct _ _ _ Er) in Esec. split.
    - eexists. split; [exact Er|]. split; [simpl; by eexists|]. intros sec' Hs. rewrite Esec in Hs. apply elem_of_list_singleton in Hs as ->. by eexists.
    - intros y (o & sec' & q & Eo & Hs & Hy). rewrite Er in Eo. injection Eo as <-. rewrite Esec in Hs. apply elem_of_list_singleton in Hs as ->. by apply (Hl q y).
  Qed.
  Section Later.
    Context rs h0 h1 h2 h3 (U1 : untouched_but rs h0 h1) (U2 : untouched_but rs h2 h3) (Hrs : ∀ r, r ∈ rs → is_Some (h_road h1 !! r)).
    Lemma same_later x : all_new h1 h2 x → h_road h3 !! x = Some (h_road h2 !!! x) ∧ ∀ l, has_lane h3 x l ↔ has_lane h2 x l.
    Proof.
      intros (N & _ & (o & Eo & [ss Els] & Hsec) & _). pose proof U2 as (_&_&_&Ks&Kls&_&_&_&_&Kr&_).
      assert (Hx : x ∉ rs). { intros Hx. destruct (Hrs x Hx). destruct N. congruence. }
      assert (E3 : h_road h3 !! x = Some o) by auto. split; [by rewrite (lookup_total_correct _ _ _ Eo)|].
      assert (Es : sections h3 o = sections h2 o). { unfold sections. by rewrite (lookup_total_correct _ _ _ Els) (lookup_total_correct _ _ _ (Kls _ _ Els)). }
      intros l. split; intros (o' & sec & q & Eo' & Hs & Hl).
      - rewrite E3 in Eo'. injection Eo' as <-. rewrite Es in Hs. destruct (Hsec sec Hs) as [sc Esc]. exists o, sec, q. split; [done|]. split; [done|]. by rewrite -(lane_at_kept _ _ _ _ q Esc Ks).
      - rewrite Eo in Eo'. injection Eo' as <-. destruct (Hsec sec Hs) as [sc Esc]. exists o, sec, q. split; [done|]. rewrite Es. split; [done|]. by rewrite (lane_at_kept _ _ _ _ q Esc Ks).
    Qed.
    Lemma all_new_later x : all_new h1 h2 x → all_new h0 h3 x.
    Proof.
      intros A. destruct (same_later x A) as [E3 EL]. destruct A as (N & Npv & (o & Eo & Hls & Hsec) & Hl). pose proof U1 as (_&Kp1&Kl1&_). pose proof U2 as (_&Kp2&Kl2&Ks2&Kls2&_).
      assert (Eo2 := lookup_total_correct _ _ _ Eo). rewrite Eo2 in E3, Npv. split; [by eapply is_new_road_later|]. rewrite (lookup_total_correct _ _ _ E3).
      split; [by eapply is_new_later|]. split.
      - exists o. split; [done|]. destruct Hls as [ss Els]. split; [by exists ss; auto|]. intros sec Hs.
        assert (Es : sections h3 o = sections h2 o). { unfold sections. by rewrite (lookup_total_correct _ _ _ Els) (lookup_total_correct _ _ _ (Kls2 _ _ Els)). }
        rewrite Es in Hs. destruct (Hsec sec Hs) as [sc Esc]. exists sc. auto.
      - intros l Hl3. apply EL in Hl3. eapply is_new_later; [exact Kl1|by apply Hl|exact Kl2].
    Qed.
  End Later.
  Lemma strangers_later rs h1 h2 h3 xs : untouched_but rs h2 h3 → (∀ r, r ∈ rs → is_Some (h_road h1 !! r)) → (∀ x, x ∈ xs → all_new h1 h2 x) → strangers h2 xs → strangers h3 xs.
  Proof.
    intros U Hrs A S i j x y Hi Hj Hne C. apply (S i j x y Hi Hj Hne). destruct (same_later rs h1 h2 h3 U Hrs x) as [Ex Lx]; [by apply A; eapply elem_of_list_lookup_2|].
    destruct (same_later rs h1 h2 h3 U Hrs y) as [Ey Ly]; [by apply A; eapply elem_of_list_lookup_2|]. unfold in_common in C.
    rewrite (lookup_total_correct _ _ _ Ex) (lookup_total_correct _ _ _ Ey) in C. destruct C as [?|(l & H1 & H2)]; [by left|]. right. exists l. by rewrite -Lx -Ly.
  Qed.
  (** roads made one after the other have nothing in common *)
  Lemma strangers_app rs h0 h1 h2 xs ys : untouched_but rs h1 h2 → (∀ r, r ∈ rs → is_Some (h_road h0 !! r)) →
    (∀ x, x ∈ xs → all_new h0 h1 x) → (∀ y, y ∈ ys → all_new h1 h2 y) → strangers h1 xs → strangers h2 ys → strangers h2 (xs ++ ys).
  Proof.
    intros U Hrs Ax Ay Sx Sy. assert (Sx' := strangers_later rs h0 h1 h2 xs U Hrs Ax Sx).
    assert (Cr : ∀ x y, x ∈ xs → y ∈ ys → ¬ in_common h2 x y).
    { intros x y Hx Hy C. destruct (same_later rs h0 h1 h2 U Hrs x (Ax x Hx)) as [Ex Lx]. destruct (Ax x Hx) as (_ & [_ [v Ev]] & _ & Lnx). destruct (Ay y Hy) as (_ & [Np _] & _ & Lny).
      destruct C as [C|(l & H1 & H2)].
      - rewrite -C (lookup_total_correct _ _ _ Ex) in Np. congruence.
      - apply Lx in H1. destruct (Lnx l H1) as [_ [v' Ev']]. destruct (Lny l H2) as [Nl _]. congruence. }
    intros i j x y Hi Hj Hne C. apply lookup_app_Some in Hi as [Hi|[Li Hi]], Hj as [Hj|[Lj Hj]].
    - by apply (Sx' i j x y).
    - apply (Cr x y); [by eapply elem_of_list_lookup_2|by eapply elem_of_list_lookup_2|done].
    - apply (Cr y x); [by eapply elem_of_list_lookup_2|by eapply elem_of_list_lookup_2|by apply in_common_sym].
    - apply (Sy (i - length xs) (j - length xs) x y); try done. lia.
  Qed.

  Lemma link_pred_run h x o et id cp : h_road h !! x = Some o → rd_pred o = None →
    add_predecessor x et id cp 0 h = (Ok tt, h <| h_road := <[x := o <| rd_pred := Some (mkLink (Some "predecessor") id et cp None) |>
      <| rd_links := rd_links o ++ [mkLink (Some "predecessor") id et cp None] |> <| rd_off_pred := 0%Z |>]> (h_road h) |>).
  Proof.
    intros Ho Hp. unfold add_predecessor, get_road. rewrite bind_gets (lookup_total_correct _ _ _ Ho) Hp.
    unfold mk_link. rewrite (bool_decide_false (Some "predecessor" = Some "neighbor")) //. simpl. rewrite bind_lift_ok.
    unfold upd_road, modify. by rewrite (lookup_total_correct _ _ _ Ho).
  Qed.
  Lemma link_succ_run h x o et id cp : h_road h !! x = Some o → rd_succ o = None →
    add_successor x et id cp 0 h = (Ok tt, h <| h_road := <[x := o <| rd_succ := Some (mkLink (Some "successor") id et cp None) |>
      <| rd_links := rd_links o ++ [mkLink (Some "successor") id et cp None] |> <| rd_off_suc := 0%Z |>]> (h_road h) |>).
  Proof.
    intros Ho Hp. unfold add_successor, get_road. rewrite bind_gets (lookup_total_correct _ _ _ Ho) Hp.
    unfold mk_link. rewrite (bool_decide_false (Some "successor" = Some "neighbor")) //. simpl. rewrite bind_lift_ok.
    unfold upd_road, modify. by rewrite (lookup_total_correct _ _ _ Ho).
  Qed.
  Lemma as_ref_inv (m : H (F:=F) ref) h h' x : as_ref m h = (Ok (RRef x), h') → m h = (Ok x, h').
  Proof. unfold as_ref, bind, ret. destruct (m h) as [[y|e] h1]; by intros [= -> ->]. Qed.
  Lemma step_reachable (a : op F) h h' x : reachable h → step a h = (x, h') → reachable h'.
  Proof. intros Hr E. replace h' with (run h [a]); [by apply run_reachable|]. simpl. by rewrite E. Qed.

  Definition bw (w : F) : place → F := λ p, match p with Centre => fofZ 3 | _ => w end.
  Definition bm : place → roadmark F := λ _, standard_mark rmt_broken.

  (** linking a new road *)
  Lemma join_new h h1 x id ty gs l rr w m idp idq cp cq : reachable h1 → untouched h h1 → new_road_with h h1 x id ty gs l rr w m →
    ∃ h2, (add_predecessor x (Some et_road) idp (Some cp) 0 ;; add_successor x (Some et_road) idq (Some cq) 0) h1 = (Ok tt, h2) ∧
      reachable h2 ∧ untouched h h2 ∧ (∀ r o, r ≠ x → h_road h1 !! r = Some o → h_road h2 !! r = Some o) ∧ h_geom h2 = h_geom h1 ∧
      new_road_joined h h2 x id ty gs l rr w m (road_link "predecessor" idp cp) (road_link "successor" idq cq).
  Proof.
    intros Hr U (pv & ls & sec & s & N1 & N2 & N3 & N4 & Er & Ep & El & Es & E0 & Ec & Hl).
    pose proof (link_pred_run h1 x _ (Some et_road) idp (Some cp) Er eq_refl) as R1. simpl in R1.
    match type of R1 with _ = (_, ?t) => set (h1' := t) in R1 end.
    assert (Er' : h_road h1' !! x = Some (mkRoad id pv ls ty None None [road_link "predecessor" idp cp] 0 None (Some (road_link "predecessor" idp cp)) 0 0 [] [])).
    { unfold h1'. simpl. apply lookup_insert. }
    pose proof (link_succ_run h1' x _ (Some et_road) idq (Some cq) Er' eq_refl) as R2. simpl in R2.
    match type of R2 with _ = (_, ?t) => set (h2 := t) in R2 end.
    exists h2. split; [by rewrite (bind_run _ _ _ _ _ R1)|].
    assert (Hrd : h_road h2 = <[x := mkRoad id pv ls ty None None [road_link "predecessor" idp cp; road_link "successor" idq cq] 0 (Some (road_link "successor" idq cq)) (Some (road_link "predecessor" idp cp)) 0 0 [] []]> (h_road h1)).
    { unfold h2, h1'. simpl. by rewrite insert_insert. }
    split_and!.
    - eapply (step_reachable (OpAddSuccessor x (Some et_road) idq (Some cq) 0) h1').
      + eapply (step_reachable (OpAddPredecessor x (Some et_road) idp (Some cp) 0) h1); [done|]. unfold step.
        rewrite guarded_true; [by apply has_true; eexists|]. by apply as_unit_ok.
      + unfold step. rewrite guarded_true; [by apply has_true; eexists|]. by apply as_unit_ok.
    - destruct U as (?&?&?&?&?&?&?&?&?&R&?&?). unfold untouched. split_and!; try done.
      intros r o Ho. rewrite Hrd lookup_insert_ne; [|by apply R]. intros ->. destruct N1. congruence.
    - intros r o Hne Ho. by rewrite Hrd lookup_insert_ne.
    - done.
    - exists pv, ls, sec, s. split_and!; try done.
      + split; [apply N1|]. rewrite Hrd. eexists; apply lookup_insert.
      + rewrite Hrd. apply lookup_insert.
  Qed.

  Lemma junction_road_run h roads angles r junction sp ap ll cp i j num ri rj oi oj s1 s2 ai aj l rr :
    reachable h → roads !! i = Some ri → roads !! j = Some rj → h_road h !! ri = Some oi → h_road h !! rj = Some oj →
    angles !! i = Some ai → angles !! j = Some aj →
    section_used h oi cp = Some s1 → first_section h oj = Some s2 → lane_counts h s1 = (l, rr) → lane_counts h s2 = (l, rr) →
    1 ≤ l → exists_in h_sec h s1 → fiszero (fdiv (fofZ 1) r) = false → fiszero (fneg (fdiv (fofZ 1) r)) = false →
    ∃ x h' gs, junction_road roads angles r junction sp ap ll cp i num j h = (Ok x, h') ∧ reachable h' ∧ untouched h h' ∧
      connecting_course h h' gs r ll sp ap (fsub (fsub aj ai) fpi) ∧
      new_road_joined h h' x (PInt num) junction gs l l (bw (left_width h s1)) bm (road_link "predecessor" (rd_id oi) cp) (road_link "successor" (rd_id oj) cp_start).
  Proof.
    intros Hr Hi Hj Hoi Hoj Hai Haj S1 S2 C1 C2 Hl [s Hs] Z1 Z2.
    assert (∃ a, lane_at h s1 (LeftOf 0) = Some a) as [a Ha].
    { unfold lane_at. rewrite Hs. unfold lane_counts in C1. rewrite (lookup_total_correct _ _ _ Hs) in C1. injection C1 as C1 _.
      destruct (ls_left s); [simpl in C1; lia|]. by eexists. }
    pose proof (C46_equal h ri rj oi oj cp s1 s2 a Hoi Hoj S1 S2 (eq_trans C1 (eq_sym C2)) Ha) as EO. rewrite C1 /= in EO.
    assert (Hw : left_width h s1 = ln_a (h_lane h !!! a)) by (unfold left_width; by rewrite Ha).
    rewrite -Hw in EO. clear Hw. set (turn := fsub (fsub aj ai) fpi).
    assert (∃ x h1 gs, (if fiszero (fsign turn) then create_straight_road (PInt num) ll junction l (left_width h s1)
       else create_cloth_arc_cloth (fdiv (fofZ 1) r) (fmul turn ap) (fmul turn sp) (PInt num) junction STD_START_CLOTH l (left_width h s1)) h = (Ok x, h1) ∧
       reachable h1 ∧ untouched h h1 ∧ connecting_course h h1 gs r ll sp ap turn ∧ new_road_with h h1 x (PInt num) junction gs l l (bw (left_width h s1)) bm)
      as (x & h1 & gs & Ex & R1 & U1 & Co & Nw).
    { destruct (fiszero (fsign turn)) eqn:Et.
      - destruct (C44_create_straight_road h (PInt num) ll junction l (left_width h s1) Hr) as (x & h1 & g & E & U & Ng & Eg & Nw).
        exists x, h1, [g]. split_and!; try done; [by apply as_ref_inv|by eapply step_reachable|].
        split; [by intros g' ->%elem_of_list_singleton|]. rewrite Et. by exists g.
      - destruct (C45_create_cloth_arc_cloth h (fdiv (fofZ 1) r) (fmul turn ap) (fmul turn sp) (PInt num) junction STD_START_CLOTH l (left_width h s1) Hr)
          as (x & h1 & g1 & g2 & g3 & E & U & (N1 & N2 & N3) & E1 & E2 & E3 & Nw).
        { unfold directed. by destruct (_ && _). }
        exists x, h1, [g1; g2; g3]. split_and!; try done; [by apply as_ref_inv|by eapply step_reachable|].
        split. { intros g'. rewrite !elem_of_cons elem_of_nil. by intros [->|[->|[->|[]]]]. }
        rewrite Et. destruct N1 as [_ [x1 Ex1]], N2 as [_ [x2 Ex2]], N3 as [_ [x3 Ex3]].
        rewrite (lookup_total_correct _ _ _ Ex1) in E1. rewrite (lookup_total_correct _ _ _ Ex2) in E2. rewrite (lookup_total_correct _ _ _ Ex3) in E3.
        exists g1, g2, g3, x1, x3. split_and!; try done. by rewrite Ex2 E2. }
    destruct (join_new h h1 x (PInt num) junction gs l l (bw (left_width h s1)) bm (rd_id oi) (rd_id oj) cp cp_start R1 U1 Nw) as (h2 & EJ & R2 & U2 & Ho2 & G2 & J2).
    exists x, h2, gs. split_and!; try done.
    - unfold junction_road. rewrite Haj Hai Hi Hj. rewrite !bind_ret. rewrite (bind_run _ _ _ _ _ EO). fold turn. rewrite (bind_run _ _ _ _ _ Ex).
      pose proof U1 as (_&_&_&_&_&_&_&_&_&R&_).
      unfold get_road. rewrite bind_gets (lookup_total_correct _ _ _ (R _ _ Hoi)).
      (* the second road is read between the two links *)
      revert EJ. unfold bind. destruct (add_predecessor _ _ _ _ _ h1) as [[[]|e] h1'] eqn:EP; [|done].
      intros EJ. unfold gets. assert (Eoj : h_road h1' !!! rj = oj).
      { pose proof (C46_equal) as _. destruct Nw as (pv & ls & sec & s' & N1 & _ & _ & _ & Er & _).
        rewrite (link_pred_run h1 x _ (Some et_road) (rd_id oi) (Some cp) Er eq_refl) in EP. injection EP as <-. simpl.
        rewrite lookup_total_insert_ne; [|apply lookup_total_correct, R, Hoj]. intros ->. destruct N1. congruence. }
      rewrite Eoj EJ. done.
    - destruct Co as [Cn Cc]. split.
      + intros g Hg. destruct (Cn g Hg) as [A B]. split; [done|]. by rewrite G2.
      + by rewrite G2.
  Qed.

  Section Loops.
    Context (h0 : heap F) (roads : list ref) (angles : list F) (r ll sp ap : F) (junction : Z) (l rr : nat).
    Context (R0 : reachable h0) (ND : NoDup roads) (EX : Forall (exists_in h_road h0) roads) (LA : length roads ≤ length angles).
    Context (LN : ∀ x, x ∈ roads → ends_with_lanes h0 l rr (h_road h0 !!! x)) (L1 : 1 ≤ l).
    Context (Z1 : fiszero (fdiv (fofZ 1) r) = false) (Z2 : fiszero (fneg (fdiv (fofZ 1) r)) = false).

    (** [x] is a road from road [i] to road [j] *)
    Definition connects h h' (i j : nat) (num : Z) (x : ref) : Prop :=
      ∀ ri rj ai aj s1 (cp := if bool_decide (i = 0) then cp_end else cp_start), roads !! i = Some ri → roads !! j = Some rj →
        angles !! i = Some ai → angles !! j = Some aj → section_used h0 (h_road h0 !!! ri) cp = Some s1 →
        ∃ gs, connecting_course h h' gs r ll sp ap (fsub (fsub aj ai) fpi) ∧
          new_road_joined h h' x (PInt num) junction gs l l (bw (left_width h0 s1)) bm
            (road_link "predecessor" (rd_id (h_road h0 !!! ri)) cp) (road_link "successor" (rd_id (h_road h0 !!! rj)) cp_start).
    Definition same_view h : Prop := untouched_but roads h0 h ∧
      ∀ x, x ∈ roads → ∃ o, h_road h !! x = Some o ∧ rd_id o = rd_id (h_road h0 !!! x) ∧ rd_lanes o = rd_lanes (h_road h0 !!! x).

    Lemma road_exists x : x ∈ roads → exists_in h_road h0 x.
    Proof. intros Hx. pose proof EX as E. rewrite Forall_forall in E. by apply E. Qed.
    Lemma connects_later h1 h2 h3 i j num x : untouched_but roads h0 h1 → connects h1 h2 i j num x → untouched_but roads h2 h3 →
      (∀ y, y ∈ roads → is_Some (h_road h1 !! y)) → connects h0 h3 i j num x.
    Proof.
      intros U1 C U2 Hy ri rj ai aj s1 cp Hi Hj Hai Haj Hs. destruct (C ri rj ai aj s1 Hi Hj Hai Haj Hs) as (gs & Cc & Cj). exists gs. split.
      - by eapply course_later.
      - by eapply joined_later.
    Qed.
    Lemma view_exists h : same_view h → ∀ y, y ∈ roads → is_Some (h_road h !! y).
    Proof. intros [_ V] y Hy. destruct (V y Hy) as (o & -> & _). by eexists. Qed.
    Lemma view_untouched h h' : same_view h → untouched h h' → same_view h'.
    Proof.
      intros [U V] U'. split.
      - eapply but_trans; [done|]. eapply but_more; [|by apply untouched_as]. apply list_subseteq_nil.
      - intros x Hx. destruct (V x Hx) as (o & E & ?). exists o. split; [|done]. by apply U'.
    Qed.
    Lemma view_sections h x o : same_view h → x ∈ roads → h_road h !! x = Some o → sections h o = sections h0 (h_road h0 !!! x).
    Proof.
      intros [U V] Hx Ho. destruct (V x Hx) as (o' & E & _ & El). rewrite Ho in E. injection E as <-. unfold sections. rewrite El.
      destruct (nd_road_lanes h0 x (reachable_no_dangling _ R0) (road_exists x Hx)) as [v Hv].
      destruct U as (_&_&_&_&K&_). by rewrite (lookup_total_correct _ _ _ (K _ _ Hv)) (lookup_total_correct _ _ _ Hv).
    Qed.
    Lemma view_section h x o cp s : same_view h → x ∈ roads → h_road h !! x = Some o → section_used h0 (h_road h0 !!! x) cp = Some s →
      section_used h o cp = Some s ∧ exists_in h_sec h s ∧ lane_counts h s = (l, rr) ∧ left_width h s = left_width h0 s.
    Proof.
      intros Hv Hx Ho Hs. pose proof (view_sections h x o Hv Hx Ho) as Es. pose proof (reachable_no_dangling _ R0) as N.
      assert (s ∈ sections h0 (h_road h0 !!! x) ∧ lane_counts h0 s = (l, rr)) as [Hin Hc].
      { destruct (LN x Hx) as (s1 & s2 & F1 & F2 & C1 & C2). destruct cp; simpl in Hs.
        - unfold last_section in *. rewrite F2 in Hs. injection Hs as <-. split; [|done]. rewrite last_lookup in F2. by eapply elem_of_list_lookup_2.
        - unfold first_section in *. rewrite F1 in Hs. injection Hs as <-. split; [|done]. rewrite -head_lookup in F1 || rewrite head_lookup in F1. by eapply elem_of_list_lookup_2. }
      assert (exists_in h_sec h0 s) as [v Hvs].
      { unfold sections in Hin. eapply nd_lanes_sec; [done| |exact Hin]. by apply nd_road_lanes, road_exists. }
      destruct Hv as [(_&_&Kl&Ks&_) _]. split_and!.
      - destruct cp; simpl in *; unfold first_section, last_section in *; by rewrite Es.
      - exists v. by apply Ks.
      - rewrite -Hc. by eapply counts_kept.
      - unfold left_width. rewrite (lane_at_kept _ _ _ _ _ Hvs Ks). destruct (lane_at h0 s (LeftOf 0)) as [a|] eqn:Ea; [|done].
        unfold lane_at in Ea. rewrite Hvs in Ea. assert (Ha : exists_in h_lane h0 a).
        { eapply nd_sec_left; [done|by eexists|]. rewrite (lookup_total_correct _ _ _ Hvs). by eapply elem_of_list_lookup_2. }
        destruct Ha as [y Hy]. by rewrite (lookup_total_correct _ _ _ Hy) (lookup_total_correct _ _ _ (Kl _ _ Hy)).
    Qed.

    Lemma inner_run i : i < length roads → ∀ js h num, reachable h → same_view h → (∀ j, j ∈ js → j < length roads) →
      let cp := if bool_decide (i = 0) then cp_end else cp_start in
      ∃ xs h', junction_inner roads angles r junction sp ap ll cp i num js h = (Ok xs, h') ∧ reachable h' ∧ untouched h h' ∧ length xs = length js ∧ ((∀ x, x ∈ xs → all_new h h' x) ∧ strangers h' xs) ∧
        ∀ k j, js !! k = Some j → ∃ x, xs !! k = Some x ∧ connects h0 h' i j (num + Z.of_nat k) x.
    Proof.
      intros Hi js h num Hr Hv Hjs cp. revert h num Hr Hv Hjs. induction js as [|j js IH]; intros h num Hr Hv Hjs.
      { exists [], h. split_and!; try done; [by apply untouched_as, but_refl|intros x Hx; by apply elem_of_nil in Hx]. }
      destruct (lookup_lt_is_Some_2 roads i) as [ri Eri]; [done|]. destruct (lookup_lt_is_Some_2 roads j) as [rj Erj]; [apply Hjs; left|].
      destruct (lookup_lt_is_Some_2 angles i) as [ai Eai]; [lia|]. destruct (lookup_lt_is_Some_2 angles j) as [aj Eaj].
      { eapply Nat.lt_le_trans; [|exact LA]. apply Hjs. left. }
      pose proof (elem_of_list_lookup_2 _ _ _ Eri) as Mi. pose proof (elem_of_list_lookup_2 _ _ _ Erj) as Mj.
      destruct (proj2 Hv ri Mi) as (oi & Eoi & Ii & _). destruct (proj2 Hv rj Mj) as (oj & Eoj & Ij & _).
      assert (∃ s1, section_used h0 (h_road h0 !!! ri) cp = Some s1) as [s1 S1].
      { destruct (LN ri Mi) as (a & b & A & B & _). destruct cp; simpl; eauto. }
      assert (∃ s2, section_used h0 (h_road h0 !!! rj) cp_end = Some s2) as [s2 S2].
      { destruct (LN rj Mj) as (a & b & A & B & _). simpl; eauto. }
      destruct (view_section h ri oi cp s1 Hv Mi Eoi S1) as (U1 & X1 & C1 & W1).
      destruct (view_section h rj oj cp_end s2 Hv Mj Eoj S2) as (U2 & X2 & C2 & _).
      destruct (junction_road_run h roads angles r junction sp ap ll cp i j num ri rj oi oj s1 s2 ai aj l rr Hr Eri Erj Eoi Eoj Eai Eaj U1 U2 C1 C2 L1 X1 Z1 Z2)
        as (x & h1 & gs & E1 & Rh1 & Un1 & Co & Jo).
      destruct (IH h1 (num + 1)%Z Rh1 (view_untouched _ _ Hv Un1)) as (xs & h2 & E2 & Rh2 & Un2 & Ll & [An2 St2] & Hk).
      { intros j' Hj'. apply Hjs. by right. }
      assert (Un2' : untouched_but roads h1 h2). { eapply but_more; [|by apply untouched_as]. apply list_subseteq_nil. }
      exists (x :: xs), h2. split_and!.
      - cbn [junction_inner]. rewrite (bind_run _ _ _ _ _ E1) (bind_run _ _ _ _ _ E2). done.
      - done.
      - apply untouched_as. eapply but_trans; by apply untouched_as.
      - simpl. by rewrite Ll.
      - intros y [->|Hy]%elem_of_cons.
        + eapply (all_new_later [] h h h1 h2); [apply but_refl|by apply untouched_as|intros z Hr'; by apply elem_of_nil in Hr'|by eapply joined_all_new].
        + eapply (all_new_later [] h h1 h2 h2); [by apply untouched_as|apply but_refl|intros z Hr'; by apply elem_of_nil in Hr'|by apply An2].
      - apply (strangers_app [] h h1 h2 [x] xs); [by apply untouched_as|intros z Hr'; by apply elem_of_nil in Hr'| |done| |done].
        + intros y ->%elem_of_list_singleton. by eapply joined_all_new.
        + intros [|i'] [|j'] y y' Hy Hy' Hne; simpl in *; done.
      - intros [|k] j' Hkj; simpl in Hkj.
        + injection Hkj as <-. exists x. split; [done|]. rewrite Z.add_0_r. eapply (connects_later h h1); [apply Hv| |done|by apply view_exists].
          intros ri' rj' ai' aj' s1' cp' Hi' Hj' Hai' Haj' Hs'. simplify_eq. exists gs. split; [done|].
          unfold cp' in *. fold cp in Hs' |- *. rewrite S1 in Hs'. injection Hs' as <-. by rewrite -W1 -Ii -Ij.
        + destruct (Hk k j' Hkj) as (y & Hy & Hc). exists y. split; [done|]. by replace (num + Z.of_nat (S k))%Z with (num + 1 + Z.of_nat k)%Z by lia.
    Qed.

    Definition pairs_from (a c : nat) : list (nat * nat) := concat (map (λ i, map (λ j, (i, j)) (seq (S i) (length roads - S i))) (seq a c)).
    Context (FR : ∀ i x, roads !! i = Some x → (if bool_decide (i = 0) then rd_succ (h_road h0 !!! x) else rd_pred (h_road h0 !!! x)) = None).
    Definition stage (a : nat) h : Prop := ∀ m x, roads !! m = Some x →
      h_road h !! x = Some (if bool_decide (m < a) then attached m junction (h_road h0 !!! x) else h_road h0 !!! x).

    Lemma attached_id i o : rd_id (attached i junction o) = rd_id o. Proof. unfold attached. by case_bool_decide. Qed.
    Lemma attached_lanes i o : rd_lanes (attached i junction o) = rd_lanes o. Proof. unfold attached. by case_bool_decide. Qed.
    Lemma stage_view a h : stage a h → untouched_but roads h0 h → same_view h.
    Proof.
      intros St U. split; [done|]. intros x [m Hm]%elem_of_list_lookup. eexists. split; [by apply St|].
      case_bool_decide; [by rewrite attached_id attached_lanes|done].
    Qed.
    Lemma attach_run a x h : roads !! a = Some x → stage a h → untouched_but roads h0 h → reachable h → ∃ h',
      (if bool_decide (a = 0) then add_successor x (Some et_junction) (PInt junction) None 0
       else add_predecessor x (Some et_junction) (PInt junction) None 0) h = (Ok tt, h') ∧ stage (S a) h' ∧ untouched_but roads h0 h' ∧ reachable h' ∧
      untouched_but roads h h'.
    Proof.
      intros Ha St U Hr. pose proof (St a x Ha) as E. rewrite bool_decide_false in E; [lia|]. pose proof (FR a x Ha) as Fr.
      exists (h <| h_road := <[x := attached a junction (h_road h0 !!! x)]> (h_road h) |>).
      assert (G : (if bool_decide (a = 0) then add_successor x (Some et_junction) (PInt junction) None 0
       else add_predecessor x (Some et_junction) (PInt junction) None 0) h = (Ok tt, h <| h_road := <[x := attached a junction (h_road h0 !!! x)]> (h_road h) |>)).
      { unfold attached. case_bool_decide.
        - by rewrite (link_succ_run _ _ _ _ _ _ E Fr).
        - by rewrite (link_pred_run _ _ _ _ _ _ E Fr). }
      assert (B : untouched_but roads h (h <| h_road := <[x := attached a junction (h_road h0 !!! x)]> (h_road h) |>)).
      { apply but_upd. by eapply elem_of_list_lookup_2. }
      split_and!; [done| |by eapply but_trans| |done].
      - intros m y Hm. simpl. destruct (decide (m = a)) as [->|Hne].
        + rewrite Ha in Hm. injection Hm as <-. rewrite lookup_insert bool_decide_true //. lia.
        + rewrite lookup_insert_ne. { intros ->. apply Hne. eapply NoDup_lookup; eauto. }
          rewrite (St m y Hm). do 2 f_equal. destruct (decide (m < a)); [rewrite !bool_decide_true //; lia|rewrite !bool_decide_false //; lia].
      - revert G. case_bool_decide; intros G.
        + eapply (step_reachable (OpAddSuccessor x (Some et_junction) (PInt junction) None 0) h); [done|]. unfold step.
          rewrite guarded_true; [by apply has_true; eexists|]. by apply as_unit_ok.
        + eapply (step_reachable (OpAddPredecessor x (Some et_junction) (PInt junction) None 0) h); [done|]. unfold step.
          rewrite guarded_true; [by apply has_true; eexists|]. by apply as_unit_ok.
    Qed.

    Lemma stage_exists a h z : stage a h → z ∈ roads → is_Some (h_road h !! z).
    Proof. intros St [m Hm]%elem_of_list_lookup. eexists. by apply St. Qed.
    Lemma outer_run : ∀ c a h num, a + c ≤ length roads → reachable h → stage a h → untouched_but roads h0 h →
      ∃ xs h', junction_outer roads angles r junction sp ap ll num (seq a c) h = (Ok xs, h') ∧ reachable h' ∧ stage (a + c) h' ∧ untouched_but roads h0 h' ∧
        untouched_but roads h h' ∧ length xs = length (pairs_from a c) ∧ ((∀ x, x ∈ xs → all_new h h' x) ∧ strangers h' xs) ∧
        ∀ k i j, pairs_from a c !! k = Some (i, j) → ∃ x, xs !! k = Some x ∧ connects h0 h' i j (num + Z.of_nat k) x.
    Proof.
      induction c as [|c IH]; intros a h num Hac Hr St U.
      { exists [], h. rewrite Nat.add_0_r. split_and!; try done; [apply but_refl|intros x Hx; by apply elem_of_nil in Hx]. }
      destruct (lookup_lt_is_Some_2 roads a) as [x Hx]; [lia|].
      destruct (attach_run a x h Hx St U Hr) as (h1 & E1 & St1 & U1 & Hr1 & B1).
      destruct (inner_run a ltac:(lia) (seq (S a) (length roads - S a)) h1 num Hr1 (stage_view _ _ St1 U1)) as (ys & h2 & E2 & Hr2 & B2 & L2 & [A2 S2] & K2).
      { intros j Hj. apply elem_of_seq in Hj. lia. }
      assert (B2' : untouched_but roads h1 h2). { eapply but_more; [|by apply untouched_as]. apply list_subseteq_nil. }
      assert (St2 : stage (S a) h2). { intros m y Hm. destruct B2 as (_&_&_&_&_&_&_&_&_&R&_). by apply R, St1. }
      destruct (IH (S a) h2 (num + Z.of_nat (length (seq (S a) (length roads - S a))))%Z ltac:(lia) Hr2 St2 (but_trans _ _ _ _ U1 B2')) as (xs & h3 & E3 & Hr3 & St3 & U3 & B3 & L3 & [A3 S3] & K3).
      exists (ys ++ xs), h3. split_and!.
      - cbn [seq junction_outer]. rewrite Hx. rewrite bind_ret. rewrite (bind_run _ _ _ _ _ E1) (bind_run _ _ _ _ _ E2). by rewrite (bind_run _ _ _ _ _ E3).
      - done.
      - by rewrite Nat.add_succ_r.
      - done.
      - eapply but_trans; [done|]. by eapply but_trans.
      - unfold pairs_from in *. cbn [seq map concat]. rewrite !app_length L2 L3 map_length. done.
      - intros y [Hy|Hy]%elem_of_app.
        + eapply (all_new_later roads h h1 h2 h3); [done|done|intros z Hr'; by eapply (stage_exists (S a))|by apply A2].
        + eapply (all_new_later roads h h2 h3 h3); [by eapply but_trans|apply but_refl|intros z Hr'; by eapply (stage_exists (S a))|by apply A3].
      - eapply (strangers_app roads h1 h2 h3 ys xs); [done|intros z Hr'; by eapply (stage_exists (S a))|done|done|done|done].
      - intros k i j Hk. unfold pairs_from in Hk, K3, L3. cbn [seq map concat] in Hk. apply lookup_app_Some in Hk as [Hk|[Hle Hk]].
        + rewrite list_lookup_fmap in Hk. destruct (seq (S a) (length roads - S a) !! k) as [j'|] eqn:Ej; [|done]. injection Hk as -> ->.
          destruct (K2 k j Ej) as (y & Hy & Hc). exists y. split; [by apply lookup_app_l_Some|]. eapply (connects_later h0 h2); [apply but_refl|exact Hc|done|].
          intros z Hz. by apply road_exists.
        + rewrite map_length in Hle, Hk. destruct (K3 _ i j Hk) as (y & Hy & Hc). exists y. split.
          * apply lookup_app_Some. right. rewrite L2. by split.
          * by replace (num + Z.of_nat k)%Z with (num + Z.of_nat (length (seq (S a) (length roads - S a))) + Z.of_nat (k - length (seq (S a) (length roads - S a))))%Z by lia.
    Qed.
  End Loops.
End JunctionRoads.
