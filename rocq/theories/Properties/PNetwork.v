(** * C13 - C20: placing the road network *)
From Coq Require Import ssreflect Reals.
From Verif.Model Require Import Api.
From Verif.Inst Require Import Quarter Real.
From Verif.Spec Require Import SpecNetwork.
From Verif.Proof Require Import Monad DictFacts PlanViewFacts NetFrame Network.
Local Open Scope general_if_scope.
Local Open Scope nat_scope.

Section Network.
  Context {F : Type} `{!Num F}.

  (** ** C13: termination.  The while loop of [adjust_startpoints] is the fuelled [place_loop]; a unit of fuel is one sweep. *)
  Theorem C13_terminates (d : ref) (h : heap F) : (adjust_startpoints d h).1 ≠ Err OutOfFuel.
  Proof.
    destruct (adjust_startpoints d h) as [r h'] eqn:E. simpl. intros ->.
    apply adjust_startpoints_raises in E. unfold while_exn, place_exn in E. naive_solver.
  Qed.
  (** as many sweeps as there are roads are enough from any intermediate state: allowing more changes nothing *)
  Theorem C13_sweeps (d : ref) (h : heap F) (total n m : nat) :
    length (net_keys h d) - total ≤ n → length (net_keys h d) - total ≤ m → place_loop n d total h = place_loop m d total h.
  Proof.
    revert m total h. induction n as [|n IH]; intros m total h Hn Hm.
    - destruct m; [done|]. cbn [place_loop]. unfold get_odr. rewrite !bind_gets.
      unfold net_keys in Hn. rewrite map_length in Hn. destruct (decide _); [lia|done].
    - destruct m as [|m].
      + cbn [place_loop]. unfold get_odr. rewrite !bind_gets.
        unfold net_keys in Hm. rewrite map_length in Hm. destruct (decide _); [lia|done].
      + cbn [place_loop]. unfold get_odr. rewrite !bind_gets. unfold net_keys in Hn, Hm. rewrite map_length in Hn Hm.
        destruct (decide _); [|done]. unfold bind.
        destruct (sweep d (dict_keys (od_roads (h_odr h !!! d))) h) as [[k|e] h1] eqn:E; [|done].
        destruct (decide _) as [Hd|Hd]; [done|].
        assert (Hf : net_frame d h h1) by (change h1 with (Ok k, h1).2; rewrite -E; apply nf_sweep).
        assert (k ≠ 0 ∨ total + k = length (od_roads (h_odr h !!! d))) by lia.
        apply IH; unfold net_keys; rewrite map_length (nf_odr _ _ _ Hf); lia.
  Qed.
  (** the exceptions it can raise *)
  Theorem C13_exceptions (d : ref) (h h' : heap F) e : adjust_startpoints d h = (Err e, h') →
    e ∈ [TypeError; IndexError; ZeroDivisionError; KeyError; UnboundLocalError; UndefinedRoadNetwork].
  Proof.
    intros E. apply adjust_startpoints_raises in E. rewrite !elem_of_cons. unfold while_exn, place_exn in E. naive_solver.
  Qed.

  (** ** C14: on success every road is placed exactly once *)
  Theorem C14_all_placed (d : ref) (h h' : heap F) :
    fresh_network h d → adjust_startpoints d h = (Ok tt, h') →
    ∀ k o, road_named h d k = Some o →
      pv_adjusted (view h' o) = true ∧
      (map pg_geom (pv_geoms (view h' o)) = pv_raw (view h o) ∨ map pg_geom (pv_geoms (view h' o)) = rev (pv_raw (view h o))).
  Proof.
    intros Hf E k o Ho. destruct (adjust_startpoints_result h d Hf _ _ E) as (ord & HR & Hp).
    assert (Hk : k ∈ ord) by (rewrite Hp; apply (keys_named h d); by eexists).
    pose proof (ri_inv _ _ _ _ HR) as HI. split; [by apply (ni_adj _ _ _ _ HI k)|].
    assert (Hfw : ∀ p p' q, put_forward h p p' q → map pg_geom (pv_geoms p') = pv_raw p).
    { intros p p' q (_ & _ & e & Hc & _). by eapply chain_geoms. }
    assert (Hbw : ∀ p p' q, put_backward h p p' q → map pg_geom (pv_geoms p') = rev (pv_raw p)).
    { intros p p' q (_ & _ & rs & ls & e & Hc & Hm & _). rewrite -(back_chain_geoms _ _ _ _ _ _ Hc).
      apply (f_equal (map pg_geom)) in Hm. rewrite !map_map in Hm. exact Hm. }
    assert (Hpa : ∀ b q, put_at h o (view h' o) b q →
      map pg_geom (pv_geoms (view h' o)) = pv_raw (view h o) ∨ map pg_geom (pv_geoms (view h' o)) = rev (pv_raw (view h o))).
    { intros [] q Hq; [left; by eapply Hfw|right; by eapply Hbw]. }
    apply elem_of_list_split in Hk as (pre & suf & Eo).
    destruct (ni_just _ _ _ _ HI pre k suf Eo) as [(_ & o' & Ho' & Hpf)|(k2 & _ & Ha)].
    - assert (o' = o) as -> by congruence. left. by eapply Hfw.
    - destruct Ha as [o'|o'|o'|o']; (assert (o' = o) as -> by congruence); by eapply Hpa.
  Qed.

  (** ** C15: there is an order in which the roads were placed: each is a root, or attached to a road placed before it *)
  Theorem C15_attached (d : ref) (h h' : heap F) :
    fresh_network h d → adjust_startpoints d h = (Ok tt, h') →
    ∃ ord, ord ≡ₚ net_keys h d ∧
      ∀ pre k suf, ord = pre ++ k :: suf → root_placed h h' d k ∨ ∃ k2, k2 ∈ pre ∧ attached h h' d k k2.
  Proof.
    intros Hf E. destruct (adjust_startpoints_result h d Hf _ _ E) as (ord & HR & Hp). exists ord. split; [done|].
    apply (ri_inv _ _ _ _ HR).
  Qed.

  (** ** C16: fixed roads (and the first road if none is fixed) stay where the user put them *)
  Theorem C16_fixed_stay (d : ref) (h h' : heap F) k o :
    fresh_network h d → adjust_startpoints d h = (Ok tt, h') →
    road_named h d k = Some o → root h d k →
    pv_start (view h' o) = Some (pv_x (view h o), pv_y (view h o), pv_h (view h o)).
  Proof.
    intros Hf E Ho Hr. destruct (adjust_startpoints_result h d Hf _ _ E) as (ord & HR & Hp).
    assert (Hk : k ∈ ord) by (rewrite Hp; apply (keys_named h d); by eexists).
    destruct (ni_rootp _ _ _ _ (ri_inv _ _ _ _ HR) k Hk Hr) as (_ & o' & Ho' & Hpf).
    assert (o' = o) as -> by congruence. apply Hpf.
  Qed.

  (** ** C17: UndefinedRoadNetwork means that nothing more can be attached *)
  Theorem C17_undefined (d : ref) (h h' : heap F) :
    fresh_network h d → adjust_startpoints d h = (Err UndefinedRoadNetwork, h') →
    (∃ k, k ∈ net_keys h d ∧ ¬ road_adjusted h' d k) ∧
    (∀ k k2, k ∈ net_keys h d → ¬ road_adjusted h' d k → road_link h d k k2 → ¬ road_adjusted h' d k2) ∧
    (∀ k, k ∈ net_keys h d → root h d k → road_adjusted h' d k).
  Proof.
    intros Hf E. destruct (adjust_startpoints_result h d Hf _ _ E) as (ord & HR & Hl & Hst).
    pose proof (ri_inv _ _ _ _ HR) as HI.
    assert (Hadj : ∀ k, road_adjusted h' d k ↔ k ∈ ord).
    { intros k. unfold road_adjusted. split.
      - intros (o & Ho & Ha). rewrite (named_frame h d h' (ni_frame _ _ _ _ HI)) in Ho. by apply (ni_adj _ _ _ _ HI k o Ho).
      - intros Hk. destruct (ni_keys _ _ _ _ HI k Hk) as [o Ho]. exists o.
        rewrite (named_frame h d h' (ni_frame _ _ _ _ HI)). split; [done|]. by apply (ni_adj _ _ _ _ HI k o Ho). }
    split; [|split].
    - destruct (decide (Forall (λ k, k ∈ ord) (net_keys h d))) as [Hall|Hnot].
      + exfalso. rewrite Forall_forall in Hall. apply (NoDup_submseteq _ _ (fn_keys _ _ Hf)) in Hall.
        apply submseteq_length in Hall. lia.
      + apply not_Forall_Exists in Hnot; [|apply _]. apply Exists_exists in Hnot as (k & Hk & Hn). exists k. by rewrite Hadj.
    - intros k k2 Hk Hn Hlk. rewrite Hadj. rewrite Hadj in Hn. destruct (Hst k Hk) as [?|Hs]; [done|]. by apply Hs.
    - intros k Hk Hr. apply Hadj. apply (ri_roots _ _ _ _ HR); [done|]. by apply (keys_named h d).
  Qed.

  (** ** C18: connected networks are placed, whatever the insertion order *)
  Theorem C18_connected (d : ref) (h : heap F) :
    fresh_network h d → well_linked h d → connects_ordinary h d → net_keys h d ≠ [] →
    (∀ k, k ∈ net_keys h d → anchored h d k) →
    ∃ h', adjust_startpoints d h = (Ok tt, h').
  Proof. intros Hf HW HC. by apply adjust_startpoints_run. Qed.

  (** ** C19: a road whose predecessor is a junction can only be placed if the junction's id is also a road id
      (unless it is a root or a connecting road names it) *)
  Theorem C19_junction_id_must_be_road_id (d : ref) (h : heap F) k o L :
    fresh_network h d → road_named h d k = Some o → ¬ root h d k → ¬ named_by_connecting h d k →
    rd_pred o = Some L → lk_etype L = Some et_junction → pystr (lk_id L) ∉ net_keys h d →
    ∀ h', adjust_startpoints d h ≠ (Ok tt, h').
  Proof.
    intros Hf Ho Hr Hn HL _ Hid h' E. destruct (adjust_startpoints_result h d Hf _ _ E) as (ord & HR & Hp).
    assert (Hk : k ∈ ord) by (rewrite Hp; apply (keys_named h d); by eexists).
    destruct (ri_pred _ _ _ _ HR k o L Hk Hr Ho HL) as [Hs|?]; [|done]. apply Hid. by apply (keys_named h d).
  Qed.

  (** ** C20: placement touches only geometry, whatever the outcome *)
  Theorem C20_frame (d : ref) (h h' : heap F) r : adjust_startpoints d h = (r, h') →
    (h_lane h' = h_lane h ∧ h_sec h' = h_sec h ∧ h_lanes h' = h_lanes h ∧ h_linker h' = h_linker h ∧ h_conn h' = h_conn h ∧
     h_junc h' = h_junc h ∧ h_obj h' = h_obj h ∧ h_road h' = h_road h ∧ h_odr h' = h_odr h ∧ h_ids h' = h_ids h) ∧
    (* planviews of other roads are unchanged; no planview loses geometries, headings or the fixed mark *)
    (∀ p, (∀ k o, road_named h d k = Some o → rd_planview o ≠ p) → h_pv h' !!! p = h_pv h !!! p) ∧
    (∀ p, pv_raw (h_pv h' !!! p) = pv_raw (h_pv h !!! p) ∧ pv_over (h_pv h' !!! p) = pv_over (h_pv h !!! p) ∧
          pv_fixed (h_pv h' !!! p) = pv_fixed (h_pv h !!! p)) ∧
    (* primitives only change by being evaluated *)
    (∀ g, evolves (h_geom h !!! g) (h_geom h' !!! g)).
  Proof.
    intros E. assert (Hf : net_frame d h h') by (change h' with (r, h').2; rewrite -E; apply nf_adjust_startpoints).
    destruct Hf. split_and!; done.
  Qed.
End Network.

(** in exact arithmetic: a lateral displacement by 3 per lane, to the left of the heading *)
Theorem C15_lateral (rstr : R → string) (n : Z) (x y h : R) :
  beside (Num0 := RNum rstr) n (x, y, h) = (x - 3 * IZR n * sin h, y + 3 * IZR n * cos h, h)%R.
Proof. unfold beside. cbn. rewrite opp_IZR. f_equal; f_equal; ring. Qed.

(** ** Non-vacuity and witnesses (arithmetic: quarter turns) *)
(** a road made of one line; its reference is [n + 3] *)
Definition line_road (n : nat) (id ty : Z) (len : Z) (start : option Z) : list (op Z) :=
  [OpLine len; OpPlanView start start start; OpAddGeometry (n + 1) n None; OpLanes; OpRoad (PInt id) (n + 1) (n + 2) ty None None].

(** roads 1 (fixed), 2, a connecting road 3 from 1 to 2, and 4 after 2 with lane offset 1; inserted in the order 4, 2, 3, 1 *)
Definition four_roads : list (op Z) :=
  line_road 0 1 (-1) 10 (Some 0%Z) ++ line_road 4 2 (-1) 20 None ++ line_road 8 3 100 30 None ++ line_road 12 4 (-1) 40 None ++
  [OpAddPredecessor 11 (Some et_road) (PInt 1) (Some cp_end) 0; OpAddSuccessor 11 (Some et_road) (PInt 2) (Some cp_start) 0;
   OpAddPredecessor 15 (Some et_road) (PInt 2) (Some cp_end) 1;
   OpOpenDrive "net"; OpAddRoad 16 15; OpAddRoad 16 7; OpAddRoad 16 11; OpAddRoad 16 3].

Lemma dict_get_In {V} (m : dict V) k v : dict_get m k = Some v → (k, v) ∈ m.
Proof.
  induction m as [|[k' v'] m IH]; simpl; [done|]. destruct (String.eqb_spec k k') as [->|]; [intros [= ->]; by left|].
  intros H. right. by apply IH.
Qed.
Lemma road_named_In {F} `{!Num F} (h : heap F) d k o : road_named h d k = Some o →
  (k, o) ∈ map (λ p, (p.1, h_road h !!! p.2)) (od_roads (h_odr h !!! d)).
Proof.
  unfold road_named. destruct (dict_get _ k) as [r|] eqn:E; [|done]. simpl. intros [= <-].
  apply (elem_of_list_fmap_1 (λ p : string * nat, (p.1, h_road h !!! p.2)) _ (k, r)). by apply dict_get_In.
Qed.

(** case analysis on which road [H : road_named h d k = Some o] is *)
Ltac named H :=
  apply road_named_In in H;
  match type of H with
  | _ ∈ ?l => let l' := eval vm_compute in l in replace l with l' in H by (vm_compute; reflexivity)
  end;
  rewrite !elem_of_cons elem_of_nil in H;
  repeat (destruct H as [H|H]; [injection H as ? ?; subst|]); [..|destruct H].

Section Example.
  Let h := run heap_init four_roads.
  Example four_fresh : fresh_network h 16.
  Proof.
    split.
    - apply (bool_decide_unpack _). vm_compute. exact I.
    - intros k1 k2 o1 o2 H1 H2. named H1; named H2; done.
    - intros k o H1. named H1; by vm_compute.
  Qed.
  Example four_linked : well_linked h 16.
  Proof.
    split.
    - intros k o L H1. named H1; cbn [rd_pred rd_succ]; intros [HL|HL]; simplify_eq; (split; [vm_compute; by eexists|done]).
    - intros k o g H1. named H1;
      match goal with |- g ∈ ?l → _ => let l' := eval vm_compute in l in replace l with l' by (vm_compute; reflexivity) end;
      (intros Hg; apply elem_of_list_singleton in Hg; subst g; by vm_compute).
    - intros k o H1. named H1; left; by vm_compute.
  Qed.
  Example four_connects : connects_ordinary h 16.
  Proof.
    intros c oc L o H1 Hty HL. named H1; cbn [rd_pred rd_succ rd_type] in Hty, HL; try (by destruct Hty);
      (destruct HL as [HL|HL]; injection HL as <-; intros Ho; vm_compute in Ho; injection Ho as <-; reflexivity).
  Qed.
  Lemma four_root k : root h 16 k ↔ k = "1".
  Proof.
    assert (H1 : fixed_road h 16 "1") by (eexists; split; [vm_compute; reflexivity|done]).
    split.
    - intros [(o & Ho & Hf)|[Hno _]]; [|by destruct (Hno "1")]. named Ho; [by vm_compute in Hf..|done].
    - intros ->. by left.
  Qed.
  Example four_anchored k : k ∈ net_keys h 16 → anchored h 16 k.
  Proof.
    assert (A1 : anchored h 16 "1") by (apply an_root; [by apply four_root|by apply (bool_decide_unpack _); vm_compute]).
    assert (L3 : road_link h 16 "3" "1").
    { eexists _, _. split; [vm_compute; reflexivity|]. split; [by left|]. done. }
    assert (A3 : anchored h 16 "3") by (by eapply an_link).
    assert (A2 : anchored h 16 "2").
    { eapply (an_conn _ _ "2" "3" "1"); [vm_compute; reflexivity|done|by rewrite four_root|done|done|by right|done]. }
    assert (A4 : anchored h 16 "4").
    { eapply (an_link _ _ "4" "2"); [|done]. eexists _, _. split; [vm_compute; reflexivity|]. split; [by left|]. done. }
    intros Hk. assert (E : net_keys h 16 = ["4"; "2"; "3"; "1"]) by (vm_compute; reflexivity).
    rewrite E !elem_of_cons elem_of_nil in Hk. destruct_or! Hk; subst; done.
  Qed.
  (** so C14 - C16 and C18 apply: and the poses are as expected *)
  Example four_placed : ∃ h', adjust_startpoints 16 h = (Ok tt, h') ∧
    map (λ r, (pv_start (view h' (h_road h' !!! r)), pv_end (view h' (h_road h' !!! r)))) [3; 11; 7; 15] =
    [(Some (0, 0, 0), Some (10, 0, 0)); (Some (10, 0, 0), Some (40, 0, 0)); (Some (40, 0, 0), Some (60, 0, 0));
     (Some (60, 3, 0), Some (100, 3, 0))]%Z.
  Proof. eexists. split; [apply run_ok; vm_compute; reflexivity|vm_compute; reflexivity]. Qed.
End Example.

(** C17 is not vacuous: two unlinked roads *)
Definition two_islands : list (op Z) :=
  line_road 0 1 (-1) 10 None ++ line_road 4 2 (-1) 20 None ++ [OpOpenDrive "net"; OpAddRoad 8 3; OpAddRoad 8 7].
Example C17_example : ∃ h', adjust_startpoints 8 (run heap_init two_islands) = (Err UndefinedRoadNetwork, h').
Proof. eexists. apply run_err. vm_compute. reflexivity. Qed.
(** C17 without freshness is false: adjusting a placed network again raises UndefinedRoadNetwork, although all roads are placed *)
Theorem C17_refuted_second_call :
  ∃ (h h1 h2 : heap Z) d, reachable h ∧ adjust_startpoints d h = (Ok tt, h1) ∧
    adjust_startpoints d h1 = (Err UndefinedRoadNetwork, h2) ∧ ∀ k, k ∈ net_keys h d → road_adjusted h2 d k.
Proof.
  exists (run heap_init (two_islands ++ [OpAddPredecessor 7 (Some et_road) (PInt 1) (Some cp_end) 0])).
  eexists _, _, 8. split; [by eexists|]. split; [apply run_ok; vm_compute; reflexivity|].
  split; [apply run_err; vm_compute; reflexivity|].
  intros k Hk.
  match type of Hk with _ ∈ ?l => replace l with ["1"; "2"] in Hk by (vm_compute; reflexivity) end.
  rewrite !elem_of_cons elem_of_nil in Hk. destruct Hk as [->|[->|[]]]; (eexists; split; [vm_compute; reflexivity|vm_compute; reflexivity]).
Qed.

(** C19: for every junction id that is not one of the two road ids, the call raises KeyError *)
Definition junction_net (j : pyid) : list (op Z) :=
  line_road 0 1 (-1) 10 None ++ line_road 4 2 (-1) 20 None ++
  [OpAddPredecessor 7 (Some et_junction) j None 0; OpAddSuccessor 7 (Some et_road) (PInt 1) (Some cp_end) 0; OpOpenDrive "net"; OpAddRoad 8 3; OpAddRoad 8 7].
Example C19_example (j : pyid) : pystr j ≠ "1" → pystr j ≠ "2" →
  let h := run heap_init (junction_net j) in
  fresh_network h 8 ∧ ¬ root h 8 "2" ∧ ¬ named_by_connecting h 8 "2" ∧ pystr j ∉ net_keys h 8 ∧
  ∃ o L, road_named h 8 "2" = Some o ∧ rd_pred o = Some L ∧ lk_etype L = Some et_junction ∧ lk_id L = j.
Proof.
  intros H1 H2 h. split_and!.
  - split.
    + apply (bool_decide_unpack _). vm_compute. exact I.
    + intros k1 k2 o1 o2 Ho1 Ho2. named Ho1; named Ho2; done.
    + intros k o Ho. named Ho; by vm_compute.
  - intros [(o & Ho & Hf)|[_ Hh]]; [|by vm_compute in Hh]. vm_compute in Ho. injection Ho as <-. vm_compute in Hf. discriminate Hf.
  - intros (c & oc & L & Ho & Hty & _). named Ho; by destruct Hty.
  - replace (net_keys h 8) with ["1"; "2"] by (vm_compute; reflexivity). rewrite !elem_of_cons elem_of_nil. clear h. naive_solver.
  - eexists _, _. split; [vm_compute; reflexivity|]. split_and!; reflexivity.
Qed.
Theorem C19_refuted (j : pyid) : pystr j ≠ "1" → pystr j ≠ "2" →
  ∃ h', adjust_startpoints 8 (run heap_init (junction_net j)) = (Err KeyError, h').
Proof.
  intros H1 H2. apply String.eqb_neq in H1. apply String.eqb_neq in H2.
  rewrite adjust_startpoints_split.
  assert (∃ h1, first_phase (run heap_init (junction_net j)) 8 (run heap_init (junction_net j)) = (Ok 1, h1) ∧
    od_roads (h_odr h1 !!! 8) = [("1", 3); ("2", 7)] ∧ pv_adjusted (h_pv h1 !!! rd_planview (h_road h1 !!! 3)) = true ∧
    pv_adjusted (h_pv h1 !!! rd_planview (h_road h1 !!! 7)) = false ∧
    rd_pred (h_road h1 !!! 7) = Some (mkLink (Some "predecessor") j (Some et_junction) None None)) as (h1 & E1 & E2 & E3 & E4 & E5).
  { eexists. split; [apply run_ok; vm_compute; reflexivity|]. split_and!; vm_compute; reflexivity. }
  replace (length (od_roads (h_odr (run heap_init (junction_net j)) !!! 8))) with 2 by (vm_compute; reflexivity).
  clear -H1 H2 E1 E2 E3 E4 E5.
  exists h1. rewrite (bind_run _ _ _ _ _ E1). cbn [place_loop]. unfold get_odr. rewrite bind_gets E2.
  destruct (decide _) as [_|Hn]; [|by destruct Hn; simpl; lia].
  apply bind_run_err. cbn [dict_keys map fst sweep].
  assert (E6 : sweep_road 8 "1" h1 = (Ok 0, h1)).
  { unfold sweep_road, get_odr. rewrite bind_gets E2. unfold road_at. change (dict_get [("1", 3); ("2", 7)] "1") with (Some 3). cbn [or_raise]. rewrite bind_ret.
    unfold get_road, get_pv. by rewrite !bind_gets E3. }
  rewrite (bind_run _ _ _ _ _ E6). apply bind_run_err.
  apply bind_run_err. unfold sweep_road, get_odr. rewrite bind_gets E2. unfold road_at. change (dict_get [("1", 3); ("2", 7)] "2") with (Some 7). cbn [or_raise]. rewrite bind_ret.
  unfold get_road, get_pv. rewrite !bind_gets E4. apply bind_run_err. rewrite E5. cbn [link_ready].
  apply bind_run_err. unfold link_target_adjusted. apply bind_run_err. unfold planview_at. apply bind_run_err.
  unfold road_at. cbn [dict_get lk_id]. by rewrite H1 H2.
Qed.

Print Assumptions C13_terminates.
Print Assumptions C13_sweeps.
Print Assumptions C13_exceptions.
Print Assumptions C14_all_placed.
Print Assumptions C15_attached.
Print Assumptions C15_lateral.
Print Assumptions C16_fixed_stay.
Print Assumptions C17_undefined.
Print Assumptions C17_refuted_second_call.
Print Assumptions C18_connected.
Print Assumptions C19_junction_id_must_be_road_id.
Print Assumptions C19_refuted.
Print Assumptions C20_frame.
