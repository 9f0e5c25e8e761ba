(** * C32: create_junction_roads *)
From Coq Require Import ssreflect.
From Verif.Model Require Import Api.
From Verif.Inst Require Import Quarter.
From Verif.Spec Require Import SpecState SpecHistory SpecLanes SpecGenerate SpecJunctionRoads.
From Verif.Proof Require Import Monad DictFacts PlanViewFacts NetFrame Reach Steps History Invariants LaneLinks Generate JunctionRoads.
From Verif.Properties Require Import PHistory PLaneLinks PGenerators.
Local Open Scope general_if_scope.
Local Open Scope nat_scope.

Section JunctionRoads.
  Context {F : Type} `{!Num F}.
  Implicit Types (h : heap F).

  (** the pairs listed by [pairs n] are all the pairs i < j < n, each once; there are n (n - 1) / 2 of them *)
  Theorem C32_pairs n : (∀ i j, (i, j) ∈ pairs n ↔ i < j < n) ∧ NoDup (pairs n) ∧ 2 * length (pairs n) = n * (n - 1).
  Proof. split_and!; [intros; apply elem_of_pairs|apply NoDup_pairs|apply length_pairs]. Qed.

  Theorem C32_create_junction_roads h roads angles r junction sp ap num l rr ll : reachable h → NoDup roads → 2 ≤ length roads ≤ length angles →
    Forall (exists_in h_road h) roads → (∀ x, x ∈ roads → ends_with_lanes h l rr (h_road h !!! x)) → 1 ≤ l →
    (∀ i x, roads !! i = Some x → (if bool_decide (i = 0) then rd_succ (h_road h !!! x) else rd_pred (h_road h !!! x)) = None) →
    junction_linelength r sp = Ok ll → fiszero (fdiv (fofZ 1) r) = false → fiszero (fneg (fdiv (fofZ 1) r)) = false →
    ∃ js h', step (OpCreateJunctionRoads roads angles r junction sp ap num) h = (Ok (RRefs js), h') ∧ untouched_but roads h h' ∧
      (* the roads are attached to the junction *)
      (∀ i x, roads !! i = Some x → h_road h' !! x = Some (attached i junction (h_road h !!! x))) ∧
      (* one new road for each pair *)
      length js = length (pairs (length roads)) ∧ NoDup js ∧
      (* the new roads have no planview and no lane in common *)
      (∀ x y, x ∈ js → y ∈ js → x ≠ y → ¬ in_common h' x y) ∧
      ∀ k i j ri rj ai aj s1, pairs (length roads) !! k = Some (i, j) → roads !! i = Some ri → roads !! j = Some rj →
        angles !! i = Some ai → angles !! j = Some aj →
        (if bool_decide (i = 0) then first_section h (h_road h !!! ri) else last_section h (h_road h !!! ri)) = Some s1 →
        ∃ x gs, js !! k = Some x ∧ connecting_course h h' gs r ll sp ap (fsub (fsub aj ai) fpi) ∧
          new_road_joined h h' x (PInt (num + Z.of_nat k)) junction gs l l (λ p, match p with Centre => fofZ 3 | _ => left_width h s1 end) (λ _, standard_mark rmt_broken)
            (road_link "predecessor" (rd_id (h_road h !!! ri)) (if bool_decide (i = 0) then cp_end else cp_start))
            (road_link "successor" (rd_id (h_road h !!! rj)) cp_start).
  Proof.
    intros Hr ND [L2 LA] EX LN L1 FR ELL Z1 Z2.
    assert (St0 : stage h roads junction 0 h).
    { intros m x Hm. rewrite bool_decide_false; [lia|]. apply exists_at. rewrite Forall_forall in EX. apply EX. by eapply elem_of_list_lookup_2. }
    destruct (outer_run h roads angles r ll sp ap junction l rr Hr ND EX LA LN L1 Z1 Z2 FR (length roads - 1) 0 h num ltac:(lia) Hr St0 (but_refl _ _))
      as (js & h1 & E & Hr1 & St & U & _ & Ll & [An Sg] & K). rewrite Nat.add_0_l in St.
    destruct (last roads) as [x|] eqn:Ex; [|apply last_None in Ex; subst; simpl in L2; lia].
    rewrite last_lookup in Ex. replace (pred (length roads)) with (length roads - 1) in Ex by lia.
    destruct (attach_run h roads angles junction l ND LA L1 FR (length roads - 1) x h1 Ex St U Hr1) as (h2 & E2 & St2 & U2 & Hr2 & B2).
    rewrite (bool_decide_false (length roads - 1 = 0)) in E2; [lia|].
    assert (EP : pairs (length roads) = pairs_from roads 0 (length roads - 1)).
    { unfold pairs, pairs_from. assert (ES : seq 0 (length roads) = seq 0 (length roads - 1) ++ [length roads - 1]).
      { clear -L2. destruct (length roads) as [|m]; [lia|]. rewrite seq_S. simpl. by rewrite Nat.sub_0_r. }
      rewrite ES map_app concat_app.
      simpl. replace (length roads - S (length roads - 1)) with 0 by lia. simpl. by rewrite app_nil_r. }
    assert (K' : ∀ k i j, pairs (length roads) !! k = Some (i, j) → ∃ x, js !! k = Some x ∧ connects h roads angles r ll sp ap junction l h h2 i j (num + Z.of_nat k) x).
    { intros k i j Hk. rewrite EP in Hk. destruct (K k i j Hk) as (y & Hy & Hc). exists y. split; [done|].
      eapply (connects_later h roads angles r ll sp ap junction l h h1); [apply but_refl|exact Hc|done|].
      intros z Hz. rewrite Forall_forall in EX. by apply EX. }
    exists js, h2. split_and!.
    - assert (EC : create_junction_roads roads angles r junction sp ap num h = (Ok js, h2)).
      { unfold create_junction_roads. rewrite ELL. rewrite bind_lift_ok. rewrite (bind_run _ _ _ _ _ E).
        rewrite last_lookup. replace (pred (length roads)) with (length roads - 1) by lia. rewrite Ex.
        unfold or_raise. rewrite bind_ret. by rewrite (bind_run _ _ _ _ _ E2). }
      unfold step. rewrite guarded_true; [by apply all_have_true|]. unfold as_refs. by rewrite (bind_run _ _ _ _ _ EC).
    - done.
    - intros i y Hi. rewrite (St2 i y Hi) bool_decide_true //. apply lookup_lt_Some in Hi. lia.
    - by rewrite EP.
    - apply NoDup_alt. intros k1 k2 y H1 H2.
      assert (G : ∀ k, js !! k = Some y → ∃ o, h_road h2 !! y = Some o ∧ rd_id o = PInt (num + Z.of_nat k)).
      { intros k Hk. apply lookup_lt_Some in Hk as Hlt. rewrite Ll -EP in Hlt. destruct (lookup_lt_is_Some_2 _ _ Hlt) as [[i j] Hp].
        destruct (K' k i j Hp) as (y' & Hy' & Hc). rewrite Hk in Hy'. injection Hy' as <-.
        apply elem_of_list_lookup_2 in Hp as Hin. apply elem_of_pairs in Hin.
        destruct (lookup_lt_is_Some_2 roads i) as [ri Hri]; [lia|]. destruct (lookup_lt_is_Some_2 roads j) as [rj Hrj]; [lia|].
        destruct (lookup_lt_is_Some_2 angles i) as [ai Hai]; [lia|]. destruct (lookup_lt_is_Some_2 angles j) as [aj Haj]; [lia|].
        destruct (LN ri (elem_of_list_lookup_2 _ _ _ Hri)) as (s1 & s2 & F1 & F2 & _).
        destruct (Hc ri rj ai aj (if bool_decide (i = 0) then s1 else s2) Hri Hrj Hai Haj) as (gs & _ & (pv & ls & sec & sc & _ & _ & _ & _ & Er & _)).
        { by case_bool_decide. }
        by eexists. }
      destruct (G k1 H1) as (o1 & O1 & I1), (G k2 H2) as (o2 & O2 & I2). rewrite O1 in O2. injection O2 as <-. rewrite I1 in I2. injection I2. lia.
    - intros y y' [m Hm]%elem_of_list_lookup [m' Hm']%elem_of_list_lookup Hne. apply (strangers_later roads h h1 h2 js B2) with (i := m) (j := m'); [|done|done|done|done|congruence].
      intros z Hz. rewrite Forall_forall in EX. by apply EX.
    - intros k i j ri rj ai aj s1 Hk Hri Hrj Hai Haj Hs. destruct (K' k i j Hk) as (x' & Hx' & Hc).
      destruct (Hc ri rj ai aj s1 Hri Hrj Hai Haj) as (gs & C1 & C2); [by revert Hs; case_bool_decide|]. exists x', gs. done.
  Qed.
End JunctionRoads.

(** ** A concrete call: three roads with 2 left lanes and 1 right lane *)
Section Examples.
  Local Existing Instance QNum.
  Definition three : list (op Z) := road_ops 0 (PInt 1) (-1) [(2, 1)] ++ road_ops 8 (PInt 2) (-1) [(2, 1)] ++ road_ops 16 (PInt 3) (-1) [(2, 1)].
  Example C32_example_hypotheses : let h := run heap_init three in let roads := [2; 10; 18] in
    NoDup roads ∧ 2 ≤ length roads ≤ length [0; 2; 1]%Z ∧ Forall (exists_in h_road h) roads ∧ (∀ x, x ∈ roads → ends_with_lanes h 2 1 (h_road h !!! x)) ∧
    (∀ i x, roads !! i = Some x → (if bool_decide (i = 0) then rd_succ (h_road h !!! x) else rd_pred (h_road h !!! x)) = None) ∧
    (∃ ll, junction_linelength 1%Z 1%Z = Ok ll) ∧ fiszero (fdiv (fofZ 1) 1)%Z = false ∧ fiszero (fneg (fdiv (fofZ 1) 1))%Z = false.
  Proof.
    intros h roads. split_and!.
    - apply (bool_decide_unpack _); vm_compute; exact I.
    - simpl. lia.
    - simpl. lia.
    - repeat constructor; eexists; vm_compute; reflexivity.
    - intros x Hx. rewrite !elem_of_cons elem_of_nil in Hx. destruct Hx as [->|[->|[->|[]]]]; eexists _, _; split_and!; vm_compute; reflexivity.
    - intros i x Hx. destruct i as [|[|[|i]]]; simpl in Hx; try discriminate; injection Hx as <-; vm_compute; reflexivity.
    - eexists. vm_compute. reflexivity.
    - vm_compute. reflexivity.
    - vm_compute. reflexivity.
  Qed.
  Example C32_example : match step (OpCreateJunctionRoads [2; 10; 18] [0; 2; 1]%Z 1%Z 100 1%Z 1%Z 7) (run heap_init three) with
    | (Ok (RRefs js), h) => map (λ x, let o := h_road h !!! x in (rd_id o, lk_id <$> rd_pred o, lk_contact <$> rd_pred o, lk_id <$> rd_succ o)) js =
        [(PInt 7, Some (PInt 1), Some (Some cp_end), Some (PInt 2)); (PInt 8, Some (PInt 1), Some (Some cp_end), Some (PInt 3));
         (PInt 9, Some (PInt 2), Some (Some cp_start), Some (PInt 3))]
        ∧ map (λ x, length (pv_raw (h_pv h !!! rd_planview (h_road h !!! x)))) js = [1; 3; 3] ∧
        map (λ x, map (lane_counts h) (sections h (h_road h !!! x))) js = [[(2, 2)]; [(2, 2)]; [(2, 2)]]
    | _ => False end.
  Proof. vm_compute. split_and!; reflexivity. Qed.
End Examples.

Print Assumptions C32_pairs.
Print Assumptions C32_create_junction_roads.
