(** * C46: what create_junction_roads asks of all pairs of its roads *)
From Coq Require Import ssreflect.
From Verif.Model Require Import Api.
From Verif.Inst Require Import Quarter.
From Verif.Spec Require Import SpecState SpecFrame SpecLanes SpecGenerate.
From Verif.Proof Require Import Monad DictFacts PlanViewFacts Reach Steps Invariants Frame.
From Verif.Properties Require Import PHistory PGenerators.
Local Unset SsrOldRewriteGoalsOrder.
Local Open Scope general_if_scope.
Local Open Scope nat_scope.
Local Open Scope list_scope.

Section JunctionPairs.
  Context {F : Type} `{!Num F}.
  Implicit Types (h : heap F).

  (** the lane sections of the roads of [h0] are as in [h0] *)
  Definition sections_as h0 h : Prop := h_next h0 ≤ h_next h ∧
    (∀ r o, r < h_next h0 → h_road h0 !! r = Some o → ∃ o', h_road h !! r = Some o' ∧ rd_lanes o' = rd_lanes o) ∧
    ∀ r, r < h_next h0 → h_lanes h !! r = h_lanes h0 !! r ∧ h_sec h !! r = h_sec h0 !! r.
  Lemma as_refl h : sections_as h h.
  Proof. split; [lia|]. split; [intros r o _ Ho; by exists o|done]. Qed.

  Lemma as_upd h0 h r (f : road → road) h' : (∀ o, rd_lanes (f o) = rd_lanes o) → sections_as h0 h → upd_road r f h = (Ok tt, h') → sections_as h0 h'.
  Proof.
    intros Hf (N & K & S) E. unfold upd_road, modify in E. injection E as <-. split; [done|]. split; [|done].
    intros y o Hy Ho. destruct (K y o Hy Ho) as (o' & H' & L). simpl. destruct (decide (y = r)) as [->|Hne]; [|rewrite lookup_insert_ne //; by exists o'].
    rewrite lookup_insert. eexists. split; [done|]. by rewrite Hf (lookup_total_correct _ _ _ H').
  Qed.
  Lemma as_link h0 h (b : bool) r et id cp off h' : sections_as h0 h →
    (if b then add_successor r et id cp off else add_predecessor r et id cp off) h = (Ok tt, h') → sections_as h0 h'.
  Proof.
    intros HK E. destruct b; unfold add_successor, add_predecessor, get_road in E; rewrite bind_gets in E; [destruct (rd_succ _)|destruct (rd_pred _)]; try done;
      apply bind_ok in E as (k & h1 & E1 & E);
      (assert (h1 = h) as -> by (unfold lift in E1; by destruct (mk_link _ _ _ _ _); injection E1)); by eapply as_upd; [|exact HK|exact E].
  Qed.
  Lemma as_road h0 h roads angles r junction sp ap ll cp i num j x h' : sections_as h0 h →
    junction_road roads angles r junction sp ap ll cp i num j h = (Ok x, h') → sections_as h0 h'.
  Proof.
    intros (N & K & S) E. pose proof (ot_junction_road (h_next h0) (λ _, False) roads angles r junction sp ap ll cp i num j h I N) as (_ & N' & _ & M & _).
    rewrite E in N', M. cbn [snd] in N', M. split; [done|]. split.
    - intros y o Hy Ho. destruct (K y o Hy Ho) as (o' & H' & L). exists o'. split; [|done]. destruct (M y Hy (λ x, x)) as (_&_&_&_&_&_&_&_&_&-> &_). done.
    - intros y Hy. destruct (S y Hy) as [S1 S2]. destruct (M y Hy (λ x, x)) as (_&_&_& -> & -> &_). done.
  Qed.

  (** the lanes of road [rj] and of road [ri], at its contact [cp], have been compared in a state with the given sections *)
  Definition compared h0 (roads : list ref) i cp j : Prop := ∃ ri rj h1 n w h2, roads !! i = Some ri ∧ roads !! j = Some rj ∧ sections_as h0 h1 ∧
    get_lanes_offset ri rj cp h1 = (Ok (n, w), h2).
  Lemma inner_compared h0 roads angles r junction sp ap ll cp i js : ∀ num h xs h', sections_as h0 h →
    junction_inner roads angles r junction sp ap ll cp i num js h = (Ok xs, h') → sections_as h0 h' ∧ ∀ j, j ∈ js → compared h0 roads i cp j.
  Proof.
    induction js as [|j js IH]; intros num h xs h' HK E; simpl in E; [injection E as _ <-; split; [done|by intros j Hj%elem_of_nil]|].
    apply bind_ok in E as (x & h1 & E1 & E). pose proof (as_road _ _ _ _ _ _ _ _ _ _ _ _ _ _ _ HK E1) as K1.
    apply bind_ok in E as (xs' & h2 & E2 & E). injection E as _ <-. destruct (IH _ _ _ _ K1 E2) as [K2 C]. split; [done|].
    intros j' [->|Hj]%elem_of_cons; [|by apply C]. unfold junction_road in E1.
    apply bind_ok in E1 as (aj & h5 & C2 & E1). apply or_raise_ok in C2 as [_ ->].
    apply bind_ok in E1 as (ai & h5 & C2 & E1). apply or_raise_ok in C2 as [_ ->].
    apply bind_ok in E1 as (ri & h5 & C2 & E1). apply or_raise_ok in C2 as [Hi ->].
    apply bind_ok in E1 as (rj & h5 & C2 & E1). apply or_raise_ok in C2 as [Hj ->].
    apply bind_ok in E1 as ([n w] & h5 & E1 & _). exists ri, rj, h, n, w, h5. done.
  Qed.
  Lemma outer_compared h0 roads angles r junction sp ap ll iss : ∀ num h xs h', sections_as h0 h →
    junction_outer roads angles r junction sp ap ll num iss h = (Ok xs, h') →
    ∀ i j, i ∈ iss → i < j → j < length roads → compared h0 roads i (if bool_decide (i = 0) then cp_end else cp_start) j.
  Proof.
    induction iss as [|i iss IH]; intros num h xs h' HK E i' j Hi' Hij Hj; [by apply elem_of_nil in Hi'|]. simpl in E.
    apply bind_ok in E as (ri & h1 & E1 & E). apply or_raise_ok in E1 as [Hi ->].
    apply bind_ok in E as ([] & h1 & E1 & E). pose proof (as_link h0 h (bool_decide (i = 0)) ri _ _ _ _ h1 HK E1) as K1.
    apply bind_ok in E as (row & h2 & E2 & E). destruct (inner_compared _ _ _ _ _ _ _ _ _ _ _ _ _ _ _ K1 E2) as [K2 C].
    apply bind_ok in E as (rest & h3 & E3 & _). apply elem_of_cons in Hi' as [->|Hi']; [|by eapply (IH _ _ _ _ K2 E3)].
    apply C, elem_of_seq. lia.
  Qed.

  (** The lane sections compared are the first of the first road (the last of the other roads), and the first of each later road. *)
  Theorem C46_all_pairs h roads angles r junction sp ap num js h' : reachable h → step (OpCreateJunctionRoads roads angles r junction sp ap num) h = (Ok (RRefs js), h') →
    ∀ i j ri rj, i < j → roads !! i = Some ri → roads !! j = Some rj →
    ∃ s1 s2, section_used h (h_road h !!! ri) (if bool_decide (i = 0) then cp_end else cp_start) = Some s1 ∧ first_section h (h_road h !!! rj) = Some s2 ∧
      lane_counts h s1 = lane_counts h s2 ∧ (lane_counts h s1).1 ≠ 0.
  Proof.
    intros Hr E i j ri rj Hij Hi Hj. unfold step, guarded in E. destruct (all_have _ _ _) eqn:AH; [|done].
    assert (EX : ∀ y, y ∈ roads → exists_in h_road h y).
    { intros y Hy. revert AH. unfold all_have, has. rewrite forallb_forall. intros H. by apply elem_of_list_In, H, bool_decide_eq_true in Hy. }
    unfold as_refs in E. apply bind_ok in E as (js' & h1 & E & _). unfold create_junction_roads in E. apply bind_ok in E as (ll & h2 & E1 & E).
    assert (h2 = h) as -> by (unfold lift in E1; by destruct (junction_linelength _ _); injection E1). clear E1.
    apply bind_ok in E as (js'' & h2 & E & _). pose proof (lookup_lt_Some _ _ _ Hj) as Lj.
    destruct (outer_compared h roads angles r junction sp ap ll _ num h js'' h2 (as_refl h) E i j) as (ri' & rj' & h3 & n & w & h4 & Hi' & Hj' & (N & K & S) & G); [apply elem_of_seq; lia|done..|].
    rewrite Hi in Hi'. injection Hi' as <-. rewrite Hj in Hj'. injection Hj' as <-. pose proof (reachable_no_dangling _ Hr) as ND.
    assert (Get : ∀ y, y ∈ roads → ∃ o', h_road h3 !! y = Some o' ∧ rd_lanes o' = rd_lanes (h_road h !!! y) ∧ sections h3 o' = sections h (h_road h !!! y)).
    { intros y Hy. destruct (EX y Hy) as [o Ho]. destruct (K y o) as (o' & Ho' & L); [by apply (exists_lt h_road h _ y (nd_road _ ND)); eexists|done|].
      exists o'. split; [done|]. rewrite (lookup_total_correct _ _ _ Ho). split; [done|]. unfold sections. rewrite L.
      assert (XL : exists_in h_lanes h (rd_lanes o)) by (rewrite -(lookup_total_correct _ _ _ Ho); apply nd_road_lanes; [done|by eexists]).
      destruct (S (rd_lanes o)) as [S1 _]; [by apply (exists_lt h_lanes h _ _ (nd_lanes _ ND))|]. by rewrite !lookup_total_alt S1. }
    destruct (Get ri (elem_of_list_lookup_2 _ _ _ Hi)) as (oi & Hoi & Li & Si). destruct (Get rj (elem_of_list_lookup_2 _ _ _ Hj)) as (oj & Hoj & Lj' & Sj).
    destruct (offset_succeeds h3 ri rj oi oj _ n w h4 Hoi Hoj G) as (s1 & s2 & S1 & S2 & Hc & Hn).
    assert (Cnt : ∀ y s, y ∈ roads → s ∈ sections h (h_road h !!! y) → lane_counts h3 s = lane_counts h s).
    { intros y s Hy Hs. assert (XS : exists_in h_sec h s) by (eapply nd_lanes_sec; [done|by apply nd_road_lanes, EX|exact Hs]).
      destruct (S s) as [_ SS]; [by apply (exists_lt h_sec h _ _ (nd_sec _ ND))|]. unfold lane_counts. by rewrite !lookup_total_alt SS. }
    assert (U : section_used h (h_road h !!! ri) (if bool_decide (i = 0) then cp_end else cp_start) = Some s1).
    { unfold section_used, first_section, last_section in *. rewrite Si in S1. done. }
    assert (V : first_section h (h_road h !!! rj) = Some s2) by (unfold first_section in *; by rewrite Sj in S2).
    exists s1, s2. split; [done|]. split; [done|].
    assert (M1 : s1 ∈ sections h (h_road h !!! ri)).
    { destruct (bool_decide (i = 0)); simpl in U; unfold first_section, last_section in U; first [by apply last_Some_elem_of|by apply head_Some_elem_of]. }
    assert (M2 : s2 ∈ sections h (h_road h !!! rj)) by (by apply head_Some_elem_of).
    pose proof (Cnt ri s1 (elem_of_list_lookup_2 _ _ _ Hi) M1) as C1. pose proof (Cnt rj s2 (elem_of_list_lookup_2 _ _ _ Hj) M2) as C2.
    rewrite C1 in Hc, Hn. rewrite C2 in Hc. done.
  Qed.
End JunctionPairs.

Print Assumptions C46_all_pairs.

(** ** A concrete case (arithmetic: quarter turns): three roads *)
Section Examples.
  Local Existing Instance QNum.
  Local Open Scope nat_scope.
  Definition three_straight : list (op Z) :=
    [OpCreateStraightRoad (PInt 0) 100%Z (-1) 2 3%Z; OpCreateStraightRoad (PInt 1) 100%Z (-1) 2 3%Z; OpCreateStraightRoad (PInt 2) 100%Z (-1) 2 3%Z].
  Example C46_all_pairs_example : let h := run heap_init three_straight in
    reachable h ∧ (step (OpCreateJunctionRoads [9; 19; 29] [0; 1; 2]%Z 1%Z 100 1%Z 1%Z 200) h).1 = Ok (RRefs [41; 51; 63]) ∧
    ∃ s1 s2, section_used h (h_road h !!! 19) cp_start = Some s1 ∧ first_section h (h_road h !!! 29) = Some s2 ∧ lane_counts h s1 = (2, 2) ∧ lane_counts h s2 = (2, 2).
  Proof.
    intros h. split; [by eexists|]. split; [vm_compute; reflexivity|]. eexists _, _. split_and!; vm_compute; reflexivity.
  Qed.
End Examples.
Print Assumptions C46_all_pairs_example.
