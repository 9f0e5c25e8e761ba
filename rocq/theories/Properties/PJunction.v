(** * C30 - C31: create_junction *)
From Coq Require Import ssreflect.
From Verif.Model Require Import Api.
From Verif.Inst Require Import Quarter.
From Verif.Spec Require Import SpecState SpecHistory SpecLanes SpecGenerate SpecJunction.
From Verif.Proof Require Import Monad DictFacts PlanViewFacts NetFrame Reach Steps History Invariants LaneLinks Generate JunctionFacts.
From Verif.Properties Require Import PHistory PLaneLinks PGenerators.
Local Open Scope general_if_scope.
Local Open Scope nat_scope.

Section Junction.
  Context {F : Type} `{!Num F}.
  Implicit Types (h : heap F) (o : road).

  (** ** C30: two connections per connecting road, in order, numbered from 0; no existing object changes *)
  Theorem C30_connections h jrs id roads : reachable h → Forall (exists_in h_road h) jrs → Forall (exists_in h_road h) roads →
    (∀ r, r ∈ jrs → well_joined h roads (h_road h !!! r)) →
    ∃ j h' J, step (OpCreateJunction jrs id roads) h = (Ok (RRef j), h') ∧ untouched h h' ∧ is_new h_junc h h' j ∧
      h_junc h' !! j = Some J ∧ jn_id J = id ∧ length (jn_conns J) = 2 * length jrs ∧ NoDup (jn_conns J) ∧
      (∀ c, c ∈ jn_conns J → is_new h_conn h h' c) ∧
      ∀ k r o, jrs !! k = Some r → h_road h !! r = Some o →
        (∀ o' cp sec, joins o o' "successor" cp (rd_off_suc o) → last_section h o = Some sec → ∃ c,
          jn_conns J !! (2 * k) = Some c ∧ h_conn h' !! c = Some (mkConnection (rd_id o') (rd_id o) cp_end (Some (PInt (Z.of_nat (2 * k))))
            (junction_links h sec (opposed "successor" cp) 0 (rd_off_suc o)))) ∧
        (∀ o' cp sec, joins o o' "predecessor" cp (rd_off_pred o) → first_section h o = Some sec → ∃ c,
          jn_conns J !! (2 * k + 1) = Some c ∧ h_conn h' !! c = Some (mkConnection (rd_id o') (rd_id o) cp_start (Some (PInt (Z.of_nat (2 * k + 1))))
            (junction_links h sec (opposed "predecessor" cp) (rd_off_pred o) 0))).
  Proof.
    intros Hr Hj Hrs Hw. pose proof (reachable_no_dangling _ Hr) as N.
    destruct (junction_loop h "my junction" id roads jrs [] Hw) as (new & E & Hl & Hn). simpl app in E.
    assert (E0 : junction_ctor "my junction" id h = (Ok (h_next h), jst h "my junction" id [])).
    { unfold junction_ctor, new_junc, jst. simpl. by rewrite Nat.add_0_r. }
    set (h' := jst h "my junction" id new).
    assert (Hnew : ∀ i x, new !! i = Some x → h_conn h' !! (S (h_next h) + i) = Some x).
    { intros i x Hi. unfold h', jst. simpl h_conn. by apply (ins_from_new new (S (h_next h)) (h_conn h) i x). }
    exists (h_next h), h', (mkJunction "my junction" id (seq (S (h_next h)) (length new)) (Z.of_nat (length new))). split_and!.
    - unfold step. rewrite guarded_true; [by rewrite !all_have_true|]. apply as_ref_ok. unfold create_junction.
      rewrite (bind_run _ _ _ _ _ E0). by rewrite (bind_run _ _ _ _ _ E).
    - apply untouched_run; [done|..]; [intros x Hx; unfold h', jst; simpl; try done; rewrite ?ins_from_old ?lookup_insert_ne //; lia ..|done].
    - eapply new_in; [by apply nd_junc|done|]. unfold h', jst. simpl. apply lookup_insert.
    - unfold h', jst. simpl. apply lookup_insert.
    - done.
    - cbn [jn_conns]. by rewrite seq_length.
    - cbn [jn_conns]. apply NoDup_ListNoDup, seq_NoDup.
    - cbn [jn_conns]. intros c Hc. apply elem_of_seq in Hc. destruct (lookup_lt_is_Some_2 new (c - S (h_next h))) as [x Hx]; [lia|].
      eapply new_in; [by apply nd_conn|lia|]. specialize (Hnew _ _ Hx). replace (S (h_next h) + (c - S (h_next h))) with c in Hnew by lia. exact Hnew.
    - cbn [jn_conns]. intros k r o Hk Ho. destruct (Hn k r Hk) as [N1 N2]. rewrite (lookup_total_correct _ _ _ Ho) in N1, N2.
      split; intros o' cp sec J Hs.
      + specialize (N1 o' cp sec J Hs). exists (S (h_next h) + 2 * k). apply lookup_lt_Some in N1 as Hlt. split; [by rewrite lookup_seq_lt|].
        by rewrite (Hnew _ _ N1).
      + specialize (N2 o' cp sec J Hs). exists (S (h_next h) + (2 * k + 1)). apply lookup_lt_Some in N2 as Hlt. split; [by rewrite lookup_seq_lt|].
        by rewrite (Hnew _ _ N2).
  Qed.

  (** ** C31: the junction's lane links and the lanes' own links (given by create_lane_links) *)
  (** predecessor side: they agree, for every lane offset *)
  Theorem C31_predecessor h jrs id roads k r r' o o' cp s1 s2 :
    reachable h → Forall (exists_in h_road h) jrs → Forall (exists_in h_road h) roads →
    (∀ r, r ∈ jrs → well_joined h roads (h_road h !!! r)) →
    jrs !! k = Some r → h_road h !! r = Some o → h_road h !! r' = Some o' → joins o o' "predecessor" cp (rd_off_pred o) →
    first_section h o = Some s1 → first_section h o' = Some s2 → exists_in h_sec h s1 → exists_in h_sec h s2 → numbered h s2 →
    (lane_counts h s1).1 ≤ (lane_counts h s2).1 → (lane_counts h s1).2 ≤ (lane_counts h s2).2 → NoDup (side_lanes h s1) →
    ∃ j h' J c x hl, step (OpCreateJunction jrs id roads) h = (Ok (RRef j), h') ∧ h_junc h' !! j = Some J ∧
      jn_conns J !! (2 * k + 1) = Some c ∧ h_conn h' !! c = Some x ∧ step (OpCreateLaneLinks r r') h = (Ok RNone, hl) ∧
      ∀ f t p a, (f, t) ∈ cn_links x → p ≠ Centre → lane_number p = t → lane_at h s1 p = Some a →
        h_lane hl !!! a = with_link (h_lane h !!! a) (lane_link "predecessor" (pretty f)).
  Proof.
    intros Hr Hj Hrs Hw Hk Ho Ho' J P1 P2 X1 X2 Nu C1 C2 ND.
    destruct (C30_connections h jrs id roads Hr Hj Hrs Hw) as (j & h' & Jn & E & _ & _ & EJ & _ & _ & _ & _ & Hc).
    destruct (proj2 (Hc k r o Hk Ho) o' cp s1 J P1) as (c & Hc1 & Hc2).
    destruct (C27_connecting h r r' o o' "predecessor" cp (rd_off_pred o) s1 s2 Ho Ho' J P1 P2 X1 X2 Nu C1 C2 ND) as (hl & El & _ & _ & Hl).
    exists j, h', Jn, c. eexists _, hl. split_and!; [done|done|done|exact Hc2|done|].
    intros f t p a Hft Hp Ht Ha. rewrite (Hl p a Hp Ha). do 3 f_equal. cbn [cn_links] in Hft. unfold junction_links in Hft.
    apply elem_of_list_In, in_map_iff in Hft as (q & [= <- <-] & _). rewrite Ht. destruct (opposed _ _); lia.
  Qed.
  (** successor side: with lane offset [off] the lane is linked to lane [f + 2 * off] of the other road instead of [f] when start meets
      end, so they agree exactly when the offset is 0; they always agree when end meets end *)
  Theorem C31_successor h jrs id roads k r r' o o' cp s1 s2 :
    reachable h → Forall (exists_in h_road h) jrs → Forall (exists_in h_road h) roads →
    (∀ r, r ∈ jrs → well_joined h roads (h_road h !!! r)) →
    jrs !! k = Some r → h_road h !! r = Some o → h_road h !! r' = Some o' → joins o o' "successor" cp (rd_off_suc o) →
    last_section h o = Some s1 → last_section h o' = Some s2 → exists_in h_sec h s1 → exists_in h_sec h s2 → numbered h s2 →
    (lane_counts h s1).1 ≤ (lane_counts h s2).1 → (lane_counts h s1).2 ≤ (lane_counts h s2).2 → NoDup (side_lanes h s1) →
    ∃ j h' J c x hl, step (OpCreateJunction jrs id roads) h = (Ok (RRef j), h') ∧ h_junc h' !! j = Some J ∧
      jn_conns J !! (2 * k) = Some c ∧ h_conn h' !! c = Some x ∧ step (OpCreateLaneLinks r r') h = (Ok RNone, hl) ∧
      ∀ f t p a, (f, t) ∈ cn_links x → p ≠ Centre → lane_number p = t → lane_at h s1 p = Some a →
        h_lane hl !!! a = with_link (h_lane h !!! a)
          (lane_link "successor" (pretty (f + match cp with cp_end => 0 | cp_start => 2 * rd_off_suc o end)%Z)).
  Proof.
    intros Hr Hj Hrs Hw Hk Ho Ho' J P1 P2 X1 X2 Nu C1 C2 ND.
    destruct (C30_connections h jrs id roads Hr Hj Hrs Hw) as (j & h' & Jn & E & _ & _ & EJ & _ & _ & _ & _ & Hc).
    destruct (proj1 (Hc k r o Hk Ho) o' cp s1 J P1) as (c & Hc1 & Hc2).
    destruct (C27_connecting h r r' o o' "successor" cp (rd_off_suc o) s1 s2 Ho Ho' J P1 P2 X1 X2 Nu C1 C2 ND) as (hl & El & _ & _ & Hl).
    exists j, h', Jn, c. eexists _, hl. split_and!; [done|done|done|exact Hc2|done|].
    intros f t p a Hft Hp Ht Ha. rewrite (Hl p a Hp Ha). do 3 f_equal. cbn [cn_links] in Hft. unfold junction_links in Hft.
    apply elem_of_list_In, in_map_iff in Hft as (q & [= <- <-] & _). rewrite Ht. destruct cp; [rewrite (_ : opposed "successor" cp_start = false) //|rewrite (_ : opposed "successor" cp_end = true) //]; lia.
  Qed.
  (** every lane of the connecting road occurs in the junction's links when the offset is 0 and the roads run in the same direction or
      have equally many lanes on both sides (predecessor side) *)
  Theorem C31_covers h sec (opp : bool) from_off p : p ≠ Centre → (opp = true → (lane_counts h sec).1 = (lane_counts h sec).2) →
    is_Some (lane_at h sec p) → ∃ f, (f, lane_number p) ∈ junction_links h sec opp from_off 0.
  Proof.
    intros Hp Ho [a Ha]. unfold lane_at in Ha. destruct (h_sec h !! sec) as [s|] eqn:Es; [|done].
    pose proof (lookup_total_correct _ _ _ Es) as Et. unfold lane_counts in Ho. rewrite Et in Ho. cbn [fst snd] in Ho.
    assert (GL : ∀ i, i < length (ls_left s) → LeftOf i ∈ junction_places h sec).
    { intros i Hi. unfold junction_places, lane_counts. rewrite Et. apply elem_of_app. right. apply elem_of_list_In, in_map, in_seq. cbn. lia. }
    assert (GR : ∀ i, i < length (ls_right s) → RightOf i ∈ junction_places h sec).
    { intros i Hi. unfold junction_places, lane_counts. rewrite Et. apply elem_of_app. left. apply elem_of_list_In, in_map, in_seq. cbn. lia. }
    assert (∃ q, q ∈ junction_places h sec ∧ lane_number p = (if opp then - lane_number q else lane_number q)%Z) as (q & Hq & En).
    { destruct p as [|i|i]; [done| |]; apply lookup_lt_Some in Ha; destruct opp.
      - exists (RightOf i). split; [apply GR; rewrite -Ho //|cbn; lia].
      - exists (LeftOf i). auto.
      - exists (LeftOf i). split; [apply GL; rewrite Ho //|cbn; lia].
      - exists (RightOf i). auto. }
    exists (lane_number q + from_off)%Z. unfold junction_links. apply elem_of_list_In, in_map_iff. exists q. split; [|by apply elem_of_list_In].
    f_equal. rewrite En. destruct opp; lia.
  Qed.
End Junction.

(** ** Concrete states *)
Section Examples.
  Local Existing Instance QNum.
  Local Notation two_ends off1 off2 cp2 := (run heap_init (connected [(2, 1)] 8 cp_end cp2 off1 off2)).
  (** the connecting road of [connected] meets the hypotheses of C30 and C31 *)
  Example C30_example_joined : well_joined (two_ends 1%Z 0%Z cp_end) [2; 10] (h_road (two_ends 1%Z 0%Z cp_end) !!! 18).
  Proof.
    split_and!.
    - exists (h_road (two_ends 1%Z 0%Z cp_end) !!! 10), cp_end. split; [vm_compute; reflexivity|].
      eapply (joins_end _ _ _ cp_end); try (vm_compute; reflexivity); [vm_compute; done|vm_compute; done|]. intros L. vm_compute. by intros [= <-].
    - exists (h_road (two_ends 1%Z 0%Z cp_end) !!! 2), cp_end. split; [vm_compute; reflexivity|].
      eapply (joins_start _ _ _ cp_end); try (vm_compute; reflexivity); [vm_compute; done|]. intros L. vm_compute. by intros [= <-].
    - vm_compute. done.
  Qed.
  Example C30_example : let h := (step (OpCreateJunction [18] (PInt 7) [2; 10]) (two_ends 1%Z 0%Z cp_end)).2 in
    map (λ c, h_conn h !!! c) (jn_conns (h_junc h !!! (h_next h - 3))) =
      [mkConnection (PInt 2) (PInt 3) cp_end (Some (PInt 0)) [(-1, 1); (1, -1); (2, -2)]%Z;
       mkConnection (PInt 1) (PInt 3) cp_start (Some (PInt 1)) [(0, -1); (2, 1); (3, 2)]%Z].
  Proof. vm_compute; reflexivity. Qed.
  (** C31 is false on the successor side: with offset 1 lane 1 of the connecting road is linked to lane 2 of road 2, but the junction
      says that lane 2 of the connecting road is connected to lane 1 of road 2 *)
  Theorem C31_refuted : let h := run (two_ends 0%Z 1%Z cp_start) [OpCreateJunction [18] (PInt 7) [2; 10]; OpCreateLaneLinks 18 10] in
    lane_at h 20 (LeftOf 0) = Some 21 ∧ links_at h [21; 22] = [[S_ "2"]; [S_ "3"]] ∧
    (cn_incoming (h_conn h !!! 25), cn_connecting (h_conn h !!! 25), cn_links (h_conn h !!! 25)) = (PInt 2, PInt 3, [(-1, 0); (1, 2); (2, 3)]%Z).
  Proof. split_and!; vm_compute; reflexivity. Qed.
End Examples.

Print Assumptions C30_connections.
Print Assumptions C31_predecessor.
Print Assumptions C31_successor.
Print Assumptions C31_covers.
