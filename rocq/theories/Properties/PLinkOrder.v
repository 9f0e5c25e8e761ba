(** * C56: the lane links of a network do not depend on the order in which its roads were added *)
From Coq Require Import ssreflect.
From Verif.Model Require Import Api.
From Verif.Inst Require Import Quarter.
From Verif.Spec Require Import SpecLinkOrder SpecLanes.
From Verif.Proof Require Import Monad DictFacts PlanViewFacts NetFrame Network Again Reach Steps History LinkerFacts LaneLinks LinkAll LinkOrder Layout.
From Verif.Properties Require Import PNetwork PLaneLinks.
Local Unset SsrOldRewriteGoalsOrder.
Local Open Scope general_if_scope.

Section AnyNum.
  Context {F : Type} `{!Num F}.
  Implicit Types (h : heap F) (o : road).

  (** ** C56, two roads: [create_lane_links] does the same whichever of the two roads comes first *)
  Theorem C56_pair r1 r2 h : plain_pair (h_road h !!! r1) (h_road h !!! r2) → create_lane_links r1 r2 h = create_lane_links r2 r1 h.
  Proof. apply create_sym. Qed.

  (** whatever the roads, links are only added to lanes, and which ones does not depend on the links that are there *)
  Theorem C56_adds r1 r2 h : ∃ new : ref → list link,
    (∀ l, h_lane (create_lane_links r1 r2 h).2 !!! l = (h_lane h !!! l) <| ln_links := ln_links (h_lane h !!! l) ++ new l |>) ∧
    (create_lane_links r1 r2 h).2 = h <| h_lane := h_lane (create_lane_links r1 r2 h).2 |> ∧
    ∀ m, (∀ l, ln_id (m !!! l) = ln_id (h_lane h !!! l)) →
      (create_lane_links r1 r2 (h <| h_lane := m |>)).1 = (create_lane_links r1 r2 h).1 ∧
      ∀ l, h_lane (create_lane_links r1 r2 (h <| h_lane := m |>)).2 !!! l = (m !!! l) <| ln_links := ln_links (m !!! l) ++ new l |>.
  Proof.
    destruct (st_create h r1 r2) as (r & us & E). exists (λ l, links_for l us). rewrite (E h (alike_refl h)). split_and!.
    - intros l. apply add_links_at.
    - done.
    - intros m Hm. rewrite (E (h <| h_lane := m |>)); [split; [reflexivity..|exact Hm]|]. split; [done|]. intros l. apply add_links_at.
  Qed.

  Lemma same_network h d1 d2 : NoDup (net_keys h d1) → od_roads (h_odr h !!! d1) ≡ₚ od_roads (h_odr h !!! d2) →
    ∀ k, dict_get (od_roads (h_odr h !!! d2)) k = dict_get (od_roads (h_odr h !!! d1)) k.
  Proof. intros Hnd Hp k. symmetry. by apply dict_get_perm. Qed.
  Lemma alike_frame d h h' : net_frame d h h' → alike h h'.
  Proof. intros N. split; [apply (nf_road _ _ _ N)|apply (nf_lanes _ _ _ N)|apply (nf_sec _ _ _ N)|apply (nf_odr _ _ _ N)|]. intros l. by rewrite (nf_lane _ _ _ N). Qed.

  (** ** C56, a network: two OpenDrive objects with the same roads, added in different orders, that can both be placed *)
  Section Order.
    Context (d1 d2 : ref) (h h1 h2 : heap F).
    Context (Hnd : NoDup (net_keys h d1)) (Hsame : od_roads (h_odr h !!! d1) ≡ₚ od_roads (h_odr h !!! d2)) (Hplain : plain_pairs h d1).
    Context (E1 : adjust_startpoints d1 h = (Ok tt, h1)) (E2 : adjust_startpoints d2 h = (Ok tt, h2)).

    Lemma order_sym : sym_pairs h d1.
    Proof.
      intros k k' r r' Hr Hr' Hne. apply (Hplain k k'); [| |done]; unfold road_named; [rewrite Hr|rewrite Hr']; done.
    Qed.
    Lemma order_pair kk : pair_of h d2 kk = pair_of h d1 kk.
    Proof. unfold pair_of. by rewrite !(same_network h d1 d2 Hnd Hsame). Qed.
    Lemma order_keys : net_keys h d1 ≡ₚ net_keys h d2.
    Proof. unfold net_keys, dict_keys. by rewrite Hsame. Qed.
    Lemma order_fails : existsb (pair_fails h d2) (combinations2 (net_keys h d2)) = existsb (pair_fails h d1) (combinations2 (net_keys h d1)).
    Proof.
      rewrite (existsb_perm h d1 (net_keys h d1) (net_keys h d2) order_sym order_keys).
      generalize (combinations2 (net_keys h d2)) as l. induction l as [|kk l IH]; [done|]. simpl. rewrite IH. unfold pair_fails. by rewrite order_pair.
    Qed.
    Lemma order_runs d h' : d = d1 ∨ d = d2 → adjust_startpoints d h = (Ok tt, h') →
      if existsb (pair_fails h d) (combinations2 (net_keys h d)) then is_ok (adjust_roads_and_lanes d h).1 = false else
      ∃ us, adjust_roads_and_lanes d h = (Ok tt, h' <| h_lane := add_links us (h_lane h) |>) ∧
        ∀ l, links_for l us = concat (map (LinkOrder.pair_links h d l) (combinations2 (net_keys h d))).
    Proof.
      intros Hd E. assert (N : net_frame d h h') by (change h' with (Ok tt, h').2; rewrite -E; apply nf_adjust_startpoints).
      rewrite adjust_roads_and_lanes_split (bind_run _ _ _ _ _ E). pose proof (link_all_static h h' d (alike_frame d h h' N)) as L.
      destruct (existsb _ _); [done|]. by rewrite (nf_lane _ _ _ N) in L.
    Qed.

    (** both are linked, or neither is *)
    Theorem C56_succeeds : is_ok (adjust_roads_and_lanes d1 h).1 = is_ok (adjust_roads_and_lanes d2 h).1.
    Proof.
      pose proof (order_runs d1 h1 ltac:(by left) E1) as A. pose proof (order_runs d2 h2 ltac:(by right) E2) as B. rewrite order_fails in B.
      destruct (existsb _ _); [by rewrite A B|]. destruct A as (? & -> & _), B as (? & -> & _). done.
    Qed.
    (** and the lanes get the same links *)
    Theorem C56_lanes h1' h2' : adjust_roads_and_lanes d1 h = (Ok tt, h1') → adjust_roads_and_lanes d2 h = (Ok tt, h2') →
      ∀ l, same_lane (h_lane h1' !!! l) (h_lane h2' !!! l).
    Proof.
      intros A1 A2 l. pose proof (order_runs d1 h1 ltac:(by left) E1) as A. pose proof (order_runs d2 h2 ltac:(by right) E2) as B. rewrite order_fails in B.
      destruct (existsb _ _); [by rewrite A1 in A|]. destruct A as (us & Eu & Hu), B as (vs & Ev & Hv).
      rewrite A1 in Eu. rewrite A2 in Ev. injection Eu as ->. injection Ev as ->. cbn [h_lane set].
      change (same_lane (add_links us (h_lane h) !!! l) (add_links vs (h_lane h) !!! l)). rewrite !add_links_at. split; [|by destruct (h_lane h !!! l)].
      cbn [ln_links set]. f_equiv. rewrite Hu Hv.
      rewrite (total_perm (LinkOrder.pair_links h d1 l) (λ x y, eq_ind_r (λ b, b ≡ₚ _) (reflexivity _) (pair_links_sym h d1 l x y order_sym)) _ _ order_keys).
      generalize (combinations2 (net_keys h d2)) as xs. induction xs as [|kk xs IH]; [done|]. simpl. f_equiv; [|exact IH].
      unfold LinkOrder.pair_links. by rewrite order_pair.
    Qed.
  End Order.
End AnyNum.

(** ** Non-vacuity: road 4, then road 1, then the connecting road 3, which also touches road 2; added in two orders *)
Section Examples.
  Definition two_orders : list (op Z) := connected [(2, 1)] 8 cp_end cp_end 1 0 ++ road_ops 24 (PInt 4) (-1) [(2, 1)] ++
    [OpAddPredecessor 2 (Some et_road) (PInt 4) (Some cp_end) 0; OpAddSuccessor 26 (Some et_road) (PInt 1) (Some cp_start) 0;
     OpOpenDrive "a"; OpAddRoad 32 2; OpAddRoad 32 10; OpAddRoad 32 18; OpAddRoad 32 26;
     OpOpenDrive "b"; OpAddRoad 33 26; OpAddRoad 33 18; OpAddRoad 33 10; OpAddRoad 33 2].
  Example C56_example : let h := run heap_init two_orders in
    NoDup (net_keys h 32) ∧ od_roads (h_odr h !!! 32) ≡ₚ od_roads (h_odr h !!! 33) ∧ net_keys h 32 ≠ net_keys h 33 ∧ plain_pairs h 32 ∧
    (adjust_startpoints 32 h).1 = Ok tt ∧ (adjust_startpoints 33 h).1 = Ok tt ∧ (adjust_roads_and_lanes 32 h).1 = Ok tt ∧
    links_at (adjust_roads_and_lanes 32 h).2 [5; 21] = [[P_ "1"]; [P_ "2"; S_ "-1"]] ∧
    links_at (adjust_roads_and_lanes 33 h).2 [5; 21] = [[P_ "1"]; [S_ "-1"; P_ "2"]].
  Proof.
    intros h. split_and!; try (vm_compute; reflexivity).
    - apply (bool_decide_unpack _); vm_compute; exact I.
    - assert (od_roads (h_odr h !!! 32) = [("1", 2); ("2", 10); ("3", 18); ("4", 26)]) as -> by (vm_compute; reflexivity).
      assert (od_roads (h_odr h !!! 33) = [("4", 26); ("3", 18); ("2", 10); ("1", 2)]) as -> by (vm_compute; reflexivity).
      apply (Permutation_rev [("1", 2); ("2", 10); ("3", 18); ("4", 26)]).
    - vm_compute. discriminate.
    - intros k k' o o' Hk Hk' Hne.
      assert (Ho : ∀ k o, road_named h 32 k = Some o → k = "3" ∨ (rd_type o = (-1)%Z ∧ ∀ s, rd_succ o = Some s → k = "4")).
      { clear. intros k o H. named H.
        - right. split; [vm_compute; reflexivity|]. intros s Hs. vm_compute in Hs. discriminate Hs.
        - right. split; [vm_compute; reflexivity|]. intros s Hs. vm_compute in Hs. discriminate Hs.
        - by left.
        - right. split; [vm_compute; reflexivity|]. done. }
      assert (Hc : ∀ o, road_named h 32 "3" = Some o → rd_type o = 100%Z) by (clear; intros o H; apply (f_equal (fmap rd_type)) in H; vm_compute in H; by injection H).
      destruct (Ho k o Hk) as [->|[T S]], (Ho k' o' Hk') as [->|[T' S']]; [destruct (Hne eq_refl)| | |].
      + split; [intros _ X; destruct (X T')|]. intros X. exfalso. unfold ordinary in X. revert X. rewrite (Hc o Hk). discriminate.
      + split; [intros X; destruct (X T)|]. intros _ X. exfalso. unfold ordinary in X. revert X. rewrite (Hc o' Hk'). discriminate.
      + split; [intros X; destruct (X T)|]. intros _ _ [(s & _ & Es & _) (s' & _ & Es' & _)]. apply Hne. exact (eq_trans (S _ Es) (eq_sym (S' _ Es'))).
  Qed.

  (** Two connecting roads one after the other: only the lanes of the road that is given first are linked. *)
  Definition two_connecting : list (op Z) := road_ops 0 (PInt 1) 5 [(1, 1)] ++ road_ops 7 (PInt 2) 5 [(1, 1)] ++
    [OpAddPredecessor 2 (Some et_road) (PInt 8) (Some cp_end) 0; OpAddSuccessor 2 (Some et_road) (PInt 2) (Some cp_start) 0;
     OpAddPredecessor 9 (Some et_road) (PInt 1) (Some cp_end) 0; OpAddSuccessor 9 (Some et_road) (PInt 9) (Some cp_start) 0].
  Theorem C56_refuted_connecting : let h := run heap_init two_connecting in
    links_at (create_lane_links 2 9 h).2 [5; 6; 12; 13] = [[S_ "1"]; [S_ "-1"]; []; []] ∧
    links_at (create_lane_links 9 2 h).2 [5; 6; 12; 13] = [[]; []; [P_ "-1"]; [P_ "1"]].
  Proof. split; vm_compute; reflexivity. Qed.
  (** Two ordinary roads that form a ring: links of one of the two joints only, "successor" on both sides, numbers as the first one's link says *)
  Definition ring_of_two : list (op Z) := road_ops 0 (PInt 1) (-1) [(1, 1)] ++ road_ops 7 (PInt 2) (-1) [(1, 1)] ++
    [OpAddPredecessor 2 (Some et_road) (PInt 2) (Some cp_end) 0; OpAddSuccessor 2 (Some et_road) (PInt 2) None 0;
     OpAddPredecessor 9 (Some et_road) (PInt 1) (Some cp_end) 0; OpAddSuccessor 9 (Some et_road) (PInt 1) (Some cp_start) 0].
  Theorem C56_refuted_ring : let h := run heap_init ring_of_two in
    links_at (create_lane_links 2 9 h).2 [5; 6; 12; 13] = [[S_ "-1"]; [S_ "-1"]; [S_ "1"]; [S_ "-1"]] ∧
    links_at (create_lane_links 9 2 h).2 [5; 6; 12; 13] = [[S_ "1"]; [S_ "-1"]; [S_ "1"]; [S_ "-1"]].
  Proof. split; vm_compute; reflexivity. Qed.
End Examples.

Print Assumptions C56_pair.
Print Assumptions C56_succeeds.
Print Assumptions C56_lanes.
