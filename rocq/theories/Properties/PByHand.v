(** * C67: placing roads by hand *)
From Coq Require Import ssreflect.
From Verif.Model Require Import Api.
From Verif.Inst Require Import Quarter.
From Verif.Spec Require Import SpecState SpecNetwork SpecAgain SpecByHand.
From Verif.Proof Require Import Monad DictFacts PlanViewFacts NetFrame Network Again Reach Steps History Invariants ByHand.
From Verif.Properties Require Import PHistory PNetwork PFrame.
Local Open Scope general_if_scope.
Local Unset SsrOldRewriteGoalsOrder.
Local Open Scope nat_scope.

Section Hand.
  Context {F : Type} `{!Num F}.
  Implicit Types (h : heap F).

  (** ** adjust_road_wrt_neighbour *)
  (** when it refuses, nothing has changed *)
  Theorem C67_refused h d k k2 cp kind : exists_in h_odr h d →
    let call := OpAdjustRoadWrt d k k2 cp kind in
    (road_named h d (pystr k) = None → step call h = (Err KeyError, h)) ∧
    (∀ o, road_named h d (pystr k) = Some o →
      (kind ≠ "predecessor" → kind ≠ "successor" → step call h = (Ok RNone, h)) ∧
      (kind = "predecessor" ∨ kind = "successor" →
        (cp = None → step call h = (Err UnboundLocalError, h)) ∧
        (cp ≠ None → road_named h d (pystr k2) = None → step call h = (Err KeyError, h)) ∧
        (∀ c o2, cp = Some c → road_named h d (pystr k2) = Some o2 → offered (view h o2) c = None → step call h = (Err TypeError, h)))).
  Proof.
    intros Hd call. assert (Es : step call h = as_unit (adjust_road_wrt d k k2 cp kind) h) by (unfold call, step; rewrite guarded_true //; by apply has_true).
    rewrite Es. clear Es call. unfold adjust_road_wrt, road_named. split.
    - destruct (dict_get _ _) as [x|] eqn:E; [done|]. intros _. apply as_unit_err.
      assert (A : ∀ b, adjust_road_wrt_neighbour d (pystr k) (pystr k2) cp b h = (Err KeyError, h)).
      { intros b. unfold adjust_road_wrt_neighbour, get_odr, road_at. rewrite bind_gets E. done. }
      destruct (String.eqb kind _); [apply A|]. destruct (String.eqb kind _); [apply A|]. unfold get_odr, road_at. by rewrite bind_gets E.
    - destruct (dict_get (od_roads (h_odr h !!! d)) (pystr k)) as [x|] eqn:E; [|done]. intros o [= <-]. split.
      + intros H1 H2. apply String.eqb_neq in H1, H2. rewrite H1 H2. unfold get_odr, road_at. apply as_unit_ok. by rewrite bind_gets E.
      + intros Hk.
        assert (K : ∀ e, (∀ b, adjust_road_wrt_neighbour d (pystr k) (pystr k2) cp b h = (Err e, h)) →
          as_unit (if (kind =? "predecessor")%string then adjust_road_wrt_neighbour d (pystr k) (pystr k2) cp true
            else if (kind =? "successor")%string then adjust_road_wrt_neighbour d (pystr k) (pystr k2) cp false
            else let! D := get_odr d in let! _ := road_at (od_roads D) (pystr k) in ret tt) h = (Err e, h)).
        { intros e A. apply as_unit_err. destruct Hk as [-> | ->]; apply A. }
        split_and!.
        * intros ->. apply K. intros b. unfold adjust_road_wrt_neighbour, get_odr, road_at. by rewrite bind_gets E.
        * intros Hc H2. apply K. intros b. unfold adjust_road_wrt_neighbour, get_odr, road_at, planview_at. rewrite bind_gets E. simpl.
          destruct cp; [|done]. destruct (dict_get _ (pystr k2)) eqn:E2; [done|]. unfold bind, gets, road_at. simpl. by rewrite E2.
        * intros c o2 -> H2 Hof. apply K. intros b. destruct (dict_get _ (pystr k2)) as [y|] eqn:E2; [|done]. injection H2 as <-.
          unfold adjust_road_wrt_neighbour, get_odr, planview_at, road_at. rewrite bind_gets E E2. simpl. unfold bind, ret, gets. simpl.
          unfold neighbour_pose, get_pv, offered, view in *. rewrite bind_gets. unfold pv_get_start_point, pv_get_end_point.
          destruct c; [destruct (pv_start _)|destruct (pv_end _)]; done.
  Qed.

  (** the road is laid out from the pose its neighbour offers, shifted by its lane offset: forwards at a predecessor, backwards at a successor.
      (If it had been laid out before, the new geometries follow the old ones.) *)
  Theorem C67_placed h d k k2 c (o o2 : road) q (at_pred : bool) : reachable h → exists_in h_odr h d →
    road_named h d (pystr k) = Some o → road_named h d (pystr k2) = Some o2 → offered (view h o2) c = Some q →
    (∀ g, g ∈ pv_raw (view h o) → evaluable (h_geom h !!! g)) →
    at_pred = false ∨ pv_over (view h o) = [] ∨ length (pv_raw (view h o)) ≤ length (pv_over (view h o)) →
    ∃ h', step (OpAdjustRoadWrt d k k2 (Some c) (if at_pred then "predecessor" else "successor")) h = (Ok RNone, h') ∧
      pv_adjusted (view h' o) = true ∧
      (at_pred = true → appended h (view h o) (view h' o) (beside (rd_off_pred o) q)) ∧
      (at_pred = false → pv_end (view h' o) = Some (turn (beside (- rd_off_suc o) q))) ∧
      (pv_geoms (view h o) = [] → pv_s (view h o) = fofZ 0 → put_at h o (view h' o) at_pred q).
  Proof.
    intros Rh Hd Ho Ho2 Hq Hg Hov.
    assert (Es : step (OpAdjustRoadWrt d k k2 (Some c) (if at_pred then "predecessor" else "successor")) h =
      as_unit (adjust_road_wrt_neighbour d (pystr k) (pystr k2) (Some c) at_pred) h).
    { unfold step. rewrite guarded_true; [by apply has_true|]. unfold adjust_road_wrt. by destruct at_pred. }
    rewrite Es. clear Es. unfold road_named in Ho, Ho2.
    destruct (dict_get _ (pystr k)) as [x|] eqn:E; [|done]. destruct (dict_get _ (pystr k2)) as [y|] eqn:E2; [|done]. simpl in Ho, Ho2.
    apply (inj Some) in Ho, Ho2.
    set (p := if at_pred then beside (rd_off_pred o) q else beside (- rd_off_suc o) q).
    assert (Er : adjust_road_wrt_neighbour d (pystr k) (pystr k2) (Some c) at_pred h =
      (pv_set_start_point (rd_planview o) p.1.1 p.1.2 p.2 ;; adjust_geometries (rd_planview o) (negb at_pred)) h).
    { unfold adjust_road_wrt_neighbour, get_odr, planview_at, road_at. rewrite bind_gets E E2. cbn [or_raise]. unfold bind at 1, ret at 1.
      unfold get_road. rewrite bind_gets. unfold bind at 1, ret at 1. unfold bind at 1. rewrite bind_gets. unfold ret at 1. rewrite Ho Ho2.
      assert (En : neighbour_pose (rd_planview o2) (Some c) h = (Ok q, h)).
      { unfold neighbour_pose, get_pv. rewrite bind_gets. unfold offered, view, pv_get_start_point, pv_get_end_point in *. destruct c.
        - destruct (pv_start _) as [[[? ?] ?]|]; [|done]. injection Hq as <-. done.
        - by rewrite Hq. }
      rewrite (bind_run _ _ _ _ _ En). rewrite shift_pred_beside shift_succ_beside. fold p. by destruct p as [[? ?] ?]. }
    rewrite (_ : as_unit _ h = as_unit (pv_set_start_point (rd_planview o) p.1.1 p.1.2 p.2 ;; adjust_geometries (rd_planview o) (negb at_pred)) h);
      [by unfold as_unit, bind at 1 3; rewrite Er|].
    clear Er. set (h1 := (pv_set_start_point (rd_planview o) p.1.1 p.1.2 p.2 h).2).
    assert (E1 : pv_set_start_point (rd_planview o) p.1.1 p.1.2 p.2 h = (Ok tt, h1)) by done.
    assert (V1 : view h1 o = view h o <| pv_x := p.1.1 |> <| pv_y := p.1.2 |> <| pv_h := p.2 |>).
    { unfold view, h1, pv_set_start_point, upd_pv, modify. simpl. rewrite ltm_insert. by destruct (h_pv h !!! _). }
    assert (G1 : h_geom h1 = h_geom h) by done.
    assert (Pp : pv_pose (view h1 o) = p) by (rewrite V1; by destruct p as [[? ?] ?]).
    destruct (adjust_geometries_run (rd_planview o) (negb at_pred) h1) as [h' E']; rewrite -?/(view h1 o) ?V1.
    { unfold all_placeable. apply Forall_forall. intros g Hgi. rewrite G1. by apply evaluable_placeable, Hg. }
    { destruct Hov as [-> |Hov]; [by left|right; exact Hov]. }
    exists h'. split; [apply as_unit_ok; by rewrite (bind_run _ _ _ _ _ E1)|]. clearbody h1. destruct at_pred; simpl in E'.
    - destruct (adjust_forward_spec _ _ _ E') as (rs & e & t & Hc & Hrs & Hst & Hen & Hpo & Hlen & Had). rewrite -?/(view _ o) Pp G1 in Hc Hrs Hst Hen Hpo Hlen Had.
      rewrite V1 in Hc Hrs. simpl in Hc, Hrs. unfold pv_total_length in Hlen. subst t. split; [done|]. split_and!; [|done|].
      + intros _. split; [exact Hst|]. exists rs, e. done.
      + intros Hg0 Hs0. rewrite Hg0 in Hrs. rewrite Hs0 in Hc. split; [done|]. split; [done|]. exists e. by rewrite Hrs.
    - destruct (adjust_backward_spec _ _ _ E') as (rs & ls & e & Hc & _ & Hrs & Hen & Hst & Hpo & Hlen & Had). rewrite -?/(view _ o) Pp G1 in Hc Hrs Hst Hen Hpo Hlen Had.
      rewrite V1 in Hc Hrs. simpl in Hc, Hrs. unfold pv_total_length in Hlen. split; [done|]. split_and!; [done|by intros _|].
      intros Hg0 Hs0. rewrite Hg0 in Hrs. split; [done|]. split; [done|]. exists rs, ls, e. split; [done|]. rewrite Hrs label_last_forget. done.
  Qed.

  (** ** adjust_startpoints does nothing but such calls *)
  Theorem C67_startpoints h d : reachable h → exists_in h_odr h d → ∃ cs r,
    performs (λ h, placing_call h d) h cs r (step (OpAdjustStartpoints d) h).2 ∧
    match (step (OpAdjustStartpoints d) h).1 with Ok _ => r = None | Err e => r = None ∨ r = Some e end.
  Proof.
    intros Rh Hd. destruct (does_startpoints d h Hd Rh) as (cs & r & Hp & Hr). exists cs, r.
    assert (Es : step (OpAdjustStartpoints d) h = as_unit (adjust_startpoints d) h) by (unfold step; rewrite guarded_true //; by apply has_true).
    rewrite Es. destruct (adjust_startpoints d h) as [[[]|e] h1] eqn:E; [rewrite (as_unit_ok _ _ _ E)|rewrite (as_unit_err _ _ _ _ E)]; simpl in *; [|done].
    destruct Hr. done.
  Qed.

  Lemma elem_combinations2 {A} (l : list A) x y : (x, y) ∈ combinations2 l ↔ ∃ i j, i < j ∧ l !! i = Some x ∧ l !! j = Some y.
  Proof.
    induction l as [|z l IH]; simpl; [split; [by intros ?%elem_of_nil|by intros (i & j & _ & ? & _)]|].
    rewrite elem_of_app IH elem_of_list_fmap. split.
    - intros [(w & [= -> ->] & Hw)|(i & j & ? & ? & ?)].
      + apply elem_of_list_lookup in Hw as [i Hi]. exists 0, (S i). split_and!; [lia|done|done].
      + exists (S i), (S j). split_and!; [lia|done|done].
    - intros ([|i] & [|j] & ? & Hi & Hj); [lia| |lia|].
      + left. exists y. simpl in Hi, Hj. injection Hi as ->. split; [done|]. by eapply elem_of_list_lookup_2.
      + right. exists i, j. split_and!; [lia|done|done].
  Qed.
  Lemma length_combinations2 {A} (l : list A) : 2 * length (combinations2 l) = length l * (length l - 1).
  Proof. induction l as [|z l IH]; simpl; [done|]. rewrite app_length map_length. destruct (length l); simpl in *; lia. Qed.

  (** adjust_roads_and_lanes first places the roads like that, and then calls create_lane_links once for every two roads of the network *)
  Theorem C67_roads_and_lanes h d : reachable h → exists_in h_odr h d → ∃ cs r1 h1 ls r2,
    performs (λ h, placing_call h d) h cs r1 h1 ∧ performs (λ h, linking_call h d) h1 ls r2 (step (OpAdjustRoadsAndLanes d) h).2 ∧
    match (step (OpAdjustRoadsAndLanes d) h).1 with
    | Ok _ => r1 = None ∧ r2 = None ∧
        (∀ c, c ∈ ls ↔ ∃ i j k1 x1 k2 x2, i < j ∧ od_roads (h_odr h !!! d) !! i = Some (k1, x1) ∧ od_roads (h_odr h !!! d) !! j = Some (k2, x2) ∧ c = OpCreateLaneLinks x1 x2) ∧
        2 * length ls = length (od_roads (h_odr h !!! d)) * (length (od_roads (h_odr h !!! d)) - 1)
    | Err e => ls = [] ∧ (r1 = None ∨ r1 = Some e) ∨ r1 = None ∧ r2 = Some e
    end.
  Proof.
    intros Rh Hd. destruct (does_startpoints d h Hd Rh) as (cs & r & Hp & Hr).
    assert (Es : step (OpAdjustRoadsAndLanes d) h = as_unit (adjust_roads_and_lanes d) h) by (unfold step; rewrite guarded_true //; by apply has_true).
    rewrite Es. clear Es. destruct (adjust_startpoints d h) as [[[]|e] h1] eqn:E; simpl in *.
    2: { rewrite (as_unit_err (adjust_roads_and_lanes d) h h1 e). { unfold adjust_roads_and_lanes. by rewrite (bind_run_err _ _ _ _ _ E). }
         exists cs, r, h1, [], None. split_and!; [done|constructor|by left]. }
    destruct Hr as [-> _]. assert (R1 : reachable h1) by (rewrite -(performs_run _ _ _ _ _ Hp); by apply run_reachable).
    assert (N1 : net_frame d h h1) by (change h1 with (Ok tt, h1).2; rewrite -E; apply nf_adjust_startpoints).
    assert (Hd1 : exists_in h_odr h1 d) by (by apply (nf_exists d h)).
    set (roads := od_roads (h_odr h !!! d)). assert (Er : od_roads (h_odr h1 !!! d) = roads) by (by rewrite (nf_odr _ _ _ N1)).
    assert (ND : NoDup (map fst roads)).
    { destruct Hd as [D HD]. pose proof (reachable_odr h Rh d D HD) as [Hn _]. unfold roads. by rewrite (lookup_total_correct _ _ _ HD). }
    assert (Hget : ∀ i k x, roads !! i = Some (k, x) → named_ref roads k = x).
    { intros i k x Hi. apply elem_of_list_lookup_2 in Hi. unfold named_ref. clear -ND Hi. induction roads as [|[k' x'] m IH]; [by apply elem_of_nil in Hi|].
      simpl in ND. apply NoDup_cons in ND as [Hk ND]. simpl. apply elem_of_cons in Hi as [[= -> ->]|Hi]; [by rewrite String.eqb_refl|].
      destruct (String.eqb_spec k k') as [-> |]; [|by apply IH]. exfalso. apply Hk. apply elem_of_list_fmap. by exists (k', x). }
    destruct (links_perform d roads (combinations2 (dict_keys roads)) h1 R1 Hd1 Er) as (n & r & Hpl & Hrl).
    { intros [k1 k2] (i & j & _ & Hi & Hj)%elem_combinations2. split; apply dict_get_keys; by eapply elem_of_list_lookup_2. }
    set (m := for_each _ _) in Hpl, Hrl.
    assert (Em : adjust_roads_and_lanes d h = m h1).
    { unfold adjust_roads_and_lanes. rewrite (bind_run _ _ _ _ _ E). unfold get_odr. by rewrite bind_gets Er. }
    exists cs, None, h1, (take n (map (link_call roads) (combinations2 (dict_keys roads)))), r. split; [done|]. destruct (m h1) as [[[]|e] h2]; simpl in *.
    - rewrite (as_unit_ok _ _ _ Em). split; [done|]. destruct Hrl as [-> ->]. split; [done|]. split; [done|].
      rewrite take_ge; [by rewrite map_length|]. split; [|pose proof (length_combinations2 (dict_keys roads)) as L; unfold dict_keys in *; rewrite !map_length in L |- *; lia].
      intros c. rewrite elem_of_list_fmap. split.
      + intros ([k1 k2] & -> & (i & j & Hij & Hi & Hj)%elem_combinations2). unfold dict_keys in Hi, Hj. apply list_lookup_fmap_Some in Hi as ([k1' x1] & Hi & ->).
        apply list_lookup_fmap_Some in Hj as ([k2' x2] & Hj & ->). exists i, j, k1', x1, k2', x2. split_and!; try done. unfold link_call. simpl. by rewrite (Hget i _ x1) // (Hget j _ x2).
      + intros (i & j & k1 & x1 & k2 & x2 & Hij & Hi & Hj & ->). exists (k1, k2). split; [unfold link_call; simpl; by rewrite (Hget i _ x1) // (Hget j _ x2)|].
        apply elem_combinations2. exists i, j. unfold dict_keys. rewrite !list_lookup_fmap Hi Hj. done.
    - rewrite (as_unit_err _ _ _ _ Em). split; [done|]. right. done.
  Qed.
End Hand.

Section Examples.
  Local Existing Instance QNum.
  Local Open Scope Z_scope.
  (** the four roads placed by hand: the same state as with adjust_startpoints *)
  Definition by_hand : list (op Z) :=
    [OpAdjustGeometries 1 false; OpAdjustRoadWrt 16 (PInt 3) (PInt 1) (Some cp_end) "predecessor";
     OpAdjustRoadWrt 16 (PInt 2) (PStr "3") (Some cp_end) "predecessor"; OpAdjustRoadWrt 16 (PStr "4") (PInt 2) (Some cp_end) "predecessor"].
  Definition four := run heap_init four_roads.
  Example C67_by_hand_same : run four by_hand = (step (OpAdjustStartpoints 16) four).2 ∧ (step (OpAdjustStartpoints 16) four).1 = Ok RNone ∧
    map (λ r, pv_start (h_pv (run four by_hand) !!! r)) [1; 5; 9; 13]%nat = [Some (0, 0, 0); Some (40, 0, 0); Some (10, 0, 0); Some (60, 3, 0)].
  Proof. split_and!; vm_compute; reflexivity. Qed.
  Example C67_by_hand_performs : performs (λ h, placing_call h 16) four by_hand None (run four by_hand).
  Proof.
    unfold by_hand. eapply pf_call; [|vm_compute; reflexivity|].
    { exists "1". eexists. split; [by apply four_root|]. split; vm_compute; reflexivity. }
    eapply pf_call; [|vm_compute; reflexivity|].
    { split; [done|]. do 2 eexists. split; [vm_compute; reflexivity|]. split; [vm_compute; reflexivity|]. split; [vm_compute; reflexivity|]. split; [vm_compute; reflexivity|].
      left. eexists. split; [reflexivity|]. done. }
    eapply pf_call; [|vm_compute; reflexivity|].
    { split; [done|]. do 2 eexists. split; [vm_compute; reflexivity|]. split; [vm_compute; reflexivity|]. split; [vm_compute; reflexivity|]. split; [vm_compute; reflexivity|].
      right. right. left. eexists. split; [done|]. split; [reflexivity|]. done. }
    eapply pf_call; [|vm_compute; reflexivity|].
    { split; [done|]. do 2 eexists. split; [vm_compute; reflexivity|]. split; [vm_compute; reflexivity|]. split; [vm_compute; reflexivity|]. split; [vm_compute; reflexivity|].
      left. eexists. split; [reflexivity|]. done. }
    match goal with |- performs _ ?a _ _ ?b => replace b with a by (vm_compute; reflexivity) end. constructor.
  Qed.
  (** the hypotheses of C67_placed: road 1 is laid out, road 4 not *)
  Example C67_placed_case : let h := run four [OpAdjustGeometries 1 false] in let o := h_road h !!! 15%nat in let o2 := h_road h !!! 3%nat in
    reachable h ∧ exists_in h_odr h 16 ∧ road_named h 16 "4" = Some o ∧ road_named h 16 "1" = Some o2 ∧ offered (view h o2) cp_end = Some (10, 0, 0) ∧
    pv_raw (view h o) = [12%nat] ∧ h_geom h !!! 12%nat = GLine 40 ∧ pv_over (view h o) = [] ∧ pv_geoms (view h o) = [] ∧ pv_s (view h o) = 0 ∧ rd_off_pred o = 1.
  Proof.
    split; [unfold four; apply run_reachable, run_reachable; by exists []|]. split; [unfold exists_in; vm_compute; by eexists|]. repeat (split; [vm_compute; reflexivity|]). vm_compute. reflexivity.
  Qed.
  (** C67_refused: each case occurs (road 2 not placed, no contact point, no such road, another kind of neighbour) *)
  Example C67_refused_cases : let h := run four [OpAdjustGeometries 1 false] in
    map (λ o, (step o h).1) [OpAdjustRoadWrt 16 (PInt 4) (PInt 2) (Some cp_end) "predecessor"; OpAdjustRoadWrt 16 (PInt 4) (PInt 1) None "successor";
      OpAdjustRoadWrt 16 (PInt 5) (PInt 1) (Some cp_end) "predecessor"; OpAdjustRoadWrt 16 (PInt 4) (PInt 5) (Some cp_end) "predecessor";
      OpAdjustRoadWrt 16 (PInt 4) (PInt 1) (Some cp_end) "Predecessor"] =
    [Err TypeError; Err UnboundLocalError; Err KeyError; Err KeyError; Ok RNone].
  Proof. vm_compute. reflexivity. Qed.
End Examples.

Print Assumptions C67_refused.
Print Assumptions C67_placed.
Print Assumptions C67_startpoints.
Print Assumptions C67_roads_and_lanes.
