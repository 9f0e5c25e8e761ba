(** What [create_lane_links] does *)
From Coq Require Import ssreflect.
From Verif.Model Require Import Api.
From Verif.Spec Require Import SpecChain SpecLanes.
From Verif.Proof Require Import Monad DictFacts PlanViewFacts NetFrame Reach Steps History LinkerFacts.
Local Open Scope general_if_scope.

Section LaneLinks.
  Context {F : Type} `{!Num F}.
  Implicit Types (h : heap F) (o : road).
  Local Notation lanes := (gmap nat (lane F)).

  (** links added to a store of lanes, one after the other *)
  Definition add1 (m : lanes) (u : ref * link) : lanes := <[u.1 := with_link (m !!! u.1) u.2]> m.
  Definition add_links (us : list (ref * link)) (m : lanes) : lanes := foldl add1 m us.
  Definition links_for (l : ref) (us : list (ref * link)) : list link := map snd (filter (λ u, u.1 = l) us).

  Lemma add_links_app us vs m : add_links (us ++ vs) m = add_links vs (add_links us m).
  Proof. unfold add_links. by rewrite foldl_app. Qed.
  Lemma links_for_app l us vs : links_for l (us ++ vs) = links_for l us ++ links_for l vs.
  Proof. unfold links_for. by rewrite filter_app map_app. Qed.
  Lemma add_links_at us : ∀ m l, add_links us m !!! l = (m !!! l) <| ln_links := ln_links (m !!! l) ++ links_for l us |>.
  Proof.
    induction us as [|[x k] us IH]; intros m l; simpl.
    - unfold links_for. rewrite filter_nil /= app_nil_r. by destruct (m !!! l).
    - rewrite IH. unfold add1, links_for. rewrite filter_cons. simpl. destruct (decide (x = l)) as [->|Hne].
      + rewrite ltm_insert. unfold with_link. simpl. by rewrite -app_assoc.
      + by rewrite ltm_insert_ne.
  Qed.
  Lemma add_links_id us m l : ln_id (add_links us m !!! l) = ln_id (m !!! l).
  Proof. by rewrite add_links_at. Qed.
  Lemma add_links_dom us : ∀ m l, (∀ u, u ∈ us → is_Some (m !! u.1)) → is_Some (add_links us m !! l) ↔ is_Some (m !! l).
  Proof.
    induction us as [|[x k] us IH]; intros m l Hex; simpl; [done|]. rewrite IH.
    - intros u Hu. unfold add1. apply insert_exists. apply Hex. by right.
    - unfold add1. simpl. destruct (decide (x = l)) as [->|Hne]; [|by rewrite lookup_insert_ne].
      rewrite lookup_insert. split; [intros _|eauto]. apply (Hex (l, k)). by left.
  Qed.

  Definition same_ids (m m' : lanes) : Prop := ∀ l, ln_id (m' !!! l) = ln_id (m !!! l).
  Lemma loop_links h (f : nat → H (F:=F) unit) (us : nat → list (ref * link)) ixs :
    (∀ i m, i ∈ ixs → same_ids (h_lane h) m → f i (h <| h_lane := m |>) = (Ok tt, h <| h_lane := add_links (us i) m |>)) →
    ∀ m, same_ids (h_lane h) m → for_each f ixs (h <| h_lane := m |>) = (Ok tt, h <| h_lane := add_links (concat (map us ixs)) m |>).
  Proof.
    induction ixs as [|i ixs IH]; intros Hf m Hm; [done|]. cbn [for_each map concat].
    rewrite (bind_run _ _ _ _ _ (Hf i m ltac:(by left) Hm)) add_links_app. apply IH.
    - intros j m' Hj. apply Hf. by right.
    - intros l. by rewrite add_links_id.
  Qed.

  (** reading sections *)
  Lemma py_index_0 {A} (l : list A) : py_index l 0 = head l.
  Proof. by destruct l. Qed.
  Lemma py_index_last {A} (l : list A) : py_index l (-1) = last l.
  Proof.
    unfold py_index. simpl. rewrite last_lookup. destruct l as [|x l]; [done|].
    rewrite (proj2 (Z.leb_le _ _)); [simpl; lia|]. f_equal. simpl. lia.
  Qed.
  Lemma road_section_at o z s h m : py_index (sections h o) z = Some s →
    road_section o (Some z) (h <| h_lane := m |>) = (Ok (h_sec h !!! s), h <| h_lane := m |>).
  Proof. intros E. unfold road_section, get_lanes. rewrite bind_gets. simpl. unfold sections in E. rewrite E. done. Qed.
  Lemma lane_add_link_at l ty id h m : ty ≠ Some "neighbor" →
    lane_add_link l ty id (h <| h_lane := m |>) = (Ok tt, h <| h_lane := add_links [(l, mkLink ty (PStr id) None None None)] m |>).
  Proof. intros Hty. rewrite lane_add_link_run //. Qed.

  (** ** Two ordinary roads *)
  (** the links added for one side: lane [i] of each list *)
  Definition pair_links (ty1 ty2 : option string) (id1 id2 : nat → string) (l1 l2 : list ref) (n : nat) : list (ref * link) :=
    concat (map (λ i, match l1 !! i, l2 !! i with
                      | Some a, Some b => [(a, mkLink ty1 (PStr (id1 i)) None None None); (b, mkLink ty2 (PStr (id2 i)) None None None)]
                      | _, _ => [] end) (seq 0 n)).

  Lemma h_eta h : h = h <| h_lane := h_lane h |>.
  Proof. by destruct h. Qed.

  Lemma pair_links_as ty1 ty2 id1 id2 l1 l2 n : pair_links ty1 ty2 id1 id2 l1 l2 n = concat (map (λ i, match l1 !! i, l2 !! i with
                      | Some a, Some b => [(a, mkLink ty1 (PStr (id1 i)) None None None); (b, mkLink ty2 (PStr (id2 i)) None None None)]
                      | _, _ => [] end) (seq 0 n)).
  Proof. done. Qed.

  Lemma lane_id_times_at l sg n h m : ln_id (m !!! l) = Some n →
    lane_id_times l (Some sg) (h <| h_lane := m |>) = (Ok (n * sg)%Z, h <| h_lane := m |>).
  Proof. intros E. unfold lane_id_times, get_lane. rewrite bind_gets. simpl. by rewrite E. Qed.

  Lemma links_roads_run h r1 r2 o1 o2 ty1 ty2 sg sg2 z1 z2 s1 s2 s3 :
    h_road h !!! r1 = o1 → h_road h !!! r2 = o2 →
    get_related_lanesection o1 o2 = Ok (Some ty1, Some sg, Some z1) →
    get_related_lanesection o2 o1 = Ok (Some ty2, sg2, Some z2) →
    ty1 ≠ "neighbor" → ty2 ≠ "neighbor" →
    py_index (sections h o1) z1 = Some s1 → py_index (sections h o2) z2 = Some s2 → last_section h o2 = Some s3 →
    exists_in h_sec h s1 → numbered h s1 →
    lane_counts h s3 = lane_counts h s1 →
    length (ls_left (h_sec h !!! s1)) ≤ length (ls_left (h_sec h !!! s2)) → length (ls_right (h_sec h !!! s1)) ≤ length (ls_right (h_sec h !!! s2)) →
    create_links_roads r1 r2 h = (Ok tt, h <| h_lane := add_links
      (pair_links (Some ty1) (Some ty2) (λ i, pretty (lane_number (LeftOf i) * sg)%Z) (λ i, pretty (lane_number (LeftOf i) * sg * sg)%Z)
         (ls_left (h_sec h !!! s1)) (ls_left (h_sec h !!! s2)) (length (ls_left (h_sec h !!! s1))) ++
       pair_links (Some ty1) (Some ty2) (λ i, pretty (lane_number (RightOf i))) (λ i, pretty (lane_number (RightOf i)))
         (ls_right (h_sec h !!! s1)) (ls_right (h_sec h !!! s2)) (length (ls_right (h_sec h !!! s1)))) (h_lane h) |>).
  Proof.
    intros E1 E2 G1 G2 N1 N2 P1 P2 P3 Hs1 Hnum Hc Hll Hlr. unfold lane_counts in Hc. injection Hc as HcL HcR.
    unfold last_section in P3. rewrite -py_index_last in P3.
    assert (M1 : Some ty1 ≠ Some "neighbor") by congruence. assert (M2 : Some ty2 ≠ Some "neighbor") by congruence.
    transitivity (create_links_roads r1 r2 (h <| h_lane := h_lane h |>)); [by rewrite -(h_eta h)|].
    unfold create_links_roads, get_road. rewrite !bind_gets. change (h_road (h <| h_lane := h_lane h |>)) with (h_road h). rewrite E1 E2.
    rewrite G1 G2. rewrite !bind_lift_ok.
    rewrite (bind_run _ _ _ _ _ (road_section_at _ _ _ _ _ P1)). rewrite (bind_run _ _ _ _ _ (road_section_at _ _ _ _ _ P3)).
    rewrite bool_decide_true; [done|].
    erewrite bind_run; last first.
    { apply (loop_links h _ (λ i, match ls_left (h_sec h !!! s1) !! i, ls_left (h_sec h !!! s2) !! i with
                      | Some a, Some b => [(a, mkLink (Some ty1) (PStr (pretty (lane_number (LeftOf i) * sg)%Z)) None None None);
                                           (b, mkLink (Some ty2) (PStr (pretty (lane_number (LeftOf i) * sg * sg)%Z)) None None None)]
                      | _, _ => [] end)); [|done].
      intros i m Hi Hm. apply elem_of_seq in Hi.
      rewrite (bind_run _ _ _ _ _ (road_section_at _ _ _ _ _ P1)).
      destruct (lookup_lt_is_Some_2 (ls_left (h_sec h !!! s1)) i ltac:(lia)) as [a Ha].
      destruct (lookup_lt_is_Some_2 (ls_left (h_sec h !!! s2)) i ltac:(lia)) as [b Hb].
      rewrite Ha Hb. cbn [or_raise]. rewrite bind_ret.
      assert (Hid : ln_id (m !!! a) = Some (lane_number (LeftOf i))).
      { rewrite Hm. apply Hnum. unfold lane_at. by rewrite (exists_at _ _ _ Hs1). }
      rewrite (bind_run _ _ _ _ _ (lane_id_times_at _ _ _ _ _ Hid)).
      rewrite (bind_run _ _ _ _ _ (lane_add_link_at _ _ _ _ _ M1)).
      rewrite (bind_run _ _ _ _ _ (road_section_at _ _ _ _ _ P2)).
      rewrite Hb. cbn [or_raise]. rewrite !bind_ret.
      rewrite (lane_add_link_at _ _ _ _ _ M2). by rewrite -add_links_app. }
    rewrite (bind_run _ _ _ _ _ (road_section_at _ _ _ _ _ P1)). rewrite (bind_run _ _ _ _ _ (road_section_at _ _ _ _ _ P3)).
    rewrite bool_decide_true; [done|]. rewrite add_links_app.
    apply (loop_links h _ (λ i, match ls_right (h_sec h !!! s1) !! i, ls_right (h_sec h !!! s2) !! i with
                      | Some a, Some b => [(a, mkLink (Some ty1) (PStr (pretty (lane_number (RightOf i)))) None None None);
                                           (b, mkLink (Some ty2) (PStr (pretty (lane_number (RightOf i)))) None None None)]
                      | _, _ => [] end)); [|intros l; by rewrite add_links_id].
    intros i m Hi Hm. apply elem_of_seq in Hi.
    rewrite (bind_run _ _ _ _ _ (road_section_at _ _ _ _ _ P1)).
    destruct (lookup_lt_is_Some_2 (ls_right (h_sec h !!! s1)) i ltac:(lia)) as [a Ha].
    destruct (lookup_lt_is_Some_2 (ls_right (h_sec h !!! s2)) i ltac:(lia)) as [b Hb].
    rewrite Ha Hb. cbn [or_raise]. rewrite bind_ret.
    assert (Hid : ln_id (m !!! a) = Some (lane_number (RightOf i))).
    { rewrite Hm. apply Hnum. unfold lane_at. by rewrite (exists_at _ _ _ Hs1). }
    unfold get_lane. rewrite bind_gets. change (h_lane (h <| h_lane := m |>)) with m. rewrite Hid.
    rewrite (bind_run _ _ _ _ _ (lane_add_link_at _ _ _ _ _ M1)).
    rewrite (bind_run _ _ _ _ _ (road_section_at _ _ _ _ _ P2)).
    rewrite Hb. cbn [or_raise]. rewrite !bind_ret.
    rewrite (lane_add_link_at _ _ _ _ _ M2). by rewrite -add_links_app.
  Qed.

  (** the left lanes differ in number: nothing happens; the right lanes differ: the left ones are linked already *)
  Lemma links_roads_left h r1 r2 o1 o2 ty1 ty2 sg sg2 z1 z2 s1 s3 :
    h_road h !!! r1 = o1 → h_road h !!! r2 = o2 →
    get_related_lanesection o1 o2 = Ok (ty1, sg, Some z1) →
    get_related_lanesection o2 o1 = Ok (ty2, sg2, z2) →
    py_index (sections h o1) z1 = Some s1 → last_section h o2 = Some s3 →
    length (ls_left (h_sec h !!! s1)) ≠ length (ls_left (h_sec h !!! s3)) →
    create_links_roads r1 r2 h = (Err NotSameAmountOfLanesError, h).
  Proof.
    intros E1 E2 G1 G2 P1 P3 Hc. unfold last_section in P3. rewrite -py_index_last in P3.
    transitivity (create_links_roads r1 r2 (h <| h_lane := h_lane h |>)); [by rewrite -(h_eta h)|].
    unfold create_links_roads, get_road. rewrite !bind_gets. change (h_road (h <| h_lane := h_lane h |>)) with (h_road h). rewrite E1 E2.
    rewrite G1 G2. rewrite !bind_lift_ok.
    rewrite (bind_run _ _ _ _ _ (road_section_at _ _ _ _ _ P1)). rewrite (bind_run _ _ _ _ _ (road_section_at _ _ _ _ _ P3)).
    rewrite bool_decide_false; [done|]. by rewrite -(h_eta h).
  Qed.
  Lemma links_roads_right h r1 r2 o1 o2 ty1 ty2 sg sg2 z1 z2 s1 s2 s3 :
    h_road h !!! r1 = o1 → h_road h !!! r2 = o2 →
    get_related_lanesection o1 o2 = Ok (Some ty1, Some sg, Some z1) →
    get_related_lanesection o2 o1 = Ok (Some ty2, sg2, Some z2) →
    ty1 ≠ "neighbor" → ty2 ≠ "neighbor" →
    py_index (sections h o1) z1 = Some s1 → py_index (sections h o2) z2 = Some s2 → last_section h o2 = Some s3 →
    exists_in h_sec h s1 → numbered h s1 →
    length (ls_left (h_sec h !!! s1)) = length (ls_left (h_sec h !!! s3)) →
    length (ls_right (h_sec h !!! s1)) ≠ length (ls_right (h_sec h !!! s3)) →
    length (ls_left (h_sec h !!! s1)) ≤ length (ls_left (h_sec h !!! s2)) →
    create_links_roads r1 r2 h = (Err NotSameAmountOfLanesError, h <| h_lane := add_links
      (pair_links (Some ty1) (Some ty2) (λ i, pretty (lane_number (LeftOf i) * sg)%Z) (λ i, pretty (lane_number (LeftOf i) * sg * sg)%Z)
         (ls_left (h_sec h !!! s1)) (ls_left (h_sec h !!! s2)) (length (ls_left (h_sec h !!! s1)))) (h_lane h) |>).
  Proof.
    intros E1 E2 G1 G2 N1 N2 P1 P2 P3 Hs1 Hnum HcL HcR Hll.
    unfold last_section in P3. rewrite -py_index_last in P3.
    assert (M1 : Some ty1 ≠ Some "neighbor") by congruence. assert (M2 : Some ty2 ≠ Some "neighbor") by congruence.
    transitivity (create_links_roads r1 r2 (h <| h_lane := h_lane h |>)); [by rewrite -(h_eta h)|].
    unfold create_links_roads, get_road. rewrite !bind_gets. change (h_road (h <| h_lane := h_lane h |>)) with (h_road h). rewrite E1 E2.
    rewrite G1 G2. rewrite !bind_lift_ok.
    rewrite (bind_run _ _ _ _ _ (road_section_at _ _ _ _ _ P1)). rewrite (bind_run _ _ _ _ _ (road_section_at _ _ _ _ _ P3)).
    rewrite bool_decide_true; [done|].
    erewrite bind_run; last first.
    { apply (loop_links h _ (λ i, match ls_left (h_sec h !!! s1) !! i, ls_left (h_sec h !!! s2) !! i with
                      | Some a, Some b => [(a, mkLink (Some ty1) (PStr (pretty (lane_number (LeftOf i) * sg)%Z)) None None None);
                                           (b, mkLink (Some ty2) (PStr (pretty (lane_number (LeftOf i) * sg * sg)%Z)) None None None)]
                      | _, _ => [] end)); [|done].
      intros i m Hi Hm. apply elem_of_seq in Hi.
      rewrite (bind_run _ _ _ _ _ (road_section_at _ _ _ _ _ P1)).
      destruct (lookup_lt_is_Some_2 (ls_left (h_sec h !!! s1)) i ltac:(lia)) as [a Ha].
      destruct (lookup_lt_is_Some_2 (ls_left (h_sec h !!! s2)) i ltac:(lia)) as [b Hb].
      rewrite Ha Hb. cbn [or_raise]. rewrite bind_ret.
      assert (Hid : ln_id (m !!! a) = Some (lane_number (LeftOf i))).
      { rewrite Hm. apply Hnum. unfold lane_at. by rewrite (exists_at _ _ _ Hs1). }
      rewrite (bind_run _ _ _ _ _ (lane_id_times_at _ _ _ _ _ Hid)).
      rewrite (bind_run _ _ _ _ _ (lane_add_link_at _ _ _ _ _ M1)).
      rewrite (bind_run _ _ _ _ _ (road_section_at _ _ _ _ _ P2)).
      rewrite Hb. cbn [or_raise]. rewrite !bind_ret.
      rewrite (lane_add_link_at _ _ _ _ _ M2). by rewrite -add_links_app. }
    rewrite (bind_run _ _ _ _ _ (road_section_at _ _ _ _ _ P1)). rewrite (bind_run _ _ _ _ _ (road_section_at _ _ _ _ _ P3)).
    by rewrite bool_decide_false.
  Qed.

  (** ** A connecting road *)
  Definition side_links (ty : option string) (id : nat → string) (l : list ref) : list (ref * link) :=
    concat (map (λ i, match l !! i with Some a => [(a, mkLink ty (PStr (id i)) None None None)] | None => [] end) (seq 0 (length l))).

  Lemma connecting_run h r1 r2 o1 o2 ty sg z t2 s1 s2 off :
    h_road h !!! r1 = o1 → h_road h !!! r2 = o2 →
    get_related_lanesection o1 o2 = Ok (Some ty, Some sg, Some z) →
    get_related_lanesection o2 o1 = Ok (t2, Some z) →
    ty ≠ "neighbor" →
    off = (if bool_decide (ty = "predecessor") then rd_off_pred o1 else rd_off_suc o1) →
    py_index (sections h o1) z = Some s1 → py_index (sections h o2) z = Some s2 →
    exists_in h_sec h s2 → numbered h s2 →
    length (ls_left (h_sec h !!! s1)) ≤ length (ls_left (h_sec h !!! s2)) → length (ls_right (h_sec h !!! s1)) ≤ length (ls_right (h_sec h !!! s2)) →
    create_links_connecting_road r1 r2 h = (Ok tt, h <| h_lane := add_links
      (side_links (Some ty) (λ i, pretty (lane_number (LeftOf i) * sg + off)%Z) (ls_left (h_sec h !!! s1)) ++
       side_links (Some ty) (λ i, pretty (lane_number (RightOf i) * sg + off)%Z) (ls_right (h_sec h !!! s1))) (h_lane h) |>).
  Proof.
    intros E1 E2 G1 G2 N1 -> P1 P2 Hs2 Hnum Hll Hlr.
    assert (M1 : Some ty ≠ Some "neighbor") by congruence.
    transitivity (create_links_connecting_road r1 r2 (h <| h_lane := h_lane h |>)); [by rewrite -(h_eta h)|].
    unfold create_links_connecting_road, get_road. rewrite !bind_gets. change (h_road (h <| h_lane := h_lane h |>)) with (h_road h). rewrite E1 E2.
    rewrite G1 G2. rewrite !bind_lift_ok. destruct t2 as [t2 sg2].
    assert (Eo : (if bool_decide (Some ty = Some "predecessor") then rd_off_pred o1 else rd_off_suc o1) = (if bool_decide (ty = "predecessor") then rd_off_pred o1 else rd_off_suc o1)).
    { by rewrite (bool_decide_ext (Some ty = Some "predecessor") (ty = "predecessor")); [split; [by intros [= ->]|by intros ->]|]. }
    rewrite Eo. clear Eo. generalize (if bool_decide (ty = "predecessor") then rd_off_pred o1 else rd_off_suc o1) as off. intros off.
    rewrite (bind_run _ _ _ _ _ (road_section_at _ _ _ _ _ P1)).
    erewrite bind_run; last first.
    { assert (L : ∀ m, same_ids (h_lane h) m → for_each (λ i,
           let! rsec := road_section o2 (Some z) in
           let! rl := or_raise IndexError (ls_left rsec !! i) in
           let! k := lane_id_times rl (Some sg) in
           let! csec := road_section o1 (Some z) in
           let! cl := or_raise IndexError (ls_left csec !! i) in
           lane_add_link cl (Some ty) (pretty (k + off)%Z)) (seq 0 (length (ls_left (h_sec h !!! s1)))) (h <| h_lane := m |>) =
           (Ok tt, h <| h_lane := add_links (side_links (Some ty) (λ i, pretty (lane_number (LeftOf i) * sg + off)%Z) (ls_left (h_sec h !!! s1))) m |>)).
      { apply (loop_links h _ (λ i, match ls_left (h_sec h !!! s1) !! i with
                      | Some a => [(a, mkLink (Some ty) (PStr (pretty (lane_number (LeftOf i) * sg + off)%Z)) None None None)]
                      | _ => [] end)).
        intros i m Hi Hm. apply elem_of_seq in Hi.
        rewrite (bind_run _ _ _ _ _ (road_section_at _ _ _ _ _ P2)).
        destruct (lookup_lt_is_Some_2 (ls_left (h_sec h !!! s1)) i ltac:(lia)) as [a Ha].
        destruct (lookup_lt_is_Some_2 (ls_left (h_sec h !!! s2)) i ltac:(lia)) as [b Hb].
        rewrite Ha Hb. cbn [or_raise]. rewrite bind_ret.
        assert (Hid : ln_id (m !!! b) = Some (lane_number (LeftOf i))).
        { rewrite Hm. apply Hnum. unfold lane_at. by rewrite (exists_at _ _ _ Hs2). }
        rewrite (bind_run _ _ _ _ _ (lane_id_times_at _ _ _ _ _ Hid)).
        rewrite (bind_run _ _ _ _ _ (road_section_at _ _ _ _ _ P1)). rewrite Ha. cbn [or_raise]. rewrite bind_ret.
        by rewrite (lane_add_link_at _ _ _ _ _ M1). }
      instantiate (2 := tt).
      instantiate (1 := h <| h_lane := add_links (side_links (Some ty) (λ i, pretty (lane_number (LeftOf i) * sg + off)%Z) (ls_left (h_sec h !!! s1))) (h_lane h) |>).
      destruct (ls_left (h_sec h !!! s1)) as [|a l] eqn:El.
      - done.
      - rewrite (bind_run _ _ _ _ _ (road_section_at _ _ _ _ _ P1)). rewrite El. apply L. done. }
    rewrite (bind_run _ _ _ _ _ (road_section_at _ _ _ _ _ P1)). rewrite add_links_app.
    assert (L : ∀ m, same_ids (h_lane h) m → for_each (λ i,
         let! rsec := road_section o2 (Some z) in
         let! rl := or_raise IndexError (ls_right rsec !! i) in
         let! k := lane_id_times rl (Some sg) in
         let! csec := road_section o1 (Some z) in
         let! cl := or_raise IndexError (ls_right csec !! i) in
         lane_add_link cl (Some ty) (pretty (k + off)%Z)) (seq 0 (length (ls_right (h_sec h !!! s1)))) (h <| h_lane := m |>) =
         (Ok tt, h <| h_lane := add_links (side_links (Some ty) (λ i, pretty (lane_number (RightOf i) * sg + off)%Z) (ls_right (h_sec h !!! s1))) m |>)).
    { apply (loop_links h _ (λ i, match ls_right (h_sec h !!! s1) !! i with
                    | Some a => [(a, mkLink (Some ty) (PStr (pretty (lane_number (RightOf i) * sg + off)%Z)) None None None)]
                    | _ => [] end)).
      intros i m Hi Hm. apply elem_of_seq in Hi.
      rewrite (bind_run _ _ _ _ _ (road_section_at _ _ _ _ _ P2)).
      destruct (lookup_lt_is_Some_2 (ls_right (h_sec h !!! s1)) i ltac:(lia)) as [a Ha].
      destruct (lookup_lt_is_Some_2 (ls_right (h_sec h !!! s2)) i ltac:(lia)) as [b Hb].
      rewrite Ha Hb. cbn [or_raise]. rewrite bind_ret.
      assert (Hid : ln_id (m !!! b) = Some (lane_number (RightOf i))).
      { rewrite Hm. apply Hnum. unfold lane_at. by rewrite (exists_at _ _ _ Hs2). }
      rewrite (bind_run _ _ _ _ _ (lane_id_times_at _ _ _ _ _ Hid)).
      rewrite (bind_run _ _ _ _ _ (road_section_at _ _ _ _ _ P1)). rewrite Ha. cbn [or_raise]. rewrite bind_ret.
      by rewrite (lane_add_link_at _ _ _ _ _ M1). }
    destruct (ls_right (h_sec h !!! s1)) as [|a l] eqn:El; [done|].
    apply L. intros x. by rewrite add_links_id.
  Qed.

  (** ** Which lane gets what *)
  Lemma concat_one {A} (f : nat → list A) n i : i < n → (∀ j, j < n → j ≠ i → f j = []) → concat (map f (seq 0 n)) = f i.
  Proof.
    intros Hi Hf. assert (G : ∀ k m, (∀ j, k ≤ j < k + m → j ≠ i → f j = []) → concat (map f (seq k m)) = if decide (k ≤ i < k + m) then f i else []).
    { intros k m. revert k. induction m as [|m IH]; intros k Hk; simpl.
      - destruct (decide _); [lia|done].
      - rewrite IH; [intros j Hj; apply Hk; lia|]. destruct (decide (k = i)) as [->|Hne].
        + destruct (decide (S i ≤ i < _)); [lia|]. destruct (decide (i ≤ i < _)); [|lia]. by rewrite app_nil_r.
        + rewrite (Hk k); [lia|done|]. destruct (decide (S k ≤ i < _)), (decide (k ≤ i < _)); done || lia. }
    rewrite G; [intros j Hj; apply Hf; lia|]. destruct (decide _); [done|lia].
  Qed.
  Lemma concat_none {A} (f : nat → list A) n : (∀ j, j < n → f j = []) → concat (map f (seq 0 n)) = [].
  Proof.
    intros Hf. assert (G : ∀ k m, (∀ j, k ≤ j < k + m → f j = []) → concat (map f (seq k m)) = []).
    { intros k m. revert k. induction m as [|m IH]; intros k Hk; simpl; [done|]. rewrite Hk; [lia|]. apply IH. intros j Hj. apply Hk. lia. }
    apply G. intros j Hj. apply Hf. lia.
  Qed.
  Lemma links_for_concat l (f : nat → list (ref * link)) ixs : links_for l (concat (map f ixs)) = concat (map (λ i, links_for l (f i)) ixs).
  Proof. induction ixs as [|i ixs IH]; [done|]. simpl. by rewrite links_for_app IH. Qed.
  Lemma links_for_not l us : l ∉ us.*1 → links_for l us = [].
  Proof.
    induction us as [|[a k] us IH]; [done|]. simpl. intros [H1 H2]%not_elem_of_cons. unfold links_for in *. rewrite filter_cons. simpl.
    destruct (decide (a = l)) as [->|_]; [done|]. by apply IH.
  Qed.
  Lemma add_links_not us : ∀ m l, l ∉ us.*1 → add_links us m !! l = m !! l.
  Proof.
    induction us as [|[a k] us IH]; intros m l; [done|]. simpl. intros [H1 H2]%not_elem_of_cons. rewrite IH //. unfold add1. simpl. by rewrite lookup_insert_ne.
  Qed.
  Lemma links_for_pair ty1 ty2 id1 id2 l1 l2 n l : links_for l (pair_links ty1 ty2 id1 id2 l1 l2 n) =
    concat (map (λ i, links_for l (match l1 !! i, l2 !! i with
                      | Some a, Some b => [(a, mkLink ty1 (PStr (id1 i)) None None None); (b, mkLink ty2 (PStr (id2 i)) None None None)]
                      | _, _ => [] end)) (seq 0 n)).
  Proof. apply links_for_concat. Qed.
  Lemma pair_links_first ty1 ty2 id1 id2 l1 l2 n i a : NoDup (l1 ++ l2) → length l1 = n → length l2 = n → l1 !! i = Some a →
    links_for a (pair_links ty1 ty2 id1 id2 l1 l2 n) = [mkLink ty1 (PStr (id1 i)) None None None].
  Proof.
    intros (N1 & N2 & N3)%NoDup_app L1 L2 Ha. assert (Hi : i < n) by (rewrite -L1; by eapply lookup_lt_Some).
    assert (Hn : ∀ b, b ∈ l2 → b ≠ a). { intros b Hb ->. apply (N2 a); [by eapply elem_of_list_lookup_2|done]. }
    rewrite links_for_pair (concat_one _ n i) //.
    - intros j Hj Hne. destruct (lookup_lt_is_Some_2 l1 j ltac:(lia)) as [a' Ha']. destruct (lookup_lt_is_Some_2 l2 j ltac:(lia)) as [b' Hb'].
      rewrite Ha' Hb'. unfold links_for. rewrite !filter_cons filter_nil. simpl.
      destruct (decide (a' = a)) as [->|_]. { destruct Hne. exact (NoDup_lookup _ _ _ _ N1 Ha' Ha). }
      destruct (decide (b' = a)) as [->|_]; [|done]. exfalso. eapply Hn; [by eapply elem_of_list_lookup_2|done].
    - destruct (lookup_lt_is_Some_2 l2 i ltac:(lia)) as [b' Hb']. rewrite Ha Hb'. unfold links_for. rewrite !filter_cons filter_nil. simpl.
      destruct (decide (a = a)) as [_|]; [|done].
      destruct (decide (b' = a)) as [->|_]; [|done]. exfalso. eapply Hn; [by eapply elem_of_list_lookup_2|done].
  Qed.
  Lemma pair_links_second ty1 ty2 id1 id2 l1 l2 n i b : NoDup (l1 ++ l2) → length l1 = n → length l2 = n → l2 !! i = Some b →
    links_for b (pair_links ty1 ty2 id1 id2 l1 l2 n) = [mkLink ty2 (PStr (id2 i)) None None None].
  Proof.
    intros (N1 & N2 & N3)%NoDup_app L1 L2 Hb. assert (Hi : i < n) by (rewrite -L2; by eapply lookup_lt_Some).
    assert (Hn : ∀ a, a ∈ l1 → a ≠ b). { intros a Ha ->. apply (N2 b Ha). by eapply elem_of_list_lookup_2. }
    rewrite links_for_pair (concat_one _ n i) //.
    - intros j Hj Hne. destruct (lookup_lt_is_Some_2 l1 j ltac:(lia)) as [a' Ha']. destruct (lookup_lt_is_Some_2 l2 j ltac:(lia)) as [b' Hb'].
      rewrite Ha' Hb'. unfold links_for. rewrite !filter_cons filter_nil. simpl.
      destruct (decide (a' = b)) as [->|_]. { exfalso. eapply Hn; [by eapply elem_of_list_lookup_2|done]. }
      destruct (decide (b' = b)) as [->|_]; [|done]. destruct Hne. exact (NoDup_lookup _ _ _ _ N3 Hb' Hb).
    - destruct (lookup_lt_is_Some_2 l1 i ltac:(lia)) as [a' Ha']. rewrite Ha' Hb. unfold links_for. rewrite !filter_cons filter_nil. simpl.
      destruct (decide (a' = b)) as [->|_]. { exfalso. eapply Hn; [by eapply elem_of_list_lookup_2|done]. }
      by destruct (decide (b = b)) as [_|].
  Qed.
  Lemma pair_links_dom ty1 ty2 id1 id2 l1 l2 n l : l ∈ (pair_links ty1 ty2 id1 id2 l1 l2 n).*1 → l ∈ l1 ++ l2.
  Proof.
    intros (u & -> & Hu)%elem_of_list_fmap. unfold pair_links in Hu. rewrite elem_of_list_In in Hu. apply in_concat in Hu as (us & Hus & Hu).
    apply in_map_iff in Hus as (i & <- & _). destruct (l1 !! i) as [a|] eqn:Ea; [|done]. destruct (l2 !! i) as [b|] eqn:Eb; [|done].
    apply elem_of_list_lookup_2 in Ea, Eb. apply elem_of_app. destruct Hu as [<-|[<-|[]]]; auto.
  Qed.
  Lemma side_links_at ty id l i a : NoDup l → l !! i = Some a → links_for a (side_links ty id l) = [mkLink ty (PStr (id i)) None None None].
  Proof.
    intros N Ha. unfold side_links. rewrite links_for_concat (concat_one _ _ i).
    - by eapply lookup_lt_Some.
    - intros j Hj Hne. destruct (lookup_lt_is_Some_2 l j Hj) as [a' Ha']. rewrite Ha'. unfold links_for. rewrite filter_cons filter_nil. simpl.
      destruct (decide (a' = a)) as [->|_]; [|done]. destruct Hne. exact (NoDup_lookup _ _ _ _ N Ha' Ha).
    - rewrite Ha. unfold links_for. rewrite filter_cons filter_nil. simpl. by destruct (decide (a = a)).
  Qed.
  Lemma side_links_dom ty id l x : x ∈ (side_links ty id l).*1 → x ∈ l.
  Proof.
    intros (u & -> & Hu)%elem_of_list_fmap. unfold side_links in Hu. rewrite elem_of_list_In in Hu. apply in_concat in Hu as (us & Hus & Hu).
    apply in_map_iff in Hus as (i & <- & _). destruct (l !! i) as [a|] eqn:Ea; [|done].
    apply elem_of_list_lookup_2 in Ea. by destruct Hu as [<-|[]].
  Qed.
End LaneLinks.
