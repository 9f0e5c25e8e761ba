(** The lane links of a whole network *)
From Coq Require Import ssreflect.
From Verif.Model Require Import Api.
From Verif.Spec Require Import SpecRoadChain.
From Verif.Proof Require Import Monad DictFacts PlanViewFacts NetFrame Network Again Reach Steps History LinkerFacts LaneLinks.
From Verif.Properties Require Import PLaneLinks.
Local Open Scope general_if_scope.

(** ** Pairs *)
Section Pairs.
  Context {A B : Type} (U : A * A → list B).
  Context (Hsym : ∀ x y, U (x, y) ≡ₚ U (y, x)).

  Local Notation total l := (concat (map U (combinations2 l))).
  Lemma total_cons x l : total (x :: l) = concat (map (λ y, U (x, y)) l) ++ total l.
  Proof. simpl. by rewrite map_app map_map concat_app. Qed.
  Lemma concat_map_perm {C} (f : C → list B) l l' : l ≡ₚ l' → concat (map f l) ≡ₚ concat (map f l').
  Proof. induction 1; simpl; [done|by f_equiv|rewrite !app_assoc; f_equiv; apply Permutation_app_comm|by etrans]. Qed.
  Lemma total_perm l l' : l ≡ₚ l' → total l ≡ₚ total l'.
  Proof.
    induction 1 as [|x l l' Hp IH|x y l|l1 l2 l3 _ IH1 _ IH2]; [done|..].
    - rewrite !total_cons. f_equiv; [by apply concat_map_perm|done].
    - rewrite !total_cons. simpl. rewrite (Hsym y x). rewrite -!app_assoc. f_equiv. rewrite !app_assoc. f_equiv. apply Permutation_app_comm.
    - by etrans.
  Qed.
  (** only neighbours in the list matter *)
  Lemma total_neighbours l :
    (∀ i j x y, l !! i = Some x → l !! j = Some y → S i < j → U (x, y) = []) → total l = concat (map U (zip l (tail l))).
  Proof.
    induction l as [|x l IH]; intros Hn; [done|]. rewrite total_cons. rewrite IH.
    { intros i j a b Hi Hj Hlt. apply (Hn (S i) (S j)); [done|done|lia]. }
    destruct l as [|y l]; [done|]. simpl. f_equal.
    assert (concat (map (λ y0, U (x, y0)) l) = []) as ->; [|by rewrite app_nil_r].
    assert (Hz : ∀ b, b ∈ l → U (x, b) = []).
    { intros b (j & Hj)%elem_of_list_lookup. apply (Hn 0 (S (S j))); [done|done|lia]. }
    clear -Hz. induction l as [|b l IH]; [done|]. simpl. rewrite (Hz b); [by left|]. apply IH. intros c Hc. apply Hz. by right.
  Qed.
End Pairs.

Section LinkAll.
  Context {F : Type} `{!Num F}.
  Implicit Types (h : heap F) (o : road).

  Lemma links_for_perm l us vs : us ≡ₚ vs → links_for l us ≡ₚ links_for l vs.
  Proof. intros Hp. unfold links_for. by rewrite Hp. Qed.

  (** [adds h r1 r2 us]: linking the lanes of the two roads adds the links [us] *)
  Definition adds h (r1 r2 : ref) (us : list (ref * link)) : Prop := ∀ m, same_ids (h_lane h) m →
    create_lane_links r1 r2 (h <| h_lane := m |>) = (Ok tt, h <| h_lane := add_links us m |>).

  Lemma link_all_adds h d (U : string * string → list (ref * link)) :
    (∀ k1 k2 r1 r2, k1 ≠ k2 → dict_get (od_roads (h_odr h !!! d)) k1 = Some r1 → dict_get (od_roads (h_odr h !!! d)) k2 = Some r2 →
       adds h r1 r2 (U (k1, k2))) →
    NoDup (net_keys h d) →
    link_all d h = (Ok tt, h <| h_lane := add_links (concat (map U (combinations2 (net_keys h d)))) (h_lane h) |>).
  Proof.
    intros Ha Hnd. transitivity (link_all d (h <| h_lane := h_lane h |>)); [by rewrite -(h_eta h)|].
    unfold link_all, get_odr. rewrite bind_gets. change (h_odr (h <| h_lane := h_lane h |>)) with (h_odr h).
    change (dict_keys (od_roads (h_odr h !!! d))) with (net_keys h d).
    assert (Hm : same_ids (h_lane h) (h_lane h)) by by intros l.
    assert (Hin : ∀ kk, kk ∈ combinations2 (net_keys h d) → kk.1 ≠ kk.2 ∧ kk.1 ∈ net_keys h d ∧ kk.2 ∈ net_keys h d).
    { clear -Hnd. revert Hnd. generalize (net_keys h d) as l. induction l as [|x l IH]; intros Hnd kk Hkk; [by apply elem_of_nil in Hkk|].
      apply NoDup_cons in Hnd as [Hx Hnd]. simpl in Hkk. apply elem_of_app in Hkk as [Hkk|Hkk].
      - apply elem_of_list_fmap in Hkk as (y & -> & Hy). simpl. split; [by intros ->|]. split; [by left|by right].
      - destruct (IH Hnd kk Hkk) as (? & ? & ?). split; [done|]. split; by right. }
    revert Hin. generalize (combinations2 (net_keys h d)) as kks. intros kks.
    enough (G : ∀ m, same_ids (h_lane h) m → (∀ kk, kk ∈ kks → kk.1 ≠ kk.2 ∧ kk.1 ∈ net_keys h d ∧ kk.2 ∈ net_keys h d) →
      for_each (λ kk : string * string, let! r1 := road_at (od_roads (h_odr h !!! d)) kk.1 in
        let! r2 := road_at (od_roads (h_odr h !!! d)) kk.2 in create_lane_links r1 r2) kks (h <| h_lane := m |>) =
      (Ok tt, h <| h_lane := add_links (concat (map U kks)) m |>)) by (by apply G).
    clear Hm. induction kks as [|[k1 k2] kks IH]; intros m Hm Hin; [done|].
    cbn [for_each map concat]. destruct (Hin (k1, k2) ltac:(by left)) as (Hne & H1 & H2). simpl in Hne, H1, H2.
    apply dict_get_keys in H1 as [r1 E1]. apply dict_get_keys in H2 as [r2 E2].
    assert (Estep : (let! x := road_at (od_roads (h_odr h !!! d)) k1 in let! y := road_at (od_roads (h_odr h !!! d)) k2 in create_lane_links x y) (h <| h_lane := m |>) =
      (Ok tt, h <| h_lane := add_links (U (k1, k2)) m |>)).
    { unfold road_at. rewrite E1 E2. exact (Ha k1 k2 r1 r2 Hne E1 E2 m Hm). }
    rewrite (bind_run _ _ _ _ _ Estep) add_links_app. apply IH.
    - intros l. rewrite add_links_id. apply Hm.
    - intros kk Hkk. apply Hin. by right.
  Qed.

  (** ** Two consecutive roads *)
  Definition joint_links h (s1 s2 : ref) : list (ref * link) :=
    pair_links (Some "successor") (Some "predecessor") (λ i, pretty (lane_number (LeftOf i) * 1)%Z) (λ i, pretty (lane_number (LeftOf i) * 1 * 1)%Z)
       (ls_left (h_sec h !!! s1)) (ls_left (h_sec h !!! s2)) (length (ls_left (h_sec h !!! s1))) ++
    pair_links (Some "successor") (Some "predecessor") (λ i, pretty (lane_number (RightOf i))) (λ i, pretty (lane_number (RightOf i)))
       (ls_right (h_sec h !!! s1)) (ls_right (h_sec h !!! s2)) (length (ls_right (h_sec h !!! s1))).

  Lemma follows_adds h r1 r2 o1 o2 s1 s2 s3 :
    h_road h !!! r1 = o1 → h_road h !!! r2 = o2 → follows o1 o2 → succ_id_not o2 o1 →
    last_section h o1 = Some s1 → first_section h o2 = Some s2 → last_section h o2 = Some s3 →
    exists_in h_sec h s1 → numbered h s1 →
    lane_counts h s1 = lane_counts h s2 → lane_counts h s1 = lane_counts h s3 →
    adds h r1 r2 (joint_links h s1 s2) ∧ adds h r2 r1 (joint_links h s1 s2).
  Proof.
    intros E1 E2 Hf Hn P1 P2 P3 Hs1 Hnum C12 C13.
    destruct (follows_back _ _ Hf Hn) as [sg2 G2]. pose proof (follows_forward _ _ Hf) as G1.
    unfold lane_counts in C12. injection C12 as CL CR.
    assert (Q1 : py_index (sections h o1) (-1) = Some s1) by (unfold last_section in P1; by rewrite -py_index_last in P1).
    assert (Q2 : py_index (sections h o2) 0 = Some s2) by (unfold first_section in P2; by rewrite -py_index_0 in P2).
    assert (R : ∀ m, same_ids (h_lane h) m → create_links_roads r1 r2 (h <| h_lane := m |>) = (Ok tt, h <| h_lane := add_links (joint_links h s1 s2) m |>)).
    { intros m Hm. pose (hm := h <| h_lane := m |>).
      assert (Hnum' : numbered hm s1).
      { intros p l Hl. change (h_lane hm) with m. rewrite Hm. apply Hnum. exact Hl. }
      exact (links_roads_run hm r1 r2 o1 o2 "successor" "predecessor" 1 (Some sg2) (-1) 0 s1 s2 s3 E1 E2 G1 G2 ltac:(done) ltac:(done)
        Q1 Q2 P3 Hs1 Hnum' (eq_sym C13) ltac:(by rewrite CL) ltac:(by rewrite CR)). }
    split; intros m Hm; pose (hm := h <| h_lane := m |>);
      destruct (follows_dispatch r1 r2 o1 o2 hm E1 E2 Hf Hn) as [D1 D2]; change (h <| h_lane := m |>) with hm; [rewrite D1|rewrite D2]; exact (R m Hm).
  Qed.

  Lemma apart_adds h r1 r2 o1 o2 :
    h_road h !!! r1 = o1 → h_road h !!! r2 = o2 → rd_type o1 = (-1)%Z → rd_type o2 = (-1)%Z →
    are_roads_consecutive o1 o2 = false → are_roads_consecutive o2 o1 = false → adds h r1 r2 [].
  Proof.
    intros E1 E2 T1 T2 C1 C2 m _. unfold create_lane_links, get_road. rewrite !bind_gets.
    change (h_road (h <| h_lane := m |>)) with (h_road h). rewrite E1 E2 T1 T2 C1 C2. done.
  Qed.

  (** the links of the joint, lane by lane *)
  Lemma joint_links_dom h s1 s2 l : l ∉ side_lanes h s1 → l ∉ side_lanes h s2 → links_for l (joint_links h s1 s2) = [].
  Proof.
    intros H1 H2. unfold joint_links. rewrite links_for_app.
    unfold side_lanes in *. rewrite !elem_of_app in H1, H2.
    rewrite !links_for_not; [intros Hi%pair_links_dom%elem_of_app; naive_solver|intros Hi%pair_links_dom%elem_of_app; naive_solver|done].
  Qed.
  Lemma joint_links_at h s1 s2 p a b : NoDup (side_lanes h s1 ++ side_lanes h s2) → lane_counts h s1 = lane_counts h s2 →
    exists_in h_sec h s1 → exists_in h_sec h s2 → p ≠ Centre → lane_at h s1 p = Some a → lane_at h s2 p = Some b →
    links_for a (joint_links h s1 s2) = [lane_link "successor" (pretty (lane_number p))] ∧
    links_for b (joint_links h s1 s2) = [lane_link "predecessor" (pretty (lane_number p))].
  Proof.
    intros ND C12 Hs1 Hs2 Hp Ha Hb. unfold lane_counts in C12. injection C12 as CL CR.
    unfold lane_at in Ha, Hb. rewrite (exists_at _ _ _ Hs1) in Ha. rewrite (exists_at _ _ _ Hs2) in Hb.
    unfold joint_links. rewrite !links_for_app. unfold lane_link.
    assert (Hp' : side_lanes h s1 ++ side_lanes h s2 ≡ₚ (ls_left (h_sec h !!! s1) ++ ls_left (h_sec h !!! s2)) ++ (ls_right (h_sec h !!! s1) ++ ls_right (h_sec h !!! s2))).
    { unfold side_lanes. solve_Permutation. }
    rewrite Hp' in ND. apply NoDup_app in ND as (NL & ND & NR).
    destruct p as [|i|i]; [done| |].
    + rewrite (pair_links_first _ _ _ _ (ls_left _) _ _ i a) //. rewrite (pair_links_second _ _ _ _ (ls_left _) _ _ i b) //.
      apply elem_of_list_lookup_2 in Ha, Hb.
      rewrite !links_for_not.
      * intros Hi%pair_links_dom. apply (ND a); [apply elem_of_app; auto|done].
      * intros Hi%pair_links_dom. apply (ND b); [apply elem_of_app; auto|done].
      * rewrite !Z.mul_1_r. done.
    + rewrite (pair_links_first _ _ _ _ (ls_right _) _ _ i a) //. rewrite (pair_links_second _ _ _ _ (ls_right _) _ _ i b) //.
      apply elem_of_list_lookup_2 in Ha, Hb.
      rewrite !links_for_not.
      * intros Hi%pair_links_dom. apply (ND a); [done|apply elem_of_app; auto].
      * intros Hi%pair_links_dom. apply (ND b); [done|apply elem_of_app; auto].
      * done.
  Qed.
End LinkAll.
