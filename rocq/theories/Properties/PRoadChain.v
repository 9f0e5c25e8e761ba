(** * C51: a chain of roads *)
From Coq Require Import Reals Lra ssreflect.
From Coquelicot Require Import Coquelicot.
From Verif.Model Require Import Api.
From Verif.Inst Require Import Quarter Real.
From Verif.Spec Require Import SpecPlanView SpecRoadChain.
From Verif.Proof Require Import Monad DictFacts PlanViewFacts PlanViewReal NetFrame Network Again Reach Steps History LinkerFacts LaneLinks RoadChain LinkAll.
From Verif.Properties Require Import PPlanView PNetwork PHistory PLaneLinks PAgain.
Local Unset SsrOldRewriteGoalsOrder.
Local Open Scope general_if_scope.
Local Open Scope nat_scope.

(** a sum with at most two terms *)
Lemma concat_two {A} (f : nat → list A) n i : i ≤ n → (∀ j, j < n → j ≠ i → S j ≠ i → f j = []) →
  concat (map f (seq 0 n)) = (if decide (0 < i) then f (i - 1) else []) ++ (if decide (i < n) then f i else []).
Proof.
  intros Hi Hz.
  assert (Hnil : ∀ a m, (∀ j, a ≤ j → j < a + m → f j = []) → concat (map f (seq a m)) = []).
  { intros a m. revert a. induction m as [|m IH]; intros a Ha; [done|]. simpl. rewrite (Ha a); [lia|lia|]. apply IH. intros j ??. apply Ha; lia. }
  assert (Hlow : concat (map f (seq 0 i)) = if decide (0 < i) then f (i - 1) else []).
  { destruct i as [|i]; [done|]. rewrite seq_S map_app concat_app. simpl. rewrite Hnil; [intros j ??; apply Hz; lia|]. rewrite app_nil_r /=.
    destruct (decide (0 < S i)); [|lia]. f_equal. lia. }
  replace n with (i + (n - i)) at 1 by lia. rewrite seq_app map_app concat_app Hlow. f_equal. simpl.
  destruct (decide (i < n)) as [Hlt|Hge].
  - replace (n - i) with (S (n - S i)) by lia. simpl. rewrite Hnil; [intros j ??; apply Hz; lia|]. by rewrite app_nil_r.
  - replace (n - i) with 0 by lia. done.
Qed.

Lemma zip_neighbours {A B} (f : A * A → list B) (l : list A) : map f (zip l (tail l)) =
  map (λ j, match l !! j, l !! S j with Some a, Some b => f (a, b) | _, _ => [] end) (seq 0 (length l - 1)).
Proof.
  induction l as [|x l IH]; [done|]. destruct l as [|y l]; [done|]. simpl in *. rewrite Nat.sub_0_r in IH. f_equal.
  rewrite IH -seq_shift map_map. done.
Qed.

Section AnyNum.
  Context {F : Type} `{!Num F}.
  Implicit Types (h : heap F) (o : road).

  (** ** C51, placement: the chain is placed, in whatever order its roads were inserted, and each road starts where the one before
      it ends ([beside 0 q] is [q], up to the arithmetic of adding 0: see the theorem over the reals) *)
  Theorem C51_end_to_end (d : ref) h ks : fresh_network h d → evaluable_network h d → road_chain h d ks → ks ≠ [] →
    ∃ h', adjust_startpoints d h = (Ok tt, h') ∧
      (∀ k o, head ks = Some k → road_named h d k = Some o →
         put_forward h (view h o) (view h' o) (pv_x (view h o), pv_y (view h o), pv_h (view h o))) ∧
      (∀ i k1 k2 o1 o2, ks !! i = Some k1 → ks !! S i = Some k2 → road_named h d k1 = Some o1 → road_named h d k2 = Some o2 →
         ∃ q, pv_end (view h' o1) = Some q ∧ put_forward h (view h o2) (view h' o2) (beside 0 q)).
  Proof.
    intros Hf He Hc Hne. destruct (rc_runs h d ks Hf He Hc Hne) as [h' E]. exists h'. split; [done|]. split.
    - by apply rc_first_placed.
    - by apply rc_placed.
  Qed.

  (** ** Lanes *)
  Definition U h (d : ref) (kk : string * string) : list (ref * link) :=
    match road_named h d kk.1, road_named h d kk.2 with
    | Some o1, Some o2 =>
      let J a b := match last_section h a, first_section h b with Some s1, Some s2 => joint_links h s1 s2 | _, _ => [] end in
      if are_roads_consecutive o1 o2 then J o1 o2 else if are_roads_consecutive o2 o1 then J o2 o1 else []
    | _, _ => []
    end.

  Section Lanes.
    Context (h : heap F) (d : ref) (ks : list string) (c : nat * nat).
    Context (Hnd : NoDup (net_keys h d)) (Hc : road_chain h d ks) (Hl : chain_lanes h d c).

    Lemma ks_nodup : NoDup ks.
    Proof. by rewrite -(rc_keys _ _ _ Hc). Qed.
    Lemma ks_named k : k ∈ ks ↔ is_Some (road_named h d k).
    Proof. rewrite -(rc_keys _ _ _ Hc). apply keys_are_named. Qed.
    Lemma ks_at i k : ks !! i = Some k → ∃ o, road_named h d k = Some o.
    Proof. intros Hi. apply (proj1 (ks_named k)). exact (elem_of_list_lookup_2 _ _ _ Hi). Qed.
    Lemma ks_index i j k : ks !! i = Some k → ks !! j = Some k → i = j.
    Proof. apply NoDup_lookup, ks_nodup. Qed.
    Lemma same_id k1 k2 o1 o2 : road_named h d k1 = Some o1 → road_named h d k2 = Some o2 → rd_id o1 = rd_id o2 → k1 = k2.
    Proof.
      intros H1 H2 E. destruct (rc_road _ _ _ Hc _ _ H1) as (_ & <- & _). destruct (rc_road _ _ _ Hc _ _ H2) as (_ & <- & _). by rewrite E.
    Qed.
    Lemma ks_follows i k1 k2 o1 o2 : ks !! i = Some k1 → ks !! S i = Some k2 → road_named h d k1 = Some o1 → road_named h d k2 = Some o2 →
      follows o1 o2 ∧ succ_id_not o2 o1 ∧ are_roads_consecutive o1 o2 = true ∧ are_roads_consecutive o2 o1 = false.
    Proof.
      intros H1 H2 E1 E2. destruct (rc_next _ _ _ Hc i k1 k2 o1 o2 H1 H2 E1 E2) as [(S1 & S2 & S3 & S4 & S5) (P1 & P2 & P3 & P4 & P5)].
      destruct (rc_road _ _ _ Hc _ _ E1) as (T1 & _). destruct (rc_road _ _ _ Hc _ _ E2) as (T2 & _).
      assert (Hn : succ_id_not o2 o1).
      { intros L HL Hid. destruct (ks !! S (S i)) as [k3|] eqn:H3.
        - destruct (ks_at _ k3 ltac:(eassumption)) as [o3 E3].
          destruct (rc_next _ _ _ Hc (S i) k2 k3 o2 o3 H2 H3 E2 E3) as [(L' & HL' & _ & Hid' & _) _].
          assert (L' = L) as -> by congruence. assert (k1 = k3) as <- by (apply (same_id k1 k3 o1 o3); [done|done|congruence]).
          assert (i = S (S i)) by (by eapply ks_index). lia.
        - rewrite (rc_last _ _ _ Hc k2 o2) // in HL. rewrite last_lookup -H2. f_equal. apply lookup_lt_Some in H2. apply lookup_ge_None in H3. lia. }
      split_and!.
      - split; [done|]. split; [done|]. split; [by exists S1|by exists P1].
      - done.
      - unfold are_roads_consecutive. rewrite S2 P2 S3 P3 S4 P4. by rewrite !bool_decide_true.
      - unfold are_roads_consecutive. destruct (rd_succ o2) as [S|] eqn:ES; [|done]. destruct (rd_pred o1); [|done].
        rewrite (bool_decide_false (lk_id S = _)); [by apply Hn|]. by rewrite andb_false_r.
    Qed.
    Lemma ks_not_follows i j k1 k2 o1 o2 : ks !! i = Some k1 → ks !! j = Some k2 → j ≠ S i → road_named h d k1 = Some o1 → road_named h d k2 = Some o2 →
      are_roads_consecutive o1 o2 = false.
    Proof.
      intros H1 H2 Hne E1 E2. unfold are_roads_consecutive. destruct (rd_succ o1) as [S|] eqn:ES; [|done]. destruct (rd_pred o2); [|done].
      destruct (ks !! Datatypes.S i) as [k3|] eqn:H3.
      - destruct (ks_at _ k3 ltac:(eassumption)) as [o3 E3].
        destruct (rc_next _ _ _ Hc i k1 k3 o1 o3 H1 H3 E1 E3) as [(L' & HL' & _ & Hid' & _) _].
        rewrite (bool_decide_false (lk_id S = _)); [|by rewrite andb_false_r]. intros Hid.
        assert (L' = S) as -> by congruence. assert (k2 = k3) as <- by (apply (same_id k2 k3 o2 o3); [done|done|congruence]).
        apply Hne. by eapply ks_index.
      - rewrite (rc_last _ _ _ Hc k1 o1) // in ES. rewrite last_lookup -H1. f_equal. apply lookup_lt_Some in H1. apply lookup_ge_None in H3. lia.
    Qed.
    Lemma first_touch k o : road_named h d k = Some o → ∃ s, first_section h o = Some s.
    Proof. intros Ho. pose proof (cl_some _ _ _ Hl k o Ho) as Hs. unfold first_section. destruct (sections h o); [done|]. by eexists. Qed.
    Lemma last_touch k o : road_named h d k = Some o → ∃ s, last_section h o = Some s.
    Proof.
      intros Ho. pose proof (cl_some _ _ _ Hl k o Ho) as Hs. unfold last_section. destruct (last (sections h o)) eqn:E; [by eexists|].
      by apply last_None in E.
    Qed.

    Lemma at_index k o : road_named h d k = Some o → ∃ i, ks !! i = Some k.
    Proof. intros Ho. apply elem_of_list_lookup, ks_named. by eexists. Qed.
    Lemma U_sym x y : U h d (x, y) ≡ₚ U h d (y, x).
    Proof.
      unfold U. simpl. destruct (road_named h d x) as [ox|] eqn:Ex; [|by destruct (road_named h d y)]. destruct (road_named h d y) as [oy|] eqn:Ey; [|done].
      destruct (at_index x ox Ex) as [i Hi], (at_index y oy Ey) as [j Hj].
      destruct (decide (j = S i)) as [->|Hn1].
      { destruct (ks_follows i x y ox oy Hi Hj Ex Ey) as (_ & _ & -> & ->). done. }
      rewrite (ks_not_follows i j x y ox oy Hi Hj Hn1 Ex Ey). by destruct (are_roads_consecutive oy ox).
    Qed.

    Lemma chain_link_all : link_all d h = (Ok tt, h <| h_lane := add_links (concat (map (U h d) (combinations2 (net_keys h d)))) (h_lane h) |>).
    Proof.
      apply link_all_adds; [|done]. intros k1 k2 r1 r2 Hne E1 E2.
      assert (N1 : road_named h d k1 = Some (h_road h !!! r1)) by (unfold road_named; by rewrite E1).
      assert (N2 : road_named h d k2 = Some (h_road h !!! r2)) by (unfold road_named; by rewrite E2).
      destruct (at_index _ _ N1) as [i Hi], (at_index _ _ N2) as [j Hj].
      assert (Hdo : ∀ i k1 k2 r1 r2, road_named h d k1 = Some (h_road h !!! r1) → road_named h d k2 = Some (h_road h !!! r2) →
        ks !! i = Some k1 → ks !! S i = Some k2 → ∃ s1 s2, last_section h (h_road h !!! r1) = Some s1 ∧ first_section h (h_road h !!! r2) = Some s2 ∧
        LinkAll.adds h r1 r2 (joint_links h s1 s2) ∧ LinkAll.adds h r2 r1 (joint_links h s1 s2)).
      { clear -Hc Hl Hnd. intros i k1 k2 r1 r2 N1 N2 H1 H2. destruct (ks_follows i _ _ _ _ H1 H2 N1 N2) as (Hf & Hn & _ & _).
        destruct (last_touch _ _ N1) as [s1 P1], (first_touch _ _ N2) as [s2 P2], (last_touch _ _ N2) as [s3 P3].
        destruct (cl_sec _ _ _ Hl k1 _ s1 N1 ltac:(by right)) as (X1 & C1 & M1 & _).
        destruct (cl_sec _ _ _ Hl k2 _ s2 N2 ltac:(by left)) as (_ & C2 & _).
        destruct (cl_sec _ _ _ Hl k2 _ s3 N2 ltac:(by right)) as (_ & C3 & _).
        exists s1, s2. split; [done|]. split; [done|]. eapply follows_adds; try done; congruence. }
      unfold U. simpl. rewrite N1 N2.
      destruct (decide (j = S i)) as [->|Hn1].
      { destruct (Hdo i k1 k2 r1 r2 N1 N2 Hi Hj) as (s1 & s2 & P1 & P2 & A & _).
        destruct (ks_follows i _ _ _ _ Hi Hj N1 N2) as (_ & _ & -> & _). by rewrite P1 P2. }
      destruct (decide (i = S j)) as [->|Hn2].
      { destruct (Hdo j k2 k1 r2 r1 N2 N1 Hj Hi) as (s1 & s2 & P1 & P2 & _ & A).
        destruct (ks_follows j _ _ _ _ Hj Hi N2 N1) as (_ & _ & -> & ->). by rewrite P1 P2. }
      rewrite (ks_not_follows i j _ _ _ _ Hi Hj Hn1 N1 N2) (ks_not_follows j i _ _ _ _ Hj Hi Hn2 N2 N1).
      eapply apart_adds; [done|done|by apply (rc_road _ _ _ Hc k1)|by apply (rc_road _ _ _ Hc k2)|exact (ks_not_follows i j _ _ _ _ Hi Hj Hn1 N1 N2)|exact (ks_not_follows j i _ _ _ _ Hj Hi Hn2 N2 N1)].
    Qed.

    (** what one lane gets *)
    Lemma chain_neighbours : concat (map (U h d) (combinations2 (net_keys h d))) ≡ₚ concat (map (U h d) (zip ks (tail ks))).
    Proof.
      etrans; [apply (total_perm _ U_sym), (rc_keys _ _ _ Hc)|].
      rewrite (total_neighbours (U h d)); [|done]. intros i j x y Hi Hj Hlt.
      destruct (ks_at _ x ltac:(eassumption)) as [ox Ex].
      destruct (ks_at _ y ltac:(eassumption)) as [oy Ey].
      unfold U. simpl. rewrite Ex Ey. rewrite (ks_not_follows i j x y ox oy) //; [lia|]. rewrite (ks_not_follows j i y x oy ox) //. lia.
    Qed.
    Definition J (j : nat) : list (ref * link) := match ks !! j, ks !! S j with Some a, Some b => U h d (a, b) | _, _ => [] end.
    Lemma chain_links_for l : links_for l (concat (map (U h d) (combinations2 (net_keys h d)))) ≡ₚ
      concat (map (λ j, links_for l (J j)) (seq 0 (length ks - 1))).
    Proof. rewrite (links_for_perm _ _ _ chain_neighbours) zip_neighbours. by rewrite links_for_concat. Qed.

    Lemma J_at i k1 k2 o1 o2 s1 s2 : ks !! i = Some k1 → ks !! S i = Some k2 → road_named h d k1 = Some o1 → road_named h d k2 = Some o2 →
      last_section h o1 = Some s1 → first_section h o2 = Some s2 → J i = joint_links h s1 s2.
    Proof.
      intros H1 H2 N1 N2 P1 P2. unfold J, U. rewrite H1 H2. simpl. rewrite N1 N2.
      destruct (ks_follows i _ _ _ _ H1 H2 N1 N2) as (_ & _ & -> & _). by rewrite P1 P2.
    Qed.
    Lemma J_inv j : j < length ks - 1 → ∃ k1 k2 o1 o2 s1 s2, ks !! j = Some k1 ∧ ks !! S j = Some k2 ∧ road_named h d k1 = Some o1 ∧ road_named h d k2 = Some o2 ∧
      last_section h o1 = Some s1 ∧ first_section h o2 = Some s2 ∧ J j = joint_links h s1 s2.
    Proof.
      intros Hj. destruct (lookup_lt_is_Some_2 ks j ltac:(lia)) as [k1 H1]. destruct (lookup_lt_is_Some_2 ks (S j) ltac:(lia)) as [k2 H2].
      destruct (ks_at _ k1 ltac:(eassumption)) as [o1 E1].
      destruct (ks_at _ k2 ltac:(eassumption)) as [o2 E2].
      destruct (last_touch _ _ E1) as [s1 P1], (first_touch _ _ E2) as [s2 P2].
      exists k1, k2, o1, o2, s1, s2. split_and!; try done. by eapply J_at.
    Qed.
    Lemma lane_at_side s p l : p ≠ Centre → lane_at h s p = Some l → l ∈ side_lanes h s.
    Proof.
      unfold lane_at, side_lanes. destruct (h_sec h !! s) as [x|] eqn:E; [|done]. rewrite (lookup_total_correct _ _ _ E).
      intros Hp Ha. apply elem_of_app. destruct p; [done|left|right]; by eapply elem_of_list_lookup_2.
    Qed.
    Lemma counterpart s s' p l : lane_counts h s = lane_counts h s' → exists_in h_sec h s' → p ≠ Centre → lane_at h s p = Some l → ∃ l', lane_at h s' p = Some l'.
    Proof.
      unfold lane_at. intros [= EL ER] He Hp. destruct (h_sec h !! s) as [x|] eqn:E; [|done].
      rewrite (lookup_total_correct _ _ _ E) in EL, ER. rewrite (exists_at _ _ _ He).
      destruct p as [|i|i]; [done|..]; intros Ha%lookup_lt_Some; apply lookup_lt_is_Some_2; lia.
    Qed.

    Definition succ_links (b : bool) (p : place) : list link := if b then [lane_link "successor" (pretty (lane_number p))] else [].
    Definition pred_links (b : bool) (p : place) : list link := if b then [lane_link "predecessor" (pretty (lane_number p))] else [].

    Lemma chain_lane i k o s p l : ks !! i = Some k → road_named h d k = Some o → touching h o s → p ≠ Centre → lane_at h s p = Some l →
      links_for l (concat (map (U h d) (combinations2 (net_keys h d)))) ≡ₚ
      pred_links (bool_decide (first_section h o = Some s ∧ 0 < i)) p ++ succ_links (bool_decide (last_section h o = Some s ∧ S i < length ks)) p.
    Proof.
      intros Hi Ho Ht Hp Ha. rewrite chain_links_for. pose proof (lane_at_side _ _ _ Hp Ha) as Hin.
      destruct (cl_sec _ _ _ Hl k o s Ho Ht) as (Xs & Cs & Ms & Ds).
      assert (Hlen : i < length ks) by (by eapply lookup_lt_Some).
      assert (Hpart : ∀ k' o' s', road_named h d k' = Some o' → touching h o' s' → l ∈ side_lanes h s' → k' = k ∧ s' = s).
      { intros k' o' s' Ho' Ht' Hin'. destruct (cl_apart _ _ _ Hl k' k o' o s' s l Ho' Ho Ht' Ht Hin' Hin). done. }
      rewrite (concat_two (λ j, links_for l (J j)) (length ks - 1) i); [lia| |].
      { intros j Hj Hne1 Hne2. destruct (J_inv j Hj) as (k1 & k2 & o1 & o2 & s1 & s2 & H1 & H2 & N1 & N2 & P1 & P2 & ->).
        apply joint_links_dom.
        - intros Hin'. destruct (Hpart k1 o1 s1 N1 ltac:(by right) Hin') as [-> _]. apply Hne1. by eapply ks_index.
        - intros Hin'. destruct (Hpart k2 o2 s2 N2 ltac:(by left) Hin') as [-> _]. apply Hne2. by eapply ks_index. }
      assert (Hndup : ∀ k1 k2 o1 o2 s1 s2, k1 ≠ k2 → road_named h d k1 = Some o1 → road_named h d k2 = Some o2 →
        touching h o1 s1 → touching h o2 s2 → NoDup (side_lanes h s1 ++ side_lanes h s2)).
      { intros k1 k2 o1 o2 s1 s2 Hne N1 N2 T1 T2. apply NoDup_app. split; [by apply (cl_sec _ _ _ Hl k1 o1 s1)|].
        split; [|by apply (cl_sec _ _ _ Hl k2 o2 s2)]. intros x Hx1 Hx2. apply Hne. by destruct (cl_apart _ _ _ Hl k1 k2 o1 o2 s1 s2 x). }
      f_equiv.
      - destruct (decide (0 < i)) as [Hpos|Hz].
        + destruct (J_inv (i - 1) ltac:(lia)) as (k1 & k2 & o1 & o2 & s1 & s2 & H1 & H2 & N1 & N2 & P1 & P2 & ->).
          replace (S (i - 1)) with i in H2 by lia. assert (k2 = k) as -> by congruence. assert (o2 = o) as -> by congruence.
          assert (Hne : k1 ≠ k). { intros ->. assert (i - 1 = i) by (by eapply ks_index). lia. }
          destruct (decide (s2 = s)) as [->|Hs].
          * rewrite bool_decide_true //. simpl.
            destruct (cl_sec _ _ _ Hl k1 o1 s1 N1 ltac:(by right)) as (X1 & C1 & _).
            destruct (counterpart s s1 p l) as [a Ha1]; [congruence|done|done|done|].
            destruct (joint_links_at h s1 s p a l) as [_ ->]; try done; [|congruence].
            exact (Hndup k1 k o1 o s1 s Hne N1 N2 ltac:(by right) ltac:(by left)).
          * rewrite bool_decide_false; [intros [? _]; congruence|]. simpl. rewrite joint_links_dom; [..|done].
            -- intros Hin'. by destruct (Hpart k1 o1 s1 N1 ltac:(by right) Hin').
            -- intros Hin'. by destruct (Hpart k o s2 N2 ltac:(by left) Hin').
        + rewrite bool_decide_false; [intros [_ ?]; lia|]. done.
      - destruct (decide (i < length ks - 1)) as [Hpos|Hz].
        + destruct (J_inv i ltac:(lia)) as (k1 & k2 & o1 & o2 & s1 & s2 & H1 & H2 & N1 & N2 & P1 & P2 & ->).
          assert (k1 = k) as -> by congruence. assert (o1 = o) as -> by congruence.
          assert (Hne : k ≠ k2). { intros <-. assert (i = S i) by (by eapply ks_index). lia. }
          destruct (decide (s1 = s)) as [->|Hs].
          * rewrite bool_decide_true; [split; [done|lia]|]. simpl.
            destruct (cl_sec _ _ _ Hl k2 o2 s2 N2 ltac:(by left)) as (X2 & C2 & _).
            destruct (counterpart s s2 p l) as [b Hb]; [congruence|done|done|done|].
            destruct (joint_links_at h s s2 p l b) as [-> _]; try done; [|congruence].
            exact (Hndup k k2 o o2 s s2 Hne N1 N2 ltac:(by right) ltac:(by left)).
          * rewrite bool_decide_false; [intros [? _]; congruence|]. simpl. rewrite joint_links_dom; [..|done].
            -- intros Hin'. by destruct (Hpart k o s1 N1 ltac:(by right) Hin').
            -- intros Hin'. destruct (Hpart k2 o2 s2 N2 ltac:(by left) Hin') as [-> _]. done.
        + rewrite bool_decide_false; [intros [_ ?]; lia|]. done.
    Qed.
    Lemma chain_other l : (∀ k o s, road_named h d k = Some o → touching h o s → l ∉ side_lanes h s) →
      links_for l (concat (map (U h d) (combinations2 (net_keys h d)))) = [].
    Proof.
      intros Hno. apply Permutation_nil. rewrite chain_links_for.
      rewrite concat_none; [|done]. intros j Hj. destruct (J_inv j Hj) as (k1 & k2 & o1 & o2 & s1 & s2 & H1 & H2 & N1 & N2 & P1 & P2 & ->).
      apply joint_links_dom; [eapply Hno; [exact N1|by right]|eapply Hno; [exact N2|by left]].
    Qed.
  End Lanes.

  Lemma chain_frame d h h' ks c : net_frame d h h' → road_chain h d ks → chain_lanes h d c → road_chain h' d ks ∧ chain_lanes h' d c.
  Proof.
    intros Hnf Hc Hl.
    assert (Hn : ∀ k, road_named h' d k = road_named h d k) by (intros k; apply road_named_frame; apply Hnf).
    assert (Hks : net_keys h' d = net_keys h d) by (unfold net_keys; by rewrite (nf_odr _ _ _ Hnf)).
    split.
    - assert (Hfix : ∀ x, fixed_road h' d x ↔ fixed_road h d x).
      { intros x. unfold fixed_road. setoid_rewrite Hn. split; intros (ox & Hox & Hx); exists ox; (split; [done|]);
          destruct (nf_same _ _ _ Hnf (rd_planview ox)) as (_ & _ & Hs); rewrite -!/(view _ ox) in Hs; congruence. }
      destruct Hc as [A B C D E G]. split.
      + by rewrite Hks.
      + intros k. rewrite -B. unfold root. rewrite Hks. by setoid_rewrite Hfix.
      + intros k o. rewrite Hn. apply C.
      + intros i k1 k2 o1 o2. rewrite !Hn. apply D.
      + intros k o. rewrite Hn. apply E.
      + intros k o. rewrite Hn. apply G.
    - destruct Hl as [A B C].
      assert (Hs : ∀ o, sections h' o = sections h o) by (intros o; unfold sections; by rewrite (nf_lanes _ _ _ Hnf)).
      assert (Ht : ∀ o s, touching h' o s ↔ touching h o s) by (intros o s; unfold touching, first_section, last_section; by rewrite Hs).
      assert (Hsl : ∀ s, side_lanes h' s = side_lanes h s) by (intros s; unfold side_lanes; by rewrite (nf_sec _ _ _ Hnf)).
      split.
      + intros k o. rewrite Hn Hs. apply A.
      + intros k o s. rewrite Hn Ht Hsl. intros Ho Hts. destruct (B k o s Ho Hts) as (X & Y & Z & W). split_and!; [|unfold lane_counts; by rewrite (nf_sec _ _ _ Hnf)| |done].
        * unfold exists_in. by rewrite (nf_sec _ _ _ Hnf).
        * unfold numbered, lane_at. rewrite (nf_sec _ _ _ Hnf) (nf_lane _ _ _ Hnf). exact Z.
      + intros k1 k2 o1 o2 s1 s2 l. rewrite !Hn !Ht !Hsl. apply C.
  Qed.

  (** ** C51, lanes: the i-th road's lanes get successor links (last section, if there is a next road) and predecessor links
      (first section, if there is a previous road) to the lane of the same number, once each; no other lane changes *)
  Theorem C51_lanes (d : ref) h ks c : fresh_network h d → evaluable_network h d → road_chain h d ks → chain_lanes h d c → ks ≠ [] →
    ∃ h1 h', adjust_startpoints d h = (Ok tt, h1) ∧ adjust_roads_and_lanes d h = (Ok tt, h') ∧ h' = h1 <| h_lane := h_lane h' |> ∧
      (∀ i k o s p l, ks !! i = Some k → road_named h d k = Some o → touching h o s → p ≠ Centre → lane_at h s p = Some l →
         ∃ us, h_lane h' !!! l = (h_lane h !!! l) <| ln_links := ln_links (h_lane h !!! l) ++ us |> ∧
           us ≡ₚ pred_links (bool_decide (first_section h o = Some s ∧ 0 < i)) p ++
                 succ_links (bool_decide (last_section h o = Some s ∧ S i < length ks)) p) ∧
      (∀ l, (∀ k o s, road_named h d k = Some o → touching h o s → l ∉ side_lanes h s) → h_lane h' !!! l = h_lane h !!! l).
  Proof.
    intros Hf He Hc Hl Hne. destruct (rc_runs h d ks Hf He Hc Hne) as [h1 E].
    assert (Hnf : net_frame d h h1) by (change h1 with (Ok tt, h1).2; rewrite -E; apply nf_adjust_startpoints).
    destruct (chain_frame d h h1 ks c Hnf Hc Hl) as [Hc1 Hl1].
    assert (Hks : net_keys h1 d = net_keys h d) by (unfold net_keys; by rewrite (nf_odr _ _ _ Hnf)).
    assert (Hnd : NoDup (net_keys h1 d)) by (rewrite Hks; apply Hf).
    assert (Hn : ∀ k, road_named h1 d k = road_named h d k) by (intros k; apply road_named_frame; apply Hnf).
    assert (Hs : ∀ o, sections h1 o = sections h o) by (intros o; unfold sections; by rewrite (nf_lanes _ _ _ Hnf)).
    assert (Hla : ∀ s p, lane_at h1 s p = lane_at h s p) by (intros s p; unfold lane_at; by rewrite (nf_sec _ _ _ Hnf)).
    exists h1. eexists. split; [done|]. split.
    { rewrite adjust_roads_and_lanes_split (bind_run _ _ _ _ _ E). by eapply chain_link_all. }
    split; [done|]. cbn [h_lane]. split.
    - intros i k o s p l Hi Ho Ht Hp Ha.
      eexists. split.
      { refine (eq_trans (add_links_at _ _ _) _). rewrite (nf_lane _ _ _ Hnf). reflexivity. }
      pose proof (chain_lane h1 d ks c Hnd Hc1 Hl1 i k o s p l Hi) as HL.
      unfold touching, first_section, last_section in *. rewrite Hs in HL. apply HL; [by rewrite Hn|done|done|by rewrite Hla].
    - intros l Hno. refine (eq_trans (add_links_at _ _ _) _).
      rewrite (chain_other h1 d ks c Hnd Hc1 Hl1 l).
      + intros k o s. rewrite Hn. unfold touching, first_section, last_section, side_lanes. rewrite Hs (nf_sec _ _ _ Hnf). apply Hno.
      + rewrite app_nil_r (nf_lane _ _ _ Hnf). by destruct (h_lane h !!! l).
  Qed.
End AnyNum.

(** ** In exact arithmetic: one continuous curve *)
Section Reals.
  Context (rstr : R -> string).
  Local Instance rn : Num R := RNum rstr.

  Lemma beside_0 (q : R * R * R) : beside 0 q = q.
  Proof. destruct q as [[x y] t]. rewrite (C15_lateral rstr). f_equal; f_equal; ring. Qed.

  Theorem C51_joined (d : ref) (h h' : heap R) ks : fresh_network h d → evaluable_network h d → road_chain h d ks →
    adjust_startpoints d h = (Ok tt, h') →
    ∀ i k1 k2 o1 o2, ks !! i = Some k1 → ks !! S i = Some k2 → road_named h d k1 = Some o1 → road_named h d k2 = Some o2 →
      pv_start (view h' o2) = pv_end (view h' o1) ∧ is_Some (pv_end (view h' o1)).
  Proof.
    intros Hf He Hc E i k1 k2 o1 o2 H1 H2 N1 N2.
    destruct (rc_placed h d ks Hf Hc h' E i k1 k2 o1 o2 H1 H2 N1 N2) as (q & Hq & (_ & Hst & _)).
    rewrite Hst Hq beside_0. split; [done|by eexists].
  Qed.

  (** the records of the roads, road after road *)
  Definition all_records (h h' : heap R) (d : ref) (ks : list string) : list (pgeom R) :=
    concat (map (λ k, match road_named h d k with Some o => pv_geoms (view h' o) | None => [] end) ks).

  (** the geometry of the whole chain is one path without gaps, from where the first road starts to where the last one ends *)
  Theorem C51_one_curve (d : ref) (h h' : heap R) ks k1 o1 kn on : fresh_network h d → evaluable_network h d → road_chain h d ks →
    (∀ k o, road_named h d k = Some o → pv_over (view h o) = [] ∧ ∀ g, g ∈ pv_raw (view h o) → nondegenerate (h_geom h !!! g)) →
    adjust_startpoints d h = (Ok tt, h') →
    head ks = Some k1 → road_named h d k1 = Some o1 → last ks = Some kn → road_named h d kn = Some on →
    ∃ q, pv_end (view h' on) = Some q ∧
      consistent (λ g, h_geom h' !!! g) (pv_x (view h o1), pv_y (view h o1), pv_h (view h o1)) (all_records h h' d ks) q.
  Proof.
    intros Hf He Hc Hnd E Hk1 Ho1 Hkn Hon.
    assert (Hnf : net_frame d h h') by (change h' with (Ok tt, h').2; rewrite -E; apply nf_adjust_startpoints).
    assert (Hone : ∀ k o p, road_named h d k = Some o → put_forward h (view h o) (view h' o) p →
      ∃ q, pv_end (view h' o) = Some q ∧ consistent (λ g, h_geom h' !!! g) p (pv_geoms (view h' o)) q).
    { intros k o p Ho (_ & _ & e & Hch & Hen & _). destruct (Hnd k o Ho) as [Hov Hg]. rewrite Hov in Hch. exists e. split; [done|].
      by destruct (chain_consistent rstr _ (λ g, h_geom h' !!! g) _ _ _ _ _ _ _ Hg (nf_geom _ _ _ Hnf) Hch) as (? & _). }
    (* all prefixes *)
    assert (Hpre : ∀ n k o, ks !! n = Some k → road_named h d k = Some o → ∃ q, pv_end (view h' o) = Some q ∧
      consistent (λ g, h_geom h' !!! g) (pv_x (view h o1), pv_y (view h o1), pv_h (view h o1)) (all_records h h' d (take (S n) ks)) q).
    { induction n as [|n IH]; intros k o Hn Ho.
      - assert (k = k1) as -> by (rewrite head_lookup in Hk1; congruence). assert (o = o1) as -> by congruence.
        destruct (Hone k1 o1 _ Ho1 (rc_first_placed h d ks Hf Hc h' E k1 o1 Hk1 Ho1)) as (q & Hq & Hcon). exists q. split; [done|].
        unfold all_records. rewrite (take_S_r _ _ k1 Hn). simpl. by rewrite Ho1 app_nil_r.
      - destruct (lookup_lt_is_Some_2 ks n) as [k0 Hk0]; [apply lookup_lt_Some in Hn; lia|].
        destruct (rc_at h d ks Hc n k0 Hk0) as [o0 Ho0]. destruct (IH k0 o0 Hk0 Ho0) as (q & Hq & Hcon).
        destruct (rc_placed h d ks Hf Hc h' E n k0 k o0 o Hk0 Hn Ho0 Ho) as (q' & Hq' & Hput).
        assert (q' = q) as -> by congruence. rewrite beside_0 in Hput.
        destruct (Hone k o _ Ho Hput) as (e & Hen & Hcon2). exists e. split; [done|].
        rewrite (take_S_r _ _ k Hn). unfold all_records in *. rewrite map_app concat_app. simpl. rewrite Ho app_nil_r.
        by eapply consistent_app. }
    rewrite last_lookup in Hkn. destruct (Hpre _ _ _ Hkn Hon) as (q & Hq & Hcon). exists q. split; [done|].
    rewrite firstn_all2 in Hcon; [apply lookup_lt_Some in Hkn; lia|]. done.
  Qed.
End Reals.

(** ** Non-vacuity (arithmetic: quarter turns): three roads, made by [create_straight_road], one after the other; the first one is
    given a start point, and they are inserted in the order 1, 3, 2 *)
Definition three_in_line : list (op Z) :=
  [OpCreateStraightRoad (PInt 1) 10 (-1) 1 3; OpCreateStraightRoad (PInt 2) 20 (-1) 1 3; OpCreateStraightRoad (PInt 3) 30 (-1) 1 3;
   OpAddSuccessor 7 (Some et_road) (PInt 2) (Some cp_start) 0; OpAddPredecessor 15 (Some et_road) (PInt 1) (Some cp_end) 0;
   OpAddSuccessor 15 (Some et_road) (PInt 3) (Some cp_start) 0; OpAddPredecessor 23 (Some et_road) (PInt 2) (Some cp_end) 0;
   OpSetStartPoint 1 5 5 1; OpOpenDrive "net"; OpAddRoad 24 7; OpAddRoad 24 23; OpAddRoad 24 15]%Z.

Section Example.
  Let h := run heap_init three_in_line.
  Let ks := ["1"; "2"; "3"].
  Example three_reachable : reachable h.
  Proof. by eexists. Qed.
  Example three_keys : net_keys h 24 = ["1"; "3"; "2"].
  Proof. vm_compute. reflexivity. Qed.
  Example three_fresh : fresh_network h 24.
  Proof.
    split.
    - apply (bool_decide_unpack _). vm_compute. exact I.
    - intros k1 k2 o1 o2 H1 H2. named H1; named H2; done.
    - intros k o H1. named H1; split_and!; vm_compute; reflexivity.
  Qed.
  Example three_evaluable : evaluable_network h 24.
  Proof.
    intros k o H1. split.
    - intros g. named H1;
      match goal with |- g ∈ ?l → _ => let l' := eval vm_compute in l in replace l with l' by (vm_compute; reflexivity) end;
      (intros Hg; apply elem_of_list_singleton in Hg; subst g; by vm_compute).
    - named H1; left; by vm_compute.
  Qed.
  Example three_chain : road_chain h 24 ks.
  Proof.
    assert (Hno : ∀ k, ¬ fixed_road h 24 k) by (intros k (o & Ho & Hf); named Ho; by vm_compute in Hf).
    split.
    - rewrite three_keys. subst ks. clear. solve_Permutation.
    - intros k. split.
      + intros [Hf|[_ Hh]]; [by apply Hno in Hf|]. rewrite three_keys in Hh. exact Hh.
      + intros Hk. right. split; [done|]. rewrite three_keys. exact Hk.
    - intros k o Ho. named Ho; split_and!; reflexivity.
    - intros i k1 k2 o1 o2 E1 E2 Ho1 Ho2. destruct i as [|[|[|i]]]; [| |discriminate E2|discriminate E2].
      + injection E1 as <-. injection E2 as <-. vm_compute in Ho1, Ho2. injection Ho1 as <-. injection Ho2 as <-.
        split; eexists; (split; [reflexivity|]); split_and!; reflexivity.
      + injection E1 as <-. injection E2 as <-. vm_compute in Ho1, Ho2. injection Ho1 as <-. injection Ho2 as <-.
        split; eexists; (split; [reflexivity|]); split_and!; reflexivity.
    - intros k o [= <-] Ho. vm_compute in Ho. injection Ho as <-. reflexivity.
    - intros k o [= <-] Ho. vm_compute in Ho. injection Ho as <-. reflexivity.
  Qed.
  Lemma three_touching k o s : road_named h 24 k = Some o → touching h o s → (k, s) ∈ [("1", 3); ("2", 11); ("3", 19)].
  Proof.
    intros Ho [Ht|Ht]; (named Ho; vm_compute in Ht; injection Ht as <-; apply (bool_decide_unpack _); vm_compute; exact I).
  Qed.
  Lemma three_side : side_lanes h 3 = [5; 4] ∧ side_lanes h 11 = [13; 12] ∧ side_lanes h 19 = [21; 20].
  Proof. split; [vm_compute; reflexivity|]. split; vm_compute; reflexivity. Qed.
  Example three_lanes : chain_lanes h 24 (1, 1).
  Proof.
    destruct three_side as (S1 & S2 & S3). split.
    - intros k o Ho. named Ho; vm_compute; discriminate.
    - intros k o s Ho Ht. pose proof (three_touching k o s Ho Ht) as Hin. rewrite !elem_of_cons elem_of_nil in Hin. clear Ho Ht S1 S2 S3.
      destruct Hin as [E|[E|[E|[]]]]; injection E as -> ->;
        (split; [vm_compute; eexists; reflexivity|]); (split; [vm_compute; reflexivity|]); (split; [|apply (bool_decide_unpack _); vm_compute; exact I]);
        intros [|[|i]|[|i]] l Hl; vm_compute in Hl; try discriminate Hl; injection Hl as <-; vm_compute; reflexivity.
    - intros k1 k2 o1 o2 s1 s2 l Ho1 Ho2 Ht1 Ht2.
      pose proof (three_touching k1 o1 s1 Ho1 Ht1) as H1. pose proof (three_touching k2 o2 s2 Ho2 Ht2) as H2. clear Ho1 Ho2 Ht1 Ht2.
      revert S1 S2 S3. generalize (side_lanes h) as L. intros L S1 S2 S3.
      rewrite !elem_of_cons !elem_of_nil in H1, H2.
      destruct H1 as [H1|[H1|[H1|[]]]], H2 as [H2|[H2|[H2|[]]]]; injection H1 as -> ->; injection H2 as -> ->; rewrite ?S1 ?S2 ?S3 !elem_of_cons !elem_of_nil;
        intros Ha Hb; first [split; reflexivity|exfalso; destruct Ha as [->|[->|[]]]; destruct Hb as [Hb|[Hb|[]]]; discriminate Hb].
  Qed.
  (** ... so the theorems apply; the outcome: *)
  Example C51_example : ∃ h', adjust_roads_and_lanes 24 h = (Ok tt, h') ∧
    map (λ r, (pv_start (view h' (h_road h' !!! r)), pv_end (view h' (h_road h' !!! r)))) [7; 15; 23] =
      [(Some (5, 5, 1), Some (5, 15, 1)); (Some (5, 15, 1), Some (5, 35, 1)); (Some (5, 35, 1), Some (5, 65, 1))]%Z ∧
    map (λ l, map (λ k, (lk_type k, lk_id k)) (ln_links (h_lane h' !!! l))) [5; 4; 13; 12; 21; 20; 2; 10; 18] =
      [[(Some "successor", PStr "1")]; [(Some "successor", PStr "-1")];
       [(Some "predecessor", PStr "1"); (Some "successor", PStr "1")]; [(Some "predecessor", PStr "-1"); (Some "successor", PStr "-1")];
       [(Some "predecessor", PStr "1")]; [(Some "predecessor", PStr "-1")]; []; []; []].
  Proof. eexists. split; [apply run_ok; vm_compute; reflexivity|]. split; vm_compute; reflexivity. Qed.
End Example.

Print Assumptions C51_end_to_end.
Print Assumptions C51_lanes.
Print Assumptions C51_joined.
Print Assumptions C51_one_curve.
