(** What a second adjustment does *)
From Coq Require Import ssreflect.
From Verif.Model Require Import Api.
From Verif.Spec Require Import SpecNetwork SpecAgain.
From Verif.Proof Require Import Monad DictFacts PlanViewFacts NetFrame Network.
Local Open Scope general_if_scope.

Section Again.
  Context {F : Type} `{!Num F}.
  Implicit Types (h : heap F) (o : road).

  Lemma keys_are_named h d k : k ∈ net_keys h d ↔ is_Some (road_named h d k).
  Proof. unfold net_keys, road_named. rewrite dict_get_keys fmap_is_Some. done. Qed.
  Lemma planview_at_named h d k o : road_named h d k = Some o →
    planview_at (od_roads (h_odr h !!! d)) k h = (Ok (rd_planview o), h).
  Proof.
    intros Ho. unfold road_named in Ho.
    destruct (dict_get _ k) as [r|] eqn:E; [|done]. simpl in Ho. unfold planview_at, road_at. rewrite E. simpl.
    unfold bind, ret, get_road, gets. simpl. naive_solver.
  Qed.

  (** nothing is left to place *)
  Lemma sweep_adjusted h d ks :
    (∀ k, k ∈ ks → road_adjusted h d k) → sweep d ks h = (Ok 0, h).
  Proof.
    induction ks as [|k ks IH]; intros Ha; [done|]. cbn [sweep].
    assert (E : sweep_road d k h = (Ok 0, h)).
    { destruct (Ha k ltac:(by left)) as (o & Ho & Hadj). unfold road_named in Ho.
      destruct (dict_get _ k) as [r|] eqn:E; [|done]. simpl in Ho. injection Ho as Ho.
      unfold sweep_road, get_odr, road_at. rewrite bind_gets E. simpl. unfold bind at 1, ret at 1.
      unfold get_road, get_pv. rewrite !bind_gets Ho -/(view h o) Hadj. done. }
    rewrite (bind_run _ _ _ _ _ E). rewrite (bind_run _ _ _ _ _ (IH _)); [|done].
    intros x Hx. apply Ha. by right.
  Qed.
  Lemma place_loop_adjusted h d n total :
    (∀ k, k ∈ net_keys h d → road_adjusted h d k) → total ≤ length (net_keys h d) →
    place_loop (S n) d total h = (if decide (total = length (net_keys h d)) then Ok tt else Err UndefinedRoadNetwork, h).
  Proof.
    intros Ha Ht. cbn [place_loop]. unfold get_odr. rewrite bind_gets.
    assert (El : length (od_roads (h_odr h !!! d)) = length (net_keys h d)) by (unfold net_keys; by rewrite map_length).
    rewrite El. destruct (decide (total < _)) as [Hlt|Hge].
    - rewrite (bind_run _ _ _ _ _ (sweep_adjusted h d _ Ha)). rewrite decide_True; [lia|].
      destruct (decide (total = _)); [lia|done].
    - destruct (decide (total = _)); [done|lia].
  Qed.

  (** the planviews of the roads [ks] have been laid out again, the others are as before *)
  Definition again_view (h h' : heap F) (o : road) : Prop :=
    appended h (view h o) (view h' o) (pv_pose (view h o)).

  Lemma adjust_again h d k o : road_named h d k = Some o → evaluable_network h d →
    ∃ h', adjust_geometries (rd_planview o) false h = (Ok tt, h') ∧ again_view h h' o ∧ geo_frame (rd_planview o) h h'.
  Proof.
    intros Ho He. destruct (He k o Ho) as [Hg Hov].
    destruct (adjust_geometries_run (rd_planview o) false h) as [h' E].
    { apply Forall_forall. intros g Hin. by apply evaluable_placeable, Hg. }
    { by right. }
    exists h'. split; [done|]. split; [|exact (pres_ok _ _ _ _ _ (gf_adjust_geometries _ _) E)].
    destruct (adjust_forward_spec _ _ _ E) as (rs & q & t & Hch & Hgs & Hst & Hen & _ & Ht & _).
    split; [done|]. exists rs, q. split; [|done]. rewrite /pv_total_length in Ht. rewrite -/(view h' o) in Ht. by rewrite Ht.
  Qed.

  Lemma evolves_evaluable (g g' : geom F) : evolves g g' → evaluable g → evaluable g'.
  Proof.
    induction 1 as [|g1 x y hd H IH|g1 x y hd H IH]; intros Hg; [done|..]; destruct (evaluable_step g1 x y hd (IH Hg)) as (_ & ? & _ & ?); done.
  Qed.
  Lemma evaluable_frame h h' d : net_frame d h h' → evaluable_network h d → evaluable_network h' d.
  Proof.
    intros Hf He k o Ho. rewrite (road_named_frame h h' d k (nf_road _ _ _ Hf) (nf_odr _ _ _ Hf)) in Ho.
    destruct (He k o Ho) as [Hg Hov]. destruct (nf_same _ _ _ Hf (rd_planview o)) as (Hraw & Hover & _).
    rewrite -!/(view _ o) in Hraw Hover. rewrite Hraw Hover. split; [|done].
    intros g Hin. eapply evolves_evaluable; [apply Hf|by apply Hg].
  Qed.
  Lemma again_evolves h h1 h' o : (∀ g, evolves (h_geom h !!! g) (h_geom h1 !!! g)) → view h1 o = view h o →
    again_view h1 h' o → again_view h h' o.
  Proof.
    intros Hev Hv (Hs & rs & q & Hc & Hg & Hen). rewrite Hv in Hs, Hc, Hg.
    split; [done|]. exists rs, q. split; [|done]. eapply chain_evolves; [|exact Hc]. done.
  Qed.

  Definition distinct_views h d : Prop :=
    ∀ k1 k2 o1 o2, road_named h d k1 = Some o1 → road_named h d k2 = Some o2 → rd_planview o1 = rd_planview o2 → k1 = k2.

  Lemma fixed_again d ks : ∀ h, NoDup ks → distinct_views h d →
    (∀ k, k ∈ ks → is_Some (road_named h d k)) → evaluable_network h d →
    ∃ h' ext, place_fixed d ks h = (Ok (length ext), h') ∧ net_frame d h h' ∧
      NoDup ext ∧ (∀ k, k ∈ ext ↔ k ∈ ks ∧ fixed_road h d k) ∧
      ∀ k o, road_named h d k = Some o → (k ∈ ext → again_view h h' o) ∧ (k ∉ ext → view h' o = view h o).
  Proof.
    induction ks as [|k ks IH]; intros h Hnd Hdis Hex He; cbn [place_fixed].
    { exists h, []. split; [done|]. split; [reflexivity|]. split; [constructor|]. split.
      - intros k. rewrite elem_of_nil. tauto.
      - intros k o _. rewrite elem_of_nil. tauto. }
    apply NoDup_cons in Hnd as [Hk Hnd]. destruct (Hex k ltac:(by left)) as [o Ho].
    unfold get_odr. rewrite bind_gets (bind_run _ _ _ _ _ (planview_at_named _ _ _ _ Ho)).
    unfold get_pv. rewrite bind_gets -/(view h o).
    destruct (pv_fixed (view h o)) eqn:Hfx.
    - destruct (adjust_again h d k o Ho He) as (h1 & E1 & Hag & Hgf). rewrite (bind_run _ _ _ _ _ E1).
      assert (Hnf : net_frame d h h1).
      { change h1 with (Ok tt, h1).2. rewrite -E1. by eapply nf_adjust. }
      assert (Hn : ∀ x, road_named h1 d x = road_named h d x) by (intros x; apply road_named_frame; apply Hnf).
      assert (Hfix : ∀ x, fixed_road h1 d x ↔ fixed_road h d x).
      { intros x. unfold fixed_road. setoid_rewrite Hn. split; intros (ox & Hox & Hf); exists ox; (split; [done|]);
          destruct (nf_same _ _ _ Hnf (rd_planview ox)) as (_ & _ & Hs); rewrite -!/(view _ ox) in Hs; congruence. }
      assert (Hother : ∀ x ox, road_named h d x = Some ox → x ≠ k → view h1 ox = view h ox).
      { intros x ox Hx Hne. unfold view. eapply gf_pv; [exact Hgf|]. intros Eq. apply Hne. by eapply Hdis. }
      destruct (IH h1 Hnd) as (h2 & ext & E2 & Hnf2 & Hnd2 & Hext & Hv).
      { intros k1 k2 o1 o2. rewrite !Hn. apply Hdis. }
      { intros x Hx. rewrite Hn. apply Hex. by right. }
      { by eapply evaluable_frame. }
      rewrite (bind_run _ _ _ _ _ E2). exists h2, (k :: ext). split; [done|]. split; [by etrans|].
      assert (Hke : k ∉ ext) by (rewrite Hext; naive_solver).
      split; [by constructor|]. split.
      + intros x. rewrite !elem_of_cons Hext Hfix. split; [|naive_solver].
        intros [->|[? ?]]; [|naive_solver]. split; [by left|]. by exists o.
      + intros x ox Hx. rewrite not_elem_of_cons elem_of_cons. destruct (Hv x ox ltac:(by rewrite Hn)) as [Hv1 Hv2].
        split.
        * intros [->|Hxe].
          -- assert (ox = o) as -> by congruence. unfold again_view. rewrite (Hv2 Hke). done.
          -- eapply again_evolves; [apply Hnf|eapply Hother; [done|]|by apply Hv1]. intros ->. done.
        * intros [Hne Hxe]. rewrite (Hv2 Hxe). by eapply Hother.
    - destruct (IH h Hnd Hdis) as (h2 & ext & E2 & Hnf2 & Hnd2 & Hext & Hv); [intros x Hx; apply Hex; by right|done|].
      exists h2, ext. split; [done|]. split; [done|]. split; [done|]. split; [|done].
      intros x. rewrite Hext elem_of_cons. split; [naive_solver|]. intros [[->|?] Hf]; [|done].
      exfalso. destruct Hf as (o' & Ho' & Hf). congruence.
  Qed.

  (** ** The second call *)
  Theorem second_adjustment h d : adjusted_network h d → evaluable_network h d → net_keys h d ≠ [] →
    ∃ r h', adjust_startpoints d h = (r, h') ∧
      ((∀ k, k ∈ net_keys h d → root h d k) → r = Ok tt) ∧
      ((∃ k, k ∈ net_keys h d ∧ ¬ root h d k) → r = Err UndefinedRoadNetwork) ∧
      ∀ k o, road_named h d k = Some o →
        (root h d k → appended h (view h o) (view h' o) (pv_pose (view h o))) ∧ (¬ root h d k → view h' o = view h o).
  Proof.
    intros [Hnd Hdis Hadj] He Hne.
    destruct (fixed_again d (net_keys h d) h Hnd Hdis) as (h1 & ext & E1 & Hnf & Hnde & Hext & Hv); [by intros k Hk; apply keys_are_named|done|].
    assert (Hin : ∀ k, fixed_road h d k → k ∈ ext).
    { intros k Hk. apply Hext. split; [|done]. destruct Hk as (o & Ho & _). apply keys_are_named. by eexists. }
    assert (∃ h2 ext2, first_phase h d h = (Ok (length ext2), h2) ∧ net_frame d h h2 ∧ NoDup ext2 ∧
      (∀ k, k ∈ ext2 ↔ k ∈ net_keys h d ∧ root h d k) ∧
      ∀ k o, road_named h d k = Some o → (k ∈ ext2 → again_view h h2 o) ∧ (k ∉ ext2 → view h2 o = view h o)) as
      (h2 & ext2 & E2 & Hnf2 & Hnd2 & Hext2 & Hv2).
    { unfold first_phase. change (dict_keys (od_roads (h_odr h !!! d))) with (net_keys h d).
      rewrite (bind_run _ _ _ _ _ E1). destruct ext as [|k0 ext].
      - assert (Hno : ∀ k, ¬ fixed_road h d k) by (intros k Hk; by apply Hin, elem_of_nil in Hk).
        destruct (net_keys h d) as [|k ks] eqn:Ek; [done|]. change (length (@nil string)) with 0. cbn iota.
        assert (Hk : k ∈ net_keys h d) by (rewrite Ek; by left).
        destruct (proj1 (keys_are_named h d k) Hk) as [o Ho].
        assert (Hvh : ∀ x ox, road_named h d x = Some ox → view h1 ox = view h ox).
        { intros x ox Hx. apply (Hv x ox Hx). apply not_elem_of_nil. }
        assert (Hn : ∀ x, road_named h1 d x = road_named h d x) by (intros x; apply road_named_frame; apply Hnf).
        rewrite (bind_run (or_raise IndexError (head (k :: ks))) _ h1 k h1 eq_refl).
        rewrite -(nf_odr _ _ _ Hnf) (bind_run _ _ _ _ _ (planview_at_named h1 d k o ltac:(by rewrite Hn))).
        destruct (adjust_again h1 d k o) as (h2 & E2 & Hag & Hgf); [by rewrite Hn|by eapply evaluable_frame|].
        rewrite (bind_run _ _ _ _ _ E2). exists h2, [k]. split; [done|].
        assert (Hnf2 : net_frame d h1 h2).
        { change h2 with (Ok tt, h2).2. rewrite -E2. eapply nf_adjust. by rewrite Hn. }
        split; [by etrans|]. split; [apply NoDup_singleton|]. split.
        + intros x. rewrite elem_of_list_singleton. split.
          * intros ->. split; [by left|]. right. split; [done|]. by rewrite Ek.
          * intros [_ [Hf|[_ Hh]]]; [by apply Hno in Hf|]. rewrite Ek in Hh. simpl in Hh. congruence.
        + intros x ox Hx. rewrite elem_of_list_singleton. split.
          * intros ->. assert (ox = o) as -> by congruence. eapply again_evolves; [apply Hnf| |exact Hag]. by eapply Hvh.
          * intros Hxk. transitivity (view h1 ox); [|by eapply Hvh]. unfold view. eapply gf_pv; [exact Hgf|]. intros Eq. apply Hxk. by eapply Hdis.
      - change (length (k0 :: ext)) with (S (length ext)). cbn iota. exists h1, (k0 :: ext). split; [done|]. split; [done|]. split; [done|]. split; [|done].
        intros x. rewrite Hext. split; [intros [? ?]; split; [done|by left]|]. intros [Hx [Hf|[Hno _]]]; [done|].
        exfalso. apply (Hno k0). apply Hext. by left. }
    assert (Hn : ∀ x, road_named h2 d x = road_named h d x) by (intros x; apply road_named_frame; apply Hnf2).
    assert (Hks : net_keys h2 d = net_keys h d) by (unfold net_keys; by rewrite (nf_odr _ _ _ Hnf2)).
    assert (Hsub : ext2 ⊆+ net_keys h d).
    { apply NoDup_submseteq; [done|]. intros x Hx. by apply Hext2. }
    assert (Had2 : ∀ k, k ∈ net_keys h2 d → road_adjusted h2 d k).
    { rewrite Hks. intros k Hk. destruct (proj1 (keys_are_named h d k) Hk) as [o Ho]. exists o. rewrite Hn. split; [done|].
      apply (nf_adj _ _ _ Hnf2). by eapply Hadj. }
    eexists _, h2. split.
    { rewrite adjust_startpoints_split (bind_run _ _ _ _ _ E2). apply place_loop_adjusted; [done|].
      rewrite Hks. by apply submseteq_length. }
    rewrite Hks. split_and!.
    - intros Hall. destruct (decide _) as [|Hlen]; [done|]. exfalso. apply Hlen. apply Permutation_length.
      apply NoDup_Permutation; [done|done|]. intros x. rewrite Hext2. naive_solver.
    - intros (k & Hk & Hnr). destruct (decide _) as [Hlen|]; [|done]. exfalso. apply Hnr, Hext2.
      rewrite (submseteq_Permutation_length_eq _ _ (eq_sym Hlen) Hsub). done.
    - intros k o Ho. destruct (Hv2 k o Ho) as [Ha Hb]. assert (Hk : k ∈ net_keys h d) by (apply keys_are_named; by eexists).
      split; [intros Hr; apply Ha; by apply Hext2|]. intros Hr. apply Hb. rewrite Hext2. tauto.
  Qed.

  (** ** Linking lanes touches nothing but lanes *)
  Definition lanes_only h h' : Prop := h' = h <| h_lane := h_lane h' |>.
  #[global] Instance lanes_only_preorder : PreOrder lanes_only.
  Proof.
    split.
    - intros h. by destruct h.
    - intros h1 h2 h3 A B. unfold lanes_only in *. rewrite B A. done.
  Qed.
  Lemma lo_lane_add_link l ty id : Pres lanes_only (lane_add_link (F:=F) l ty id).
  Proof.
    unfold lane_add_link. apply pres_bind; [apply _|apply pres_lift, _|intros k].
    intros h. unfold upd_lane, modify. simpl. by destruct h.
  Qed.
  Ltac lo := repeat first
    [ apply lo_lane_add_link | apply pres_ret; apply _ | apply pres_raise; apply _ | apply pres_lift; apply _ | apply pres_gets; apply _
    | apply pres_or_raise; apply _ | apply pres_py_index_opt; apply _ | apply pres_bind; [apply _| |intros ?]
    | apply pres_for_each; [apply _|intros ??]
    | progress unfold road_section, lane_id_times
    | match goal with |- Pres _ (match ?x with _ => _ end) => destruct x end ].
  Lemma lo_connecting r1 r2 : Pres lanes_only (create_links_connecting_road (F:=F) r1 r2).
  Proof. unfold create_links_connecting_road. lo. Qed.
  Lemma lo_roads r1 r2 : Pres lanes_only (create_links_roads (F:=F) r1 r2).
  Proof. unfold create_links_roads. lo. Qed.
  Lemma lo_create_lane_links r1 r2 : Pres lanes_only (create_lane_links (F:=F) r1 r2).
  Proof. unfold create_lane_links. lo; first [apply lo_connecting|apply lo_roads]. Qed.
  (** the second half of [adjust_roads_and_lanes] *)
  Definition link_all (d : ref) : H (F:=F) unit :=
    let! D := get_odr d in
    for_each (λ kk : string * string,
      let! r1 := road_at (od_roads D) kk.1 in
      let! r2 := road_at (od_roads D) kk.2 in
      create_lane_links r1 r2) (combinations2 (dict_keys (od_roads D))).
  Lemma adjust_roads_and_lanes_split d h : adjust_roads_and_lanes d h = (adjust_startpoints d ;; link_all d) h.
  Proof. done. Qed.
  Lemma lo_link_all d : Pres lanes_only (link_all d).
  Proof. unfold link_all, road_at. lo. Qed.
End Again.
