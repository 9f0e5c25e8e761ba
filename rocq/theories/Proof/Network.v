(** What adjust_startpoints computes *)
From Coq Require Import ssreflect.
From Verif.Model Require Import Api.
From Verif.Spec Require Import SpecNetwork.
From Verif.Proof Require Import Monad DictFacts PlanViewFacts NetFrame.
Local Open Scope general_if_scope.

Section Network.
  Context {F : Type} `{!Num F}.
  Notation pose := (F * F * F)%type.
  Local Arguments geom_end : simpl never.
  Local Arguments geom_start : simpl never.

  Lemma chain_geoms (geo : ref → geom F) ov i p s gs rs e t : chain geo ov i p s gs rs e t → map pg_geom rs = gs.
  Proof. induction 1; simpl; [done|]. by f_equal. Qed.
  Lemma back_chain_geoms (geo : ref → geom F) p gs rs ls e : back_chain geo p gs rs ls e → map pg_geom rs = gs.
  Proof. induction 1; simpl; [done|]. by f_equal. Qed.

  Lemma label_last_forget (s : F) ls rs :
    map (λ r, r <| pg_s := None |>) (label_last s ls rs) = map (λ r, r <| pg_s := None |>) rs.
  Proof.
    unfold label_last. destruct ls; [done|]. destruct rs as [|r rs _] using rev_ind; [done|].
    by rewrite set_last_s_snoc !map_app.
  Qed.

  Lemma shift_pred_beside n (q : pose) : shift_pred n q = beside n q.
  Proof. by destruct q as [[x y] hd]. Qed.
  Lemma shift_succ_beside n (q : pose) : shift_succ n q = beside (- n) q.
  Proof. destruct q as [[x y] hd]. unfold shift_succ, beside. simpl. by rewrite Z.opp_involutive. Qed.

  Section Net.
    Context (h0 : heap F) (d : ref) (Hfresh : fresh_network h0 d).
    Notation R := (road_named h0 d).

    Record NInv (h : heap F) (ord : list string) : Prop := {
      ni_frame : net_frame d h0 h;
      ni_nodup : NoDup ord;
      ni_keys : ∀ k, k ∈ ord → is_Some (R k);
      ni_adj : ∀ k o, R k = Some o → pv_adjusted (view h o) = true ↔ k ∈ ord;
      ni_raw : ∀ k o, R k = Some o → k ∉ ord → view h o = view h0 o;
      ni_just : ∀ pre k suf, ord = pre ++ k :: suf →
        root_placed h0 h d k ∨ ∃ k2, k2 ∈ pre ∧ attached h0 h d k k2;
      ni_rootp : ∀ k, k ∈ ord → root h0 d k → root_placed h0 h d k
    }.

    Lemma named_frame h : net_frame d h0 h → ∀ k, road_named h d k = R k.
    Proof. intros Hf k. apply road_named_frame; apply Hf. Qed.

    Lemma attached_mono h h' k k2 :
      (∀ o, R k = Some o → view h' o = view h o) → (∀ o, R k2 = Some o → view h' o = view h o) →
      attached h0 h d k k2 → attached h0 h' d k k2.
    Proof.
      intros H1 H2. destruct 1.
      - eapply att_pred; try done; [by rewrite H2|by rewrite H1].
      - eapply att_succ; try done; [by rewrite H2|by rewrite H1].
      - eapply att_succ_of; try done; [by rewrite H2|by rewrite H1].
      - eapply att_pred_of; try done; [by rewrite H2|by rewrite H1].
    Qed.
    Lemma root_placed_mono h h' k :
      (∀ o, R k = Some o → view h' o = view h o) → root_placed h0 h d k → root_placed h0 h' d k.
    Proof. intros H1 (Hr & o & Ho & Hp). split; [done|]. exists o. split; [done|]. by rewrite H1. Qed.

    Lemma ninv_init : NInv h0 [].
    Proof.
      split; try done.
      - constructor.
      - intros k Hk. by apply elem_of_nil in Hk.
      - intros k o Ho. destruct (fn_fresh _ _ Hfresh k o Ho) as [-> _]. split; [done|]. intros Hk. by apply elem_of_nil in Hk.
      - intros pre k suf Hk. by destruct pre.
      - intros k Hk. by apply elem_of_nil in Hk.
    Qed.

    (** placing one more road *)
    Lemma ninv_place h h' ord k o :
      NInv h ord → R k = Some o → k ∉ ord → geo_frame (rd_planview o) h h' → pv_adjusted (view h' o) = true →
      root_placed h0 h' d k ∨ (¬ root h0 d k ∧ ∃ k2, k2 ∈ ord ∧ attached h0 h' d k k2) →
      NInv h' (ord ++ [k]).
    Proof.
      intros HI Ho Hk Hg Ha Hj.
      assert (Hne : ∀ k2 o2, R k2 = Some o2 → k2 ≠ k → view h' o2 = view h o2).
      { intros k2 o2 Ho2 Hne. unfold view. eapply gf_pv; [exact Hg|]. intros E. apply Hne. by eapply (fn_distinct _ _ Hfresh). }
      assert (Hko : ∀ o2, R k = Some o2 → o2 = o) by (intros o2 E; congruence).
      assert (Hin : ∀ k2, k2 ∈ ord → ∀ o2, R k2 = Some o2 → view h' o2 = view h o2).
      { intros k2 Hk2 o2 Ho2. eapply Hne; [done|]. intros ->. done. }
      split.
      - etrans; [apply HI|]. eapply geo_net_frame; [|exact Hg|done]. by rewrite named_frame; [apply HI|].
      - apply NoDup_app. split; [apply HI|]. split; [|apply NoDup_singleton].
        intros x Hx Hy. apply elem_of_list_singleton in Hy. by subst.
      - intros x [Hx|Hx%elem_of_list_singleton]%elem_of_app; [by apply HI|]. subst x. by eexists.
      - intros x ox Hx. rewrite elem_of_app elem_of_list_singleton. destruct (decide (x = k)) as [->|Hxk].
        + apply Hko in Hx as ->. tauto.
        + rewrite (Hne x) // (ni_adj _ _ HI x) //. tauto.
      - intros x ox Hx Hni. rewrite elem_of_app elem_of_list_singleton in Hni.
        assert (x ≠ k ∧ x ∉ ord) as [Hxk Hxo] by naive_solver.
        rewrite (Hne x ox Hx Hxk). by apply (ni_raw _ _ HI x).
      - intros pre x suf E. destruct suf as [|y suf _] using rev_ind.
        + apply app_inj_tail in E as [<- <-]. destruct Hj as [?|(_&?)]; [by left|by right].
        + rewrite app_comm_cons app_assoc in E. apply app_inj_tail in E as [E <-].
          assert (Hx : x ∈ ord) by (rewrite E elem_of_app elem_of_cons; tauto).
          destruct (ni_just _ _ HI pre x suf E) as [Hr|(k2 & Hk2 & Hr)]; [left|right].
          * eapply root_placed_mono; [|exact Hr]. by apply Hin.
          * exists k2. split; [done|]. eapply attached_mono; [| |exact Hr]; apply Hin; [done|].
            rewrite E elem_of_app. by left.
      - intros x Hx Hr. apply elem_of_app in Hx as [Hx|Hx%elem_of_list_singleton].
        + eapply root_placed_mono; [by apply Hin|]. by apply HI.
        + subst x. destruct Hj as [?|[? ?]]; done.
    Qed.

    (** a placed road has a start and an end *)
    Lemma attached_ends h k k2 : attached h0 h d k k2 → ∃ o, R k = Some o ∧ is_Some (pv_start (view h o)) ∧ is_Some (pv_end (view h o)).
    Proof.
      assert (Hp : ∀ o b q, put_at h0 o (view h o) b q → is_Some (pv_start (view h o)) ∧ is_Some (pv_end (view h o))).
      { intros o [] q; unfold put_at, put_forward, put_backward.
        - intros (_ & -> & e & _ & -> & _). split; by eexists.
        - intros (_ & -> & rs & ls & e & _ & _ & _ & -> & _). split; by eexists. }
      destruct 1; eauto.
    Qed.
    Lemma ninv_ends h ord k o : NInv h ord → k ∈ ord → R k = Some o → is_Some (pv_start (view h o)) ∧ is_Some (pv_end (view h o)).
    Proof.
      intros HI Hk Ho. apply elem_of_list_split in Hk as (pre & suf & E).
      destruct (ni_just _ _ HI pre k suf E) as [(_ & o' & Ho' & (_ & Hs & e & _ & He & _))|(k2 & _ & Ha)].
      - assert (o' = o) as -> by congruence. rewrite Hs He. split; by eexists.
      - apply attached_ends in Ha as (o' & Ho' & ?). by assert (o' = o) as -> by congruence.
    Qed.

    (** laying out one road *)
    Lemma layout_forward h ord k o h1 h' q :
      NInv h ord → R k = Some o → k ∉ ord → geo_frame (rd_planview o) h h1 → pv_pose (view h1 o) = q →
      pv_geoms (view h1 o) = pv_geoms (view h o) → pv_s (view h1 o) = pv_s (view h o) →
      adjust_geometries (rd_planview o) false h1 = (Ok tt, h') →
      put_forward h0 (view h0 o) (view h' o) q.
    Proof.
      intros HI Ho Hk Hg Hq Hgs Hs E. apply adjust_forward_spec in E as (rs & e & t & Hc & Hrs & Hst & Hen & Hpo & Hlen & Had).
      destruct (fn_fresh _ _ Hfresh k o Ho) as (_ & Hg0 & Hs0).
      rewrite -!/(view _ o) in Hc Hrs Hst Hen Hlen Had.
      pose proof (ni_raw _ _ HI k o Ho Hk) as Hv.
      destruct (gf_same _ _ _ Hg) as (Hraw & Hov & _). rewrite -!/(view _ o) in Hraw Hov.
      split; [done|]. split; [by rewrite Hst Hq|]. exists e. split; [|done].
      rewrite Hrs Hgs Hv Hg0 /=.
      rewrite Hq Hs Hraw Hov Hv Hs0 in Hc. rewrite /pv_total_length in Hlen. rewrite Hlen.
      eapply chain_evolves; [|exact Hc]. intros g. simpl. eapply evolves_trans; [apply HI|apply Hg].
    Qed.
    Lemma layout_backward h ord k o h1 h' q :
      NInv h ord → R k = Some o → k ∉ ord → geo_frame (rd_planview o) h h1 → pv_pose (view h1 o) = q →
      pv_geoms (view h1 o) = pv_geoms (view h o) →
      adjust_geometries (rd_planview o) true h1 = (Ok tt, h') →
      put_backward h0 (view h0 o) (view h' o) q.
    Proof.
      intros HI Ho Hk Hg Hq Hgs E. apply adjust_backward_spec in E as (rs & ls & e & Hc & _ & Hrs & Hen & Hst & Hpo & Hlen & Had).
      destruct (fn_fresh _ _ Hfresh k o Ho) as (_ & Hg0 & Hs0).
      rewrite -!/(view _ o) in Hc Hrs Hst Hen Hlen Had.
      pose proof (ni_raw _ _ HI k o Ho Hk) as Hv.
      destruct (gf_same _ _ _ Hg) as (Hraw & Hov & _). rewrite -!/(view _ o) in Hraw Hov.
      split; [done|]. split; [by rewrite Hen Hq|]. exists rs, ls, e. split; [|split].
      - rewrite Hq Hraw Hv in Hc. eapply back_chain_evolves; [|exact Hc]. intros g. simpl. eapply evolves_trans; [apply HI|apply Hg].
      - rewrite Hrs label_last_forget Hgs Hv Hg0. done.
      - done.
    Qed.

    (** adjust_road_wrt_neighbour *)
    Lemma awn_ok h ord k k2 cp b h' :
      NInv h ord → adjust_road_wrt_neighbour d k k2 cp b h = (Ok tt, h') → k ∉ ord → k2 ∈ ord →
      ∃ o o2 c q, R k = Some o ∧ R k2 = Some o2 ∧ cp = Some c ∧ offered (view h' o2) c = Some q ∧
        put_at h0 o (view h' o) b q ∧ geo_frame (rd_planview o) h h' ∧ pv_adjusted (view h' o) = true.
    Proof.
      intros HI E Hk Hk2. unfold adjust_road_wrt_neighbour in E. mstep E.
      apply bind_ok in E as (mr & h1 & E1 & E). apply or_raise_ok in E1 as [Hmr ->]. mstep E.
      assert (Hko : R k = Some (h_road h !!! mr)).
      { rewrite -(named_frame h); [apply HI|]. unfold road_named. by rewrite Hmr. }
      destruct cp as [c|]; [|by apply bind_ok in E as (?&?&E1&_); mleaf E1].
      apply bind_ok in E as (npv & h1 & E1 & E). apply planview_at_ok in E1 as (-> & o2 & Ho2 & ->).
      rewrite (named_frame h) in Ho2; [apply HI|].
      apply bind_ok in E as (q & h1 & E1 & E).
      set (o := h_road h !!! mr) in *.
      assert (h1 = h ∧ offered (view h o2) c = Some q) as [-> Hq].
      { unfold neighbour_pose, pv_get_start_point, pv_get_end_point in E1. mstep E1. unfold offered, view, turn. destruct c.
        - apply bind_ok in E1 as ([[x y] hd] & h2 & E2 & E1). apply or_raise_ok in E2 as [-> ->]. mleaf E1. done.
        - mleaf E1. done. }
      clear E1.
      assert (Hdis : rd_planview o2 ≠ rd_planview o).
      { intros Heq. apply Hk. by rewrite -((fn_distinct _ _ Hfresh) k2 k o2 o Ho2 Hko Heq). }
      exists o, o2, c, q. split_and!; try done.
      - (* the neighbour is not touched *)
        destruct (if b then _ else _) as [[x y] hd]. apply bind_ok in E as ([] & h1 & E1 & E).
        rewrite -Hq. f_equal. unfold view.
        assert (G1 := pres_ok _ _ _ _ _ (gf_set_start _ _ _ _) E1). assert (G2 := pres_ok _ _ _ _ _ (gf_adjust_geometries _ _) E).
        rewrite (gf_pv _ _ _ G2) // (gf_pv _ _ _ G1) //.
      - destruct b; simpl in *.
        + rewrite shift_pred_beside in E. destruct (beside _ q) as [[x y] hd] eqn:Es. apply bind_ok in E as ([] & h1 & E1 & E).
          assert (G1 := pres_ok _ _ _ _ _ (gf_set_start _ _ _ _) E1).
          unfold pv_set_start_point in E1. mleaf E1.
          eapply layout_forward; [exact HI|exact Hko|exact Hk|exact G1| | | |exact E];
            unfold view; simpl; rewrite ltm_insert //.
        + rewrite shift_succ_beside in E. destruct (beside _ q) as [[x y] hd] eqn:Es. apply bind_ok in E as ([] & h1 & E1 & E).
          assert (G1 := pres_ok _ _ _ _ _ (gf_set_start _ _ _ _) E1).
          unfold pv_set_start_point in E1. mleaf E1.
          eapply layout_backward; [exact HI|exact Hko|exact Hk|exact G1| | |exact E];
            unfold view; simpl; rewrite ltm_insert //.
      - destruct (if b then _ else _) as [[x y] hd]. apply bind_ok in E as ([] & h1 & E1 & E).
        etrans; [exact (pres_ok _ _ _ _ _ (gf_set_start _ _ _ _) E1)|exact (pres_ok _ _ _ _ _ (gf_adjust_geometries _ _) E)].
      - destruct (if b then _ else _) as [[x y] hd]. apply bind_ok in E as ([] & h1 & E1 & E).
        destruct b; simpl in E.
        + by apply adjust_forward_spec in E as (?&?&?&?&?&?&?&?&?&?).
        + by apply adjust_backward_spec in E as (?&?&?&?&?&?&?&?&?&?&?).
    Qed.

    (** all roots are placed; a connecting road that is not a root is placed together with the roads it names *)
    Record RInv (h : heap F) (ord : list string) : Prop := {
      ri_inv : NInv h ord;
      ri_roots : ∀ k, root h0 d k → is_Some (R k) → k ∈ ord;
      ri_conn : connects_ordinary h0 d → ∀ c oc L, c ∈ ord → ¬ root h0 d c → R c = Some oc → rd_type oc ≠ (-1)%Z →
        rd_pred oc = Some L ∨ rd_succ oc = Some L → pystr (lk_id L) ∈ ord;
      ri_pred : ∀ k o L, k ∈ ord → ¬ root h0 d k → R k = Some o → rd_pred o = Some L →
        is_Some (R (pystr (lk_id L))) ∨ named_by_connecting h0 d k
    }.

    Lemma lta_ok h ord L b h' :
      NInv h ord → link_target_adjusted (od_roads (h_odr h !!! d)) L h = (Ok b, h') →
      h' = h ∧ ∃ o, R (pystr (lk_id L)) = Some o ∧ (b = true ↔ pystr (lk_id L) ∈ ord).
    Proof.
      intros HI E. unfold link_target_adjusted in E. apply bind_ok in E as (pv & h1 & E1 & E).
      apply planview_at_ok in E1 as (-> & o & Ho & ->). rewrite (named_frame h) in Ho; [apply HI|].
      mstep E. mleaf E. split; [done|]. exists o. split; [done|]. by rewrite -(ni_adj _ _ HI _ o).
    Qed.

    Lemma link_ready_ok h ord o b h' :
      NInv h ord → link_ready (od_roads (h_odr h !!! d)) o h = (Ok b, h') →
      h' = h ∧ (b = true ↔ ∃ L, o = Some L ∧ lk_etype L ≠ Some et_junction ∧ pystr (lk_id L) ∈ ord) ∧
      ∀ L, o = Some L → is_Some (R (pystr (lk_id L))).
    Proof.
      intros HI E. unfold link_ready in E. destruct o as [L|].
      - apply bind_ok in E as (a & h1 & E1 & E). apply (lta_ok h ord) in E1 as (-> & o & Ho & Ha); [|done]. mleaf E.
        split; [done|]. split; [|intros L' [= <-]; by eexists]. destruct a; simpl.
        + destruct (bool_decide_reflect (lk_etype L = Some et_junction)) as [He|He]; simpl.
          * split; [done|]. intros (L' & [= <-] & ? & ?). done.
          * split; [|done]. intros _. exists L. split; [done|]. split; [done|]. by apply Ha.
        + split; [done|]. intros (L' & [= <-] & ? & ?). by apply Ha.
      - mleaf E. split; [done|]. split; [|done]. split; [done|]. intros (? & ? & _). done.
    Qed.

    Local Arguments adjust_road_wrt_neighbour : simpl never.

    (** the two ways to place the other end of a connecting road *)
    Lemma place_other_succ_ok h ord k ok o n h' :
      NInv h ord → k ∈ ord → R k = Some ok → rd_succ ok = o →
      (∀ x, root h0 d x → is_Some (R x) → x ∈ ord) →
      place_other_succ d k (rd_type ok) o h = (Ok n, h') →
      ∃ ext, NInv h' (ord ++ ext) ∧ n = length ext ∧
        (∀ x, x ∈ ext → rd_type ok ≠ (-1)%Z ∧ ∃ L, o = Some L ∧ pystr (lk_id L) = x) ∧
        (rd_type ok ≠ (-1)%Z → ∀ L, o = Some L → pystr (lk_id L) ∈ ord ++ ext).
    Proof.
      intros HI Hk Hko Ho Hroots E. unfold place_other_succ in E. destruct o as [L|].
      2:{ mleaf E. exists []. rewrite app_nil_r. split; [done|]. split; [done|].
          split; [intros x Hx; by apply elem_of_nil in Hx|done]. }
      destruct (bool_decide_reflect (rd_type ok = (-1)%Z)) as [Ht|Ht].
      { mleaf E. exists []. rewrite app_nil_r. split; [done|]. split; [done|].
        split; [intros x Hx; by apply elem_of_nil in Hx|done]. }
      mstep E. apply bind_ok in E as (a & h1 & E1 & E). apply (lta_ok h ord) in E1 as (-> & os & Hos & Ha); [|done].
      destruct a.
      { mleaf E. exists []. rewrite app_nil_r. split; [done|]. split; [done|].
        split; [intros x Hx; by apply elem_of_nil in Hx|]. intros _ L' [= <-]. by apply Ha. }
      assert (Hn : pystr (lk_id L) ∉ ord) by (intros Hx; by apply Ha in Hx).
      apply bind_ok in E as ([] & h1 & E1 & E). mleaf E.
      destruct (awn_ok _ _ _ _ _ _ _ HI E1 Hn Hk) as (o & o2 & c & q & H1 & H2 & [= <-] & Hq & Hput & Hg & Had).
      exists [pystr (lk_id L)]. split; [|split; [done|split]].
      - eapply ninv_place; [exact HI|exact H1|exact Hn|exact Hg|exact Had|]. right. split.
        { intros Hr. apply Hn, Hroots; [done|by eexists]. }
        exists k. split; [done|]. assert (o2 = ok) as -> by congruence. by eapply att_succ_of.
      - intros x ->%elem_of_list_singleton. split; [done|]. by eexists.
      - intros _ L' [= <-]. rewrite elem_of_app elem_of_list_singleton. by right.
    Qed.
    Lemma place_other_pred_ok h ord k ok o n h' :
      NInv h ord → k ∈ ord → R k = Some ok → rd_pred ok = o →
      (∀ x, root h0 d x → is_Some (R x) → x ∈ ord) →
      place_other_pred d k (rd_type ok) o h = (Ok n, h') →
      ∃ ext, NInv h' (ord ++ ext) ∧ n = length ext ∧
        (∀ x, x ∈ ext → rd_type ok ≠ (-1)%Z ∧ ∃ L, o = Some L ∧ pystr (lk_id L) = x) ∧
        (rd_type ok ≠ (-1)%Z → ∀ L, o = Some L → pystr (lk_id L) ∈ ord ++ ext).
    Proof.
      intros HI Hk Hko Ho Hroots E. unfold place_other_pred in E. destruct o as [L|].
      2:{ mleaf E. exists []. rewrite app_nil_r. split; [done|]. split; [done|].
          split; [intros x Hx; by apply elem_of_nil in Hx|done]. }
      destruct (bool_decide_reflect (rd_type ok = (-1)%Z)) as [Ht|Ht].
      { mleaf E. exists []. rewrite app_nil_r. split; [done|]. split; [done|].
        split; [intros x Hx; by apply elem_of_nil in Hx|done]. }
      mstep E. apply bind_ok in E as (a & h1 & E1 & E). apply (lta_ok h ord) in E1 as (-> & os & Hos & Ha); [|done].
      destruct a.
      { mleaf E. exists []. rewrite app_nil_r. split; [done|]. split; [done|].
        split; [intros x Hx; by apply elem_of_nil in Hx|]. intros _ L' [= <-]. by apply Ha. }
      assert (Hn : pystr (lk_id L) ∉ ord) by (intros Hx; by apply Ha in Hx).
      apply bind_ok in E as ([] & h1 & E1 & E). mleaf E.
      destruct (awn_ok _ _ _ _ _ _ _ HI E1 Hn Hk) as (o & o2 & c & q & H1 & H2 & [= <-] & Hq & Hput & Hg & Had).
      exists [pystr (lk_id L)]. split; [|split; [done|split]].
      - eapply ninv_place; [exact HI|exact H1|exact Hn|exact Hg|exact Had|]. right. split.
        { intros Hr. apply Hn, Hroots; [done|by eexists]. }
        exists k. split; [done|]. assert (o2 = ok) as -> by congruence. by eapply att_pred_of.
      - intros x ->%elem_of_list_singleton. split; [done|]. by eexists.
      - intros _ L' [= <-]. rewrite elem_of_app elem_of_list_singleton. by right.
    Qed.

    (** the road [k] is stuck: it has no road link to a placed road *)
    Definition stuck (ord : list string) (k : string) : Prop :=
      k ∈ ord ∨ ∀ k2, road_link h0 d k k2 → k2 ∉ ord.

    (** what the turn of road [k] adds: [k] itself, and, if it is a connecting road, the road at its other end *)
    Lemma sweep_road_adds h ord k n h' :
      RInv h ord → sweep_road d k h = (Ok n, h') →
      ∃ ext, RInv h' (ord ++ ext) ∧ n = length ext ∧ (n = 0 → h' = h ∧ stuck ord k) ∧ (k ∈ ord → ext = []) ∧
        ∀ x, x ∈ ext → x = k ∨ ∃ o L, R k = Some o ∧ rd_type o ≠ (-1)%Z ∧ (rd_pred o = Some L ∨ rd_succ o = Some L) ∧ pystr (lk_id L) = x.
    Proof.
      intros HR E. pose proof (ri_inv _ _ HR) as HI. unfold sweep_road in E. mstep E.
      apply bind_ok in E as (r & h1 & E1 & E). apply or_raise_ok in E1 as [Hr ->]. mstep E. mstep E.
      assert (Hko : R k = Some (h_road h !!! r)).
      { rewrite -(named_frame h); [apply HI|]. unfold road_named. by rewrite Hr. }
      set (o := h_road h !!! r) in *.
      destruct (pv_adjusted (h_pv h !!! rd_planview o)) eqn:Ha.
      { mleaf E. exists []. rewrite app_nil_r. split; [done|]. split; [done|]. split; [|split; [done|by intros x Hx%elem_of_nil]]. intros _. split; [done|]. left.
        by apply (ni_adj _ _ HI k o Hko). }
      assert (Hn : k ∉ ord). { intros Hk. apply (ni_adj _ _ HI k o Hko) in Hk. unfold view in Hk. congruence. }
      assert (Hroot : ¬ root h0 d k) by (intros Hx; apply Hn, (ri_roots _ _ HR); [done|by eexists]).
      apply bind_ok in E as (bp & h1 & E1 & E). apply (link_ready_ok h ord) in E1 as (-> & Hbp & Hlook); [|done].
      (* after a placement of [k] through [L] and of the other end, the invariant holds *)
      assert (Hfin : ∀ h2 ext Lown other,
        rd_pred o = Some Lown ∧ rd_succ o = other ∨ rd_succ o = Some Lown ∧ rd_pred o = other → pystr (lk_id Lown) ∈ ord →
        NInv h2 ((ord ++ [k]) ++ ext) →
        (∀ x, x ∈ ext → rd_type o ≠ (-1)%Z ∧ ∃ L, other = Some L ∧ pystr (lk_id L) = x) →
        (rd_type o ≠ (-1)%Z → ∀ L, other = Some L → pystr (lk_id L) ∈ (ord ++ [k]) ++ ext) →
        RInv h2 (ord ++ k :: ext)).
      { intros h2 ext Lown other Hlinks Hown HI2 Hext Hoth. rewrite -app_assoc /= in HI2 Hoth. split; [done|..].
        - intros x Hx Hs. apply elem_of_app. left. by apply (ri_roots _ _ HR).
        - intros Hc c oc L Hcin Hcr Hco Hct HL. apply elem_of_app in Hcin as [Hcin|[->|Hcin]%elem_of_cons].
          + apply elem_of_app. left. by eapply (ri_conn _ _ HR).
          + assert (oc = o) as -> by congruence. destruct Hlinks as [[HA HB]|[HA HB]]; destruct HL as [HL|HL].
            * assert (L = Lown) as -> by congruence. apply elem_of_app. by left.
            * apply Hoth; [done|congruence].
            * apply Hoth; [done|congruence].
            * assert (L = Lown) as -> by congruence. apply elem_of_app. by left.
          + (* a road named by a connecting road is not a connecting road *)
            exfalso. apply Hext in Hcin as (Hto & L' & HL' & <-). apply Hct.
            eapply (Hc k o L'); [done|done| |exact Hco]. destruct Hlinks as [[? ?]|[? ?]]; [right|left]; congruence.
        - intros x ox L Hx Hxr Hox HL. apply elem_of_app in Hx as [Hx|[->|Hx]%elem_of_cons].
          + by eapply (ri_pred _ _ HR).
          + left. apply Hlook. congruence.
          + right. apply Hext in Hx as (Hto & L' & HL' & <-). exists k, o, L'. split; [done|]. split; [done|]. split; [|done].
            destruct Hlinks as [[? ?]|[? ?]]; [right|left]; congruence. }
      destruct bp.
      - destruct Hbp as [Hbp _]. destruct (Hbp eq_refl) as (L & HL & Het & Hin). rewrite HL in E.
        apply bind_ok in E as ([] & h1 & E1 & E).
        destruct (awn_ok _ _ _ _ _ _ _ HI E1 Hn Hin) as (o' & o2 & c & q & H1 & H2 & Hc & Hq & Hput & Hg & Had).
        assert (o' = o) as -> by congruence.
        assert (HI1 : NInv h1 (ord ++ [k])).
        { eapply ninv_place; [exact HI|exact H1|exact Hn|exact Hg|exact Had|]. right. split; [done|].
          exists (pystr (lk_id L)). split; [done|]. by eapply att_pred. }
        apply bind_ok in E as (m & h2 & E2 & E). mleaf E.
        eapply (place_other_succ_ok _ (ord ++ [k])) in E2 as (ext & HI2 & -> & Hx1 & Hx2); try done.
        2:{ apply elem_of_app. right. by apply elem_of_list_singleton. }
        2:{ intros x Hx Hs. apply elem_of_app. left. by apply (ri_roots _ _ HR). }
        exists (k :: ext). split; [|split; [done|split; [lia|split; [done|]]]].
        { apply (Hfin h2 ext L (rd_succ (h_road h !!! r))); try done. by left. }
        intros x [->|Hx]%elem_of_cons; [by left|]. right. apply Hx1 in Hx as (Hto & L' & HL' & <-). exists (h_road h !!! r), L'. split; [done|]. split; [done|]. split; [by right|done].
      - apply bind_ok in E as (bs & h1 & E1 & E). apply (link_ready_ok h ord) in E1 as (-> & Hbs & _); [|done]. destruct bs.
        + destruct Hbs as [Hbs _]. destruct (Hbs eq_refl) as (L & HL & Het & Hin). rewrite HL in E.
          apply bind_ok in E as ([] & h1 & E1 & E).
          destruct (awn_ok _ _ _ _ _ _ _ HI E1 Hn Hin) as (o' & o2 & c & q & H1 & H2 & Hc & Hq & Hput & Hg & Had).
          assert (o' = o) as -> by congruence.
          assert (HI1 : NInv h1 (ord ++ [k])).
          { eapply ninv_place; [exact HI|exact H1|exact Hn|exact Hg|exact Had|]. right. split; [done|].
            exists (pystr (lk_id L)). split; [done|]. by eapply att_succ. }
          apply bind_ok in E as (m & h2 & E2 & E). mleaf E.
          eapply (place_other_pred_ok _ (ord ++ [k])) in E2 as (ext & HI2 & -> & Hx1 & Hx2); try done.
          2:{ apply elem_of_app. right. by apply elem_of_list_singleton. }
          2:{ intros x Hx Hs. apply elem_of_app. left. by apply (ri_roots _ _ HR). }
          exists (k :: ext). split; [|split; [done|split; [lia|split; [done|]]]].
          { apply (Hfin h2 ext L (rd_pred (h_road h !!! r))); try done. by right. }
          intros x [->|Hx]%elem_of_cons; [by left|]. right. apply Hx1 in Hx as (Hto & L' & HL' & <-). exists (h_road h !!! r), L'. split; [done|]. split; [done|]. split; [by left|done].
        + mleaf E. exists []. rewrite app_nil_r. split; [done|]. split; [done|]. split; [|split; [done|by intros x Hx%elem_of_nil]]. intros _. split; [done|]. right.
          intros k2 (o' & L & Ho' & HL & Het & <-) Hin. assert (o' = o) as -> by congruence.
          destruct HL as [HL|HL]; [destruct Hbp as [_ Hb]|destruct Hbs as [_ Hb]]; (discriminate Hb; by exists L).
    Qed.

    Lemma sweep_road_ok h ord k n h' :
      RInv h ord → sweep_road d k h = (Ok n, h') →
      ∃ ext, RInv h' (ord ++ ext) ∧ n = length ext ∧ (n = 0 → h' = h ∧ stuck ord k).
    Proof. intros HR E. destruct (sweep_road_adds h ord k n h' HR E) as (ext & A & B & C & _). by exists ext. Qed.

    Lemma sweep_ok ks : ∀ h ord n h',
      RInv h ord → sweep d ks h = (Ok n, h') →
      ∃ ext, RInv h' (ord ++ ext) ∧ n = length ext ∧ (n = 0 → h' = h ∧ ∀ k, k ∈ ks → stuck ord k).
    Proof.
      induction ks as [|k ks IH]; intros h ord n h' HR E; cbn [sweep] in E.
      - mleaf E. exists []. rewrite app_nil_r. split; [done|]. split; [done|]. intros _. split; [done|].
        intros k Hk. by apply elem_of_nil in Hk.
      - apply bind_ok in E as (n1 & h1 & E1 & E). apply (sweep_road_ok h ord) in E1 as (e1 & HR1 & -> & H1); [|done].
        apply bind_ok in E as (n2 & h2 & E2 & E). apply (IH h1 (ord ++ e1)) in E2 as (e2 & HR2 & -> & H2); [|done].
        mleaf E. exists (e1 ++ e2). rewrite app_assoc. split; [done|]. split; [by rewrite app_length|].
        intros H0. destruct e1, e2; simpl in H0; try lia. destruct H1 as [-> Hs]; [done|]. destruct H2 as [-> Hs2]; [done|].
        split; [done|]. intros x [->|Hx]%elem_of_cons; [done|]. apply Hs2 in Hx. by rewrite app_nil_r in Hx.
    Qed.

    Lemma keys_named k : k ∈ net_keys h0 d ↔ is_Some (R k).
    Proof. unfold net_keys, road_named. rewrite dict_get_keys fmap_is_Some. done. Qed.

    (** how the loop ends: all roads placed, or nothing can be placed any more *)
    Lemma place_loop_ok fuel : ∀ h ord r h',
      RInv h ord → place_loop fuel d (length ord) h = (r, h') →
      match r with
      | Ok _ => ∃ ext, RInv h' (ord ++ ext) ∧ length (net_keys h0 d) ≤ length (ord ++ ext)
      | Err UndefinedRoadNetwork => ∃ ext, RInv h' (ord ++ ext) ∧ length (ord ++ ext) < length (net_keys h0 d) ∧
          ∀ k, k ∈ net_keys h0 d → stuck (ord ++ ext) k
      | Err _ => True
      end.
    Proof.
      induction fuel as [|fuel IH]; intros h ord r h' HR E; cbn [place_loop] in E.
      - unfold get_odr in E. rewrite bind_gets in E.
        rewrite (nf_odr _ _ _ (ni_frame _ _ (ri_inv _ _ HR))) in E.
        destruct (decide _) as [Hlt|Hge]; mleaf E; [done|]. exists []. rewrite app_nil_r. split; [done|].
        unfold net_keys. rewrite map_length. lia.
      - unfold get_odr in E. rewrite bind_gets in E.
        rewrite (nf_odr _ _ _ (ni_frame _ _ (ri_inv _ _ HR))) in E.
        destruct (decide _) as [Hlt|Hge].
        2:{ mleaf E. exists []. rewrite app_nil_r. split; [done|].
            unfold net_keys. rewrite map_length. lia. }
        destruct r as [[]|e].
        + apply bind_ok in E as (n & h1 & E1 & E). apply (sweep_ok _ h ord) in E1 as (e1 & HR1 & -> & H1); [|done].
          destruct (decide _) as [Hd|Hd]; [by mleaf E|].
          rewrite -app_length in E. apply IH in E as (e2 & HR2 & Hl); [|done].
          exists (e1 ++ e2). by rewrite app_assoc.
        + destruct e; try done. apply bind_err in E as [E|(n & h1 & E1 & E)].
          { exfalso. apply raises_sweep in E. unfold place_exn in E. naive_solver. }
          apply (sweep_ok _ h ord) in E1 as (e1 & HR1 & -> & H1); [|done].
          destruct (decide _) as [Hd|Hd].
          * mleaf E. destruct Hd as [_ H0]. destruct H1 as [-> Hs]; [done|]. destruct e1; [|done].
            exists []. rewrite !app_nil_r in HR1 *. split; [done|]. unfold net_keys. rewrite map_length. split; [done|].
            exact Hs.
          * rewrite -app_length in E. apply IH in E as (e2 & HR2 & Hl); [|done].
            exists (e1 ++ e2). by rewrite app_assoc.
    Qed.

    (** the fixed roads *)
    Lemma place_root h ord k o h' :
      NInv h ord → R k = Some o → k ∉ ord → root h0 d k →
      adjust_geometries (rd_planview o) false h = (Ok tt, h') → NInv h' (ord ++ [k]).
    Proof.
      intros HI Ho Hk Hr E. pose proof (ni_raw _ _ HI k o Ho Hk) as Hv.
      eapply ninv_place; [exact HI|exact Ho|done| | |].
      - exact (pres_ok _ _ _ _ _ (gf_adjust_geometries _ _) E).
      - by apply adjust_forward_spec in E as (?&?&?&?&?&?&?&?&?&?).
      - left. split; [done|]. exists o. split; [done|]. rewrite -Hv.
        rewrite [X in put_forward _ X]Hv.
        eapply layout_forward; [exact HI|exact Ho|exact Hk| |done|done|done|exact E]. reflexivity.
    Qed.

    Lemma place_fixed_ok ks : ∀ h ord n h',
      NInv h ord → NoDup ks → (∀ k, k ∈ ks → k ∉ ord) → place_fixed d ks h = (Ok n, h') →
      ∃ ext, NInv h' (ord ++ ext) ∧ n = length ext ∧ (∀ k, k ∈ ext ↔ k ∈ ks ∧ fixed_road h0 d k).
    Proof.
      induction ks as [|k ks IH]; intros h ord n h' HI Hnd Hni E; cbn [place_fixed] in E.
      - mleaf E. exists []. rewrite app_nil_r. split; [done|]. split; [done|]. intros k. split; [intros Hk|intros [Hk _]]; by apply elem_of_nil in Hk.
      - mstep E. apply bind_ok in E as (pv & h1 & E1 & E). apply planview_at_ok in E1 as (-> & o & Ho & ->).
        rewrite (named_frame h) in Ho; [apply HI|]. mstep E.
        assert (Hk : k ∉ ord) by (apply Hni; by left).
        apply NoDup_cons in Hnd as [Hkk Hnd].
        pose proof (ni_raw _ _ HI k o Ho Hk) as Hv. rewrite -!/(view _ o) in E. rewrite {1}Hv in E.
        destruct (pv_fixed (view h0 o)) eqn:Hfx.
        + apply bind_ok in E as ([] & h1 & E1 & E). apply bind_ok in E as (m & h2 & E2 & E). mleaf E.
          assert (Hfk : fixed_road h0 d k) by (by exists o).
          assert (HI1 : NInv h1 (ord ++ [k])) by (eapply place_root; try done; by left).
          apply (IH h1 (ord ++ [k])) in E2 as (ext & HI2 & -> & Hx); [|done|done|].
          * exists (k :: ext). rewrite -app_assoc in HI2. split; [done|]. split; [done|].
            intros x. rewrite !elem_of_cons Hx. naive_solver.
          * intros x Hx [Hxo|Hxk%elem_of_list_singleton]%elem_of_app; [by eapply Hni; [right; exact Hx|]|by subst].
        + apply (IH h ord) in E as (ext & HI2 & -> & Hx); [|done|done|].
          * exists ext. split; [done|]. split; [done|]. intros x. rewrite Hx elem_of_cons.
            split; [naive_solver|]. intros [[->|?] Hfk]; [|done]. destruct Hfk as (o' & Ho' & Hf'). congruence.
          * intros x Hx. apply Hni. by right.
    Qed.

    Definition first_phase : H (F:=F) nat :=
      let! n := place_fixed d (dict_keys (od_roads (h_odr h0 !!! d))) in
      match n with
       | O =>
         let! k := or_raise IndexError (head (dict_keys (od_roads (h_odr h0 !!! d)))) in
         let! pv := planview_at (od_roads (h_odr h0 !!! d)) k in
         adjust_geometries pv false ;;
         ret 1
       | S _ => ret n
       end.
    Lemma adjust_startpoints_split :
      adjust_startpoints d h0 =
      (let! total := first_phase in place_loop (S (length (od_roads (h_odr h0 !!! d)))) d total) h0.
    Proof.
      unfold adjust_startpoints, first_phase, get_odr. rewrite bind_gets.
      unfold bind. destruct (place_fixed _ _ h0) as [[n|e] h1]; done.
    Qed.

    Lemma first_phase_ok n h' : first_phase h0 = (Ok n, h') → ∃ ord, RInv h' ord ∧ n = length ord.
    Proof.
      intros E. unfold first_phase in E. apply bind_ok in E as (m & h1 & E1 & E).
      apply (place_fixed_ok _ h0 []) in E1 as (ord & HI & -> & Hx);
        [|apply ninv_init|apply Hfresh|intros k _ Hk; by apply elem_of_nil in Hk].
      simpl in HI. destruct ord as [|k0 ord].
      - simpl in E. assert (Hno : ∀ k, ¬ fixed_road h0 d k).
        { intros k Hf. apply (not_elem_of_nil k). apply Hx. split; [|done]. destruct Hf as (o & Ho & _). apply keys_named. by eexists. }
        apply bind_ok in E as (k & h2 & E1 & E). apply or_raise_ok in E1 as [Hk ->].
        apply bind_ok in E as (pv & h2 & E1 & E).
        rewrite -(nf_odr _ _ _ (ni_frame _ _ HI)) in E1. apply planview_at_ok in E1 as (-> & o & Ho & ->).
        rewrite (named_frame h1) in Ho; [apply HI|].
        apply bind_ok in E as ([] & h2 & E2 & E). mleaf E.
        assert (HI1 : NInv h2 ([] ++ [k])).
        { eapply place_root; [exact HI|exact Ho|by apply not_elem_of_nil| |exact E2]. right. by split. }
        exists [k]. split; [|done]. split; [done|..].
        + intros x [Hf|[_ Hx1]] _; [by apply Hno in Hf|]. apply elem_of_list_singleton. unfold net_keys, dict_keys in *. congruence.
        + intros _ c oc L Hc%elem_of_list_singleton Hr. subst c. destruct Hr. right. by split.
        + intros c oc L Hc%elem_of_list_singleton Hr. subst c. destruct Hr. right. by split.
      - simpl in E. mleaf E. exists (k0 :: ord). split; [|done]. split; [done|..].
        + intros x [Hf|[Hno _]] Hs; [apply Hx; split; [by apply keys_named|done]|].
          exfalso. apply (Hno k0). apply Hx. by left.
        + intros _ c oc L Hc Hr. exfalso. apply Hr. left. by apply Hx.
        + intros c oc L Hc Hr. exfalso. apply Hr. left. by apply Hx.
    Qed.

    (** ** The result *)
    Theorem adjust_startpoints_result r h' :
      adjust_startpoints d h0 = (r, h') →
      match r with
      | Ok _ => ∃ ord, RInv h' ord ∧ ord ≡ₚ net_keys h0 d
      | Err UndefinedRoadNetwork => ∃ ord, RInv h' ord ∧ length ord < length (net_keys h0 d) ∧
          ∀ k, k ∈ net_keys h0 d → stuck ord k
      | Err _ => True
      end.
    Proof.
      rewrite adjust_startpoints_split. intros E. destruct r as [[]|e].
      - apply bind_ok in E as (n & h1 & E1 & E). apply first_phase_ok in E1 as (ord & HR & ->).
        apply place_loop_ok in E as (ext & HR2 & Hl); [|done]. exists (ord ++ ext). split; [done|].
        apply submseteq_Permutation_length_le; [done|]. apply NoDup_submseteq; [apply (ri_inv _ _ HR2)|].
        intros k Hk. apply keys_named. by apply (ni_keys _ _ (ri_inv _ _ HR2)).
      - destruct e; try done. apply bind_err in E as [E|(n & h1 & E1 & E)].
        + exfalso. unfold first_phase in E. apply bind_err in E as [E|(n & h1 & E1 & E)].
          { apply raises_place_fixed in E. unfold place_exn in E. naive_solver. }
          destruct n; [|by mleaf E].
          assert (Hpe : place_exn UndefinedRoadNetwork).
          { revert E. apply raises_bind; [apply raises_or_raise; unfold place_exn; naive_solver|intros k].
            apply raises_bind; [apply raises_planview_at|intros pv].
            apply raises_bind; [apply raises_adjust_geometries|intros]. apply raises_ret. }
          unfold place_exn in Hpe. naive_solver.
        + apply first_phase_ok in E1 as (ord & HR & ->).
          apply place_loop_ok in E as (ext & HR2 & Hl); [|done]. by exists (ord ++ ext).
    Qed.

      Lemma planview_at_run h k o : net_frame d h0 h → R k = Some o → planview_at (od_roads (h_odr h !!! d)) k h = (Ok (rd_planview o), h).
      Proof.
        intros Hf Ho. rewrite -(named_frame h) // in Ho. unfold road_named in Ho.
        destruct (dict_get _ k) as [r|] eqn:E; [|done]. simpl in Ho. unfold planview_at, road_at. rewrite E. simpl.
        unfold bind, ret, get_road, gets. simpl. naive_solver.
      Qed.
      Lemma lta_run h ord L : NInv h ord → is_Some (R (pystr (lk_id L))) → ∃ b, link_target_adjusted (od_roads (h_odr h !!! d)) L h = (Ok b, h).
      Proof.
        intros HI [o Ho]. unfold link_target_adjusted. rewrite (bind_run _ _ _ _ _ (planview_at_run h _ o (ni_frame _ _ HI) Ho)).
        by eexists.
      Qed.

    (** ** When nothing can go wrong: the primitives can be evaluated *)
    Section RunGeo.
      Context (WE : ∀ k o, R k = Some o → (∀ g, g ∈ pv_raw (view h0 o) → evaluable (h_geom h0 !!! g)) ∧
        (pv_over (view h0 o) = [] ∨ length (pv_raw (view h0 o)) ≤ length (pv_over (view h0 o)))).

      Lemma adjust_run h ord k o b h1 :
        NInv h ord → R k = Some o → geo_frame (rd_planview o) h h1 → ∃ h', adjust_geometries (rd_planview o) b h1 = (Ok tt, h').
      Proof.
        intros HI Ho Hg. destruct (gf_same _ _ _ Hg) as (Hraw & Hov & _).
        destruct (nf_same _ _ _ (ni_frame _ _ HI) (rd_planview o)) as (Hraw2 & Hov2 & _).
        apply adjust_geometries_run.
        - rewrite Hraw Hraw2. apply Forall_forall. intros g Hgin.
          eapply placeable_evolves; [|apply evaluable_placeable; apply (proj1 (WE k o Ho) _ Hgin)].
          eapply evolves_trans; [apply HI|apply Hg].
        - rewrite Hraw Hov Hraw2 Hov2. right. by apply (proj2 (WE k o Ho)).
      Qed.
      Lemma awn_run h ord k k2 o c b :
        NInv h ord → R k = Some o → k2 ∈ ord → ∃ h', adjust_road_wrt_neighbour d k k2 (Some c) b h = (Ok tt, h').
      Proof.
        intros HI Ho Hk2. destruct (ni_keys _ _ HI k2 Hk2) as [o2 Ho2].
        destruct (ninv_ends _ _ _ _ HI Hk2 Ho2) as [[ps Hs] [pe He]].
        unfold adjust_road_wrt_neighbour, get_odr. rewrite bind_gets.
        pose proof Ho as Ho'. rewrite -(named_frame h) in Ho'; [apply HI|]. unfold road_named in Ho'.
        destruct (dict_get _ k) as [r|] eqn:Er; [|done]. simpl in Ho'. unfold road_at. rewrite Er. simpl.
        unfold get_road. assert (Hr : h_road h !!! r = o) by (by injection Ho').
        unfold bind at 1, ret at 1. rewrite bind_gets Hr.
        rewrite (bind_run _ _ _ _ _ (planview_at_run h k2 o2 (ni_frame _ _ HI) Ho2)).
        assert (∃ q, neighbour_pose (rd_planview o2) (Some c) h = (Ok q, h)) as [q Eq].
        { unfold neighbour_pose, pv_get_start_point, pv_get_end_point, get_pv. rewrite bind_gets -/(view h o2). destruct c.
          - rewrite Hs. simpl. destruct ps as [[x y] hd]. by eexists.
          - rewrite He. by eexists. }
        rewrite (bind_run _ _ _ _ _ Eq).
        destruct (if b then _ else _) as [[x y] hd].
        set (h1 := (pv_set_start_point (rd_planview o) x y hd h).2).
        assert (E1 : pv_set_start_point (rd_planview o) x y hd h = (Ok tt, h1)) by done.
        rewrite (bind_run _ _ _ _ _ E1). eapply adjust_run; [exact HI|exact Ho|].
        exact (pres_ok _ _ _ _ _ (gf_set_start _ _ _ _) E1).
      Qed.
      Lemma place_fixed_run ks : ∀ h ord, NInv h ord → NoDup ks → (∀ k, k ∈ ks → k ∉ ord) → (∀ k, k ∈ ks → is_Some (R k)) →
        ∃ n h', place_fixed d ks h = (Ok n, h').
      Proof.
        induction ks as [|k ks IH]; intros h ord HI Hnd Hni Hks; cbn [place_fixed]; [by eexists _, _|].
        unfold get_odr. rewrite bind_gets. destruct (Hks k) as [o Ho]; [by left|].
        rewrite (bind_run _ _ _ _ _ (planview_at_run h _ o (ni_frame _ _ HI) Ho)). unfold get_pv. rewrite bind_gets.
        assert (Hk : k ∉ ord) by (apply Hni; by left). apply NoDup_cons in Hnd as [Hkk Hnd].
        pose proof (ni_raw _ _ HI k o Ho Hk) as Hv. rewrite -!/(view _ o). rewrite Hv.
        destruct (pv_fixed (view h0 o)) eqn:Hfx.
        - destruct (adjust_run h ord k o false h HI Ho) as [h1 E1]; [reflexivity|].
          rewrite (bind_run _ _ _ _ _ E1).
          assert (HI1 : NInv h1 (ord ++ [k])) by (eapply place_root; try done; left; by exists o).
          destruct (IH h1 _ HI1) as (n & h2 & E2); [done| | |rewrite (bind_run _ _ _ _ _ E2); by eexists _, _].
          + intros x Hx [Hxo|Hxk%elem_of_list_singleton]%elem_of_app; [by eapply Hni; [right; exact Hx|]|by subst].
          + intros x Hx. apply Hks. by right.
        - apply (IH h ord); [done|done| |]; intros x Hx; [apply Hni|apply Hks]; by right.
      Qed.
      Lemma first_phase_run : net_keys h0 d ≠ [] → ∃ n h', first_phase h0 = (Ok n, h').
      Proof.
        intros Hne. unfold first_phase.
        destruct (place_fixed_run (dict_keys (od_roads (h_odr h0 !!! d))) h0 []) as (n & h1 & E1);
          [apply ninv_init|apply Hfresh|intros k _ Hk; by apply elem_of_nil in Hk|intros k Hk; by apply keys_named|].
        rewrite (bind_run _ _ _ _ _ E1). destruct n; [|by eexists _, _].
        apply (place_fixed_ok _ h0 []) in E1 as (ord & HI & Hl & Hx);
          [|apply ninv_init|apply Hfresh|intros k _ Hk; by apply elem_of_nil in Hk].
        destruct ord; [|done]. simpl in HI.
        unfold net_keys in Hne. change (map fst (od_roads (h_odr h0 !!! d))) with (dict_keys (od_roads (h_odr h0 !!! d))) in Hne.
        destruct (dict_keys _) as [|k ks] eqn:Ek; [done|]. simpl. unfold bind at 1, ret at 1.
        assert (is_Some (R k)) as [o Ho]. { apply keys_named. unfold net_keys. rewrite /dict_keys in Ek. rewrite Ek. by left. }
        pose proof (planview_at_run h1 k o (ni_frame _ _ HI) Ho) as Ep. rewrite (nf_odr _ _ _ (ni_frame _ _ HI)) in Ep.
        rewrite (bind_run _ _ _ _ _ Ep).
        destruct (adjust_run h1 [] k o false h1 HI Ho) as [h2 E2]; [reflexivity|].
        rewrite (bind_run _ _ _ _ _ E2). by eexists _, _.
      Qed.
    End RunGeo.

    (** ... and all links can be followed *)
    Section Run.
      Context (WL : well_linked h0 d).
      Local Lemma wl_eval k o : R k = Some o → (∀ g, g ∈ pv_raw (view h0 o) → evaluable (h_geom h0 !!! g)) ∧
        (pv_over (view h0 o) = [] ∨ length (pv_raw (view h0 o)) ≤ length (pv_over (view h0 o))).
      Proof. intros Ho. split; [intros g; by eapply (wl_geoms _ _ WL)|by eapply (wl_over _ _ WL)]. Qed.
      Local Notation awn_run := (awn_run wl_eval).
      Local Notation first_phase_run := (first_phase_run wl_eval).

      Lemma link_ready_run h ord k o ol :
        NInv h ord → R k = Some o → (∀ L, ol = Some L → rd_pred o = Some L ∨ rd_succ o = Some L) →
        ∃ b, link_ready (od_roads (h_odr h !!! d)) ol h = (Ok b, h).
      Proof.
        intros HI Ho Hl. destruct ol as [L|]; [|by eexists]. simpl.
        destruct (lta_run h ord L HI) as [b E]; [by eapply (wl_target _ _ WL), Hl|].
        rewrite (bind_run _ _ _ _ _ E). by eexists.
      Qed.
      Lemma place_other_succ_run h ord k o :
        NInv h ord → k ∈ ord → R k = Some o → ∃ n h', place_other_succ d k (rd_type o) (rd_succ o) h = (Ok n, h').
      Proof.
        intros HI Hk Ho. unfold place_other_succ. destruct (rd_succ o) as [L|] eqn:HL; [|by eexists _, _].
        destruct (bool_decide _); [by eexists _, _|]. unfold get_odr. rewrite bind_gets.
        destruct (wl_target _ _ WL k o L Ho (or_intror HL)) as [[os Hos] _].
        destruct (lta_run h ord L HI) as [b E]; [by eexists|]. rewrite (bind_run _ _ _ _ _ E).
        destruct b; [by eexists _, _|].
        destruct (awn_run h ord _ k os cp_end (bool_decide (lk_contact L = Some cp_start)) HI Hos Hk) as [h1 E1].
        rewrite (bind_run _ _ _ _ _ E1). by eexists _, _.
      Qed.
      Lemma place_other_pred_run h ord k o :
        NInv h ord → k ∈ ord → R k = Some o → ∃ n h', place_other_pred d k (rd_type o) (rd_pred o) h = (Ok n, h').
      Proof.
        intros HI Hk Ho. unfold place_other_pred. destruct (rd_pred o) as [L|] eqn:HL; [|by eexists _, _].
        destruct (bool_decide _); [by eexists _, _|]. unfold get_odr. rewrite bind_gets.
        destruct (wl_target _ _ WL k o L Ho (or_introl HL)) as [[os Hos] _].
        destruct (lta_run h ord L HI) as [b E]; [by eexists|]. rewrite (bind_run _ _ _ _ _ E).
        destruct b; [by eexists _, _|].
        destruct (awn_run h ord _ k os cp_start (bool_decide (lk_contact L = Some cp_start)) HI Hos Hk) as [h1 E1].
        rewrite (bind_run _ _ _ _ _ E1). by eexists _, _.
      Qed.
      Lemma sweep_road_run h ord k : RInv h ord → is_Some (R k) → ∃ n h', sweep_road d k h = (Ok n, h').
      Proof.
        intros HR [o Ho]. pose proof (ri_inv _ _ HR) as HI. unfold sweep_road, get_odr. rewrite bind_gets.
        pose proof Ho as Ho'. rewrite -(named_frame h) in Ho'; [apply HI|]. unfold road_named in Ho'.
        destruct (dict_get _ k) as [r|] eqn:Er; [|done]. simpl in Ho'. unfold road_at. rewrite Er. simpl.
        unfold get_road. assert (Hr : h_road h !!! r = o) by (by injection Ho').
        unfold bind at 1, ret at 1. rewrite bind_gets Hr. unfold get_pv. rewrite bind_gets.
        destruct (pv_adjusted _) eqn:Ha; [by eexists _, _|].
        assert (Hn : k ∉ ord). { intros Hk. apply (ni_adj _ _ HI k o Ho) in Hk. unfold view in Hk. congruence. }
        assert (Hroot : ¬ root h0 d k) by (intros Hx; apply Hn, (ri_roots _ _ HR); [done|by eexists]).
        destruct (link_ready_run h ord k o (rd_pred o) HI Ho) as [bp Ep]; [by left|].
        rewrite (bind_run _ _ _ _ _ Ep). apply (link_ready_ok h ord) in Ep as (_ & Hbp & _); [|done].
        assert (Hplace : ∀ h1 (b : bool) L, (if b then rd_pred o else rd_succ o) = Some L → lk_etype L ≠ Some et_junction → pystr (lk_id L) ∈ ord →
          adjust_road_wrt_neighbour d k (pystr (lk_id L)) (lk_contact L) b h = (Ok tt, h1) → NInv h1 (ord ++ [k])).
        { intros h1 b L HL Het Hin E1.
          destruct (awn_ok _ _ _ _ _ _ _ HI E1 Hn Hin) as (o' & o2 & c & q & H1 & H2 & Hc & Hq & Hput & Hg & Had).
          assert (o' = o) as -> by congruence.
          eapply ninv_place; [exact HI|exact H1|exact Hn|exact Hg|exact Had|]. right. split; [done|].
          exists (pystr (lk_id L)). split; [done|]. destruct b; [by eapply att_pred|by eapply att_succ]. }
        assert (Hkk : k ∈ ord ++ [k]) by (apply elem_of_app; right; by apply elem_of_list_singleton).
        destruct bp.
        - destruct Hbp as [Hbp _]. destruct (Hbp eq_refl) as (L & HL & Het & Hin). rewrite HL.
          destruct (wl_target _ _ WL k o L Ho (or_introl HL)) as [_ Hc]. destruct (lk_contact L) as [c|] eqn:Ec; [|done].
          destruct (awn_run h ord k _ o c true HI Ho Hin) as [h1 E1]. rewrite (bind_run _ _ _ _ _ E1).
          destruct (place_other_succ_run h1 (ord ++ [k]) k o) as (n & h2 & E2); try done.
          { eapply (Hplace h1 true L); try done. by rewrite Ec. }
          rewrite (bind_run _ _ _ _ _ E2). by eexists _, _.
        - destruct (link_ready_run h ord k o (rd_succ o) HI Ho) as [bs Es]; [by right|].
          rewrite (bind_run _ _ _ _ _ Es). apply (link_ready_ok h ord) in Es as (_ & Hbs & _); [|done].
          destruct bs; [|by eexists _, _]. destruct Hbs as [Hbs _]. destruct (Hbs eq_refl) as (L & HL & Het & Hin). rewrite HL.
          destruct (wl_target _ _ WL k o L Ho (or_intror HL)) as [_ Hc]. destruct (lk_contact L) as [c|] eqn:Ec; [|done].
          destruct (awn_run h ord k _ o c false HI Ho Hin) as [h1 E1]. rewrite (bind_run _ _ _ _ _ E1).
          destruct (place_other_pred_run h1 (ord ++ [k]) k o) as (n & h2 & E2); try done.
          { eapply (Hplace h1 false L); try done. by rewrite Ec. }
          rewrite (bind_run _ _ _ _ _ E2). by eexists _, _.
      Qed.
      Lemma sweep_run ks : ∀ h ord, RInv h ord → (∀ k, k ∈ ks → is_Some (R k)) → ∃ n h', sweep d ks h = (Ok n, h').
      Proof.
        induction ks as [|k ks IH]; intros h ord HR Hks; cbn [sweep]; [by eexists _, _|].
        destruct (sweep_road_run h ord k HR) as (n & h1 & E1); [apply Hks; by left|].
        rewrite (bind_run _ _ _ _ _ E1). apply (sweep_road_ok h ord) in E1 as (e1 & HR1 & _); [|done].
        destruct (IH h1 _ HR1) as (m & h2 & E2); [intros x Hx; apply Hks; by right|].
        rewrite (bind_run _ _ _ _ _ E2). by eexists _, _.
      Qed.
      Lemma place_loop_run fuel : ∀ h ord e h', RInv h ord → place_loop fuel d (length ord) h = (Err e, h') →
        e = UndefinedRoadNetwork ∨ e = OutOfFuel.
      Proof.
        induction fuel as [|fuel IH]; intros h ord e h' HR E; cbn [place_loop] in E; unfold get_odr in E; rewrite bind_gets in E.
        - destruct (decide _); mleaf E. by right.
        - destruct (decide _); [|mleaf E].
          destruct (sweep_run (dict_keys (od_roads (h_odr h !!! d))) h ord HR) as (n & h1 & E1).
          { intros k Hk. rewrite (nf_odr _ _ _ (ni_frame _ _ (ri_inv _ _ HR))) in Hk. by apply keys_named. }
          rewrite (bind_run _ _ _ _ _ E1) in E. apply (sweep_ok _ h ord) in E1 as (e1 & HR1 & -> & _); [|done].
          destruct (decide _); [mleaf E; by left|]. rewrite -app_length in E. by eapply IH.
      Qed.

      Theorem adjust_startpoints_run :
        connects_ordinary h0 d → net_keys h0 d ≠ [] → (∀ k, k ∈ net_keys h0 d → anchored h0 d k) →
        ∃ h', adjust_startpoints d h0 = (Ok tt, h').
      Proof.
        intros CS Hne Hanch. destruct (adjust_startpoints d h0) as [[[]|e] h'] eqn:E; [by eexists|exfalso].
        assert (e = UndefinedRoadNetwork) as ->.
        { pose proof (adjust_startpoints_raises _ _ _ _ E) as Hw. pose proof E as E'. rewrite adjust_startpoints_split in E'.
          destruct (first_phase_run Hne) as (n & h1 & E1). rewrite (bind_run _ _ _ _ _ E1) in E'.
          apply first_phase_ok in E1 as (ord & HR & ->). apply place_loop_run in E' as [?|Ho]; [done| |done].
          subst e. unfold while_exn, place_exn in Hw. naive_solver. }
        apply adjust_startpoints_result in E as (ord & HR & Hlen & Hst).
        assert (Hall : ∀ k, anchored h0 d k → is_Some (R k) → k ∈ ord).
        { assert (Hlink : ∀ k k2, road_link h0 d k k2 → k2 ∈ ord → k ∈ ord).
          { intros k k2 Hl Hk2. destruct (Hst k) as [?|Hs]; [|done|by apply Hs in Hl].
            destruct Hl as (o & L & Ho & _). apply keys_named. by eexists. }
          assert (Hls : ∀ k k2, road_link h0 d k k2 → is_Some (R k2)).
          { intros k k2 (o & L & Ho & HL & _ & <-). by eapply (wl_target _ _ WL). }
          induction 1 as [k Hr Hk|k k2 Hl Han IH|k c k2 oc L Hoc Hty Hnr Hl Han IH HL <-]; intros Hs.
          - by apply (ri_roots _ _ HR).
          - eapply Hlink; [exact Hl|]. apply IH. by eapply Hls.
          - eapply (ri_conn _ _ HR CS c oc L); try done. eapply Hlink; [exact Hl|]. apply IH. by eapply Hls. }
        assert (net_keys h0 d ⊆+ ord) as Hsub.
        { apply NoDup_submseteq; [apply Hfresh|]. intros k Hk. apply Hall; [by apply Hanch|by apply keys_named]. }
        apply submseteq_length in Hsub. lia.
      Qed.
    End Run.
  End Net.
End Network.
