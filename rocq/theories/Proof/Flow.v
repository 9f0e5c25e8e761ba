(** Roads of a network that flows forwards are placed forwards *)
From Coq Require Import ssreflect.
From Verif.Model Require Import Api.
From Verif.Spec Require Import SpecNetwork SpecFlow.
From Verif.Proof Require Import Monad DictFacts PlanViewFacts NetFrame Network.
Local Open Scope general_if_scope.

Section Flow.
  Context {F : Type} `{!Num F}.
  Context (h0 : heap F) (d : ref) (Hfresh : fresh_network h0 d) (Hord : connects_ordinary h0 d) (Hflow : flows_forward h0 d).
  Local Notation R := (road_named h0 d).
  Local Arguments adjust_road_wrt_neighbour : simpl never.

  (** the roads placed so far were placed forwards *)
  Definition forward (h : heap F) : Prop := ∀ k o, R k = Some o → pv_adjusted (view h o) = true → ∃ q, put_forward h0 (view h0 o) (view h o) q.
  Definition there (h : heap F) (k : string) : Prop := ∃ o, R k = Some o ∧ pv_adjusted (view h o) = true.

  Lemma there_in h ord k : NInv h0 d h ord → there h k ↔ k ∈ ord.
  Proof.
    intros HI. split.
    - intros (o & Ho & Ha). by apply (ni_adj _ _ _ _ HI k o Ho).
    - intros Hk. destruct (ni_keys _ _ _ _ HI k Hk) as [o Ho]. exists o. split; [done|]. by apply (ni_adj _ _ _ _ HI k o Ho).
  Qed.

  Lemma forward_place h h' k o q : forward h → R k = Some o → geo_frame (rd_planview o) h h' → put_forward h0 (view h0 o) (view h' o) q → forward h'.
  Proof.
    intros Hf Ho Hg Hp k2 o2 Ho2 Ha. destruct (decide (k2 = k)) as [->|Hne].
    - assert (o2 = o) as -> by congruence. by exists q.
    - assert (E : view h' o2 = view h o2).
      { unfold view. eapply gf_pv; [exact Hg|]. intros E. apply Hne. by eapply (fn_distinct _ _ Hfresh). }
      rewrite E in Ha *. by apply (Hf k2).
  Qed.

  (** one road *)
  Lemma sweep_road_forward h ord i k n h' :
    RInv h0 d h ord → forward h → net_keys h0 d !! i = Some k → (∀ x, in_time h0 d x i → x ∈ ord) →
    sweep_road d k h = (Ok n, h') → forward h' ∧ (∀ o P, R k = Some o → rd_pred o = Some P → lk_etype P ≠ Some et_junction → pystr (lk_id P) ∈ ord → there h' k).
  Proof.
    intros HR Hfw Hi Htime E. pose proof (ri_inv _ _ _ _ HR) as HI. unfold sweep_road in E. mstep E.
    apply bind_ok in E as (r & h1 & E1 & E). apply or_raise_ok in E1 as [Hr ->]. mstep E. mstep E.
    assert (Hko : R k = Some (h_road h !!! r)).
    { rewrite -(named_frame h0 d h); [apply HI|]. unfold road_named. by rewrite Hr. }
    generalize dependent (h_road h !!! r). intros o E Hko.
    destruct (pv_adjusted (h_pv h !!! rd_planview o)) eqn:Ha.
    { mleaf E. split; [done|]. intros. by exists o. }
    assert (Hn : k ∉ ord). { intros Hk. apply (ni_adj _ _ _ _ HI k o Hko) in Hk. unfold view in Hk. congruence. }
    assert (Hroot : ¬ root h0 d k) by (intros Hx; apply Hn, (ri_roots _ _ _ _ HR); [done|by eexists]).
    apply bind_ok in E as (bp & h1 & E1 & E). apply (link_ready_ok h0 d h ord) in E1 as (-> & Hbp & Hlook); [|done].
    destruct bp.
    - destruct Hbp as [Hbp _]. destruct (Hbp eq_refl) as (L & HL & Het & Hin). rewrite HL in E.
      apply bind_ok in E as ([] & h1 & E1 & E).
      destruct (awn_ok h0 d Hfresh _ _ _ _ _ _ _ HI E1 Hn Hin) as (o' & o2 & c & q & H1 & H2 & Hc & Hq & Hput & Hg & Had).
      assert (o' = o) as -> by congruence.
      assert (HI1 : NInv h0 d h1 (ord ++ [k])).
      { eapply (ninv_place h0 d Hfresh); [exact HI|exact H1|exact Hn|exact Hg|exact Had|]. right. split; [done|].
        exists (pystr (lk_id L)). split; [done|]. by eapply att_pred. }
      assert (Hf1 : forward h1) by exact (forward_place h h1 k o _ Hfw Hko Hg Hput).
      apply bind_ok in E as (m & h2 & E2 & E). mleaf E.
      assert (Hk1 : k ∈ ord ++ [k]) by (apply elem_of_app; right; by apply elem_of_list_singleton).
      assert (Hs : ∀ x, root h0 d x → is_Some (R x) → x ∈ ord ++ [k]).
      { intros x Hx Hs. apply elem_of_app. left. by apply (ri_roots _ _ _ _ HR). }
      split.
      + unfold place_other_succ in E2. destruct (rd_succ o) as [S|] eqn:HS; [|by mleaf E2].
        destruct (bool_decide_reflect (rd_type o = (-1)%Z)) as [Ht|Ht]; [by mleaf E2|].
        mstep E2. apply bind_ok in E2 as (a & h3 & E3 & E2). apply (lta_ok h0 d h1 (ord ++ [k])) in E3 as (-> & os & Hos & Hoa); [|done].
        destruct a; [by mleaf E2|]. assert (Hn2 : pystr (lk_id S) ∉ ord ++ [k]) by (intros Hx; by apply Hoa in Hx).
        apply bind_ok in E2 as ([] & h3 & E3 & E2). mleaf E2.
        rewrite (fl_start _ _ Hflow k o S Hko Hroot Ht HS) in E3. rewrite bool_decide_true // in E3.
        destruct (awn_ok h0 d Hfresh _ _ _ _ _ _ _ HI1 E3 Hn2 Hk1) as (o3 & o4 & c3 & q3 & H3 & H4 & Hc3 & Hq3 & Hput3 & Hg3 & Had3).
        exact (forward_place h1 _ _ o3 _ Hf1 H3 Hg3 Hput3).
      + intros _ _ _ _ _ _. eapply (place_other_succ_ok h0 d Hfresh h1 (ord ++ [k])) in E2 as (ext & HI2 & _); try done.
        apply (there_in _ _ k HI2). apply elem_of_app. by left.
    - destruct Hbp as [_ Hbp].
      assert (Hno : ∀ P, rd_pred o = Some P → lk_etype P ≠ Some et_junction → pystr (lk_id P) ∉ ord).
      { intros P HP Hty Hin. discriminate Hbp. by exists P. }
      split; [|intros o' P Ho' HP Hty Hin; assert (o' = o) as -> by congruence; by destruct (Hno P HP Hty)].
      apply bind_ok in E as (bs & h1 & E1 & E). apply (link_ready_ok h0 d h ord) in E1 as (-> & Hbs & _); [|done]. destruct bs; [|by mleaf E].
      exfalso. destruct Hbs as [Hbs _]. destruct (Hbs eq_refl) as (S & HS & Het & Hin).
      destruct (fl_first _ _ Hflow i k o S Hi Hko Hroot HS Het) as [Hk|(P & HP & Hty & HinP)]; [by apply Hn, Htime|by apply (Hno P), Htime].
  Qed.

  Lemma in_time_mono k n m : n ≤ m → in_time h0 d k n → in_time h0 d k m.
  Proof.
    intros Hnm H. revert m Hnm. induction H as [k n Hr Hs|k n i o P Hi Hin Ho HP Hty Ht _|c n o L k Ht IH Hr Ho Hty HL Hk]; intros m Hnm.
    - by apply it_root.
    - eapply it_own; [exact Hi|lia|exact Ho|exact HP|exact Hty|exact Ht].
    - eapply it_other; [by apply IH|exact Hr|exact Ho|exact Hty|exact HL|exact Hk].
  Qed.

  (** after the turn of road [i], the roads that are in time for the next turn are there *)
  Lemma in_time_step h h' ord ord' i :
    RInv h0 d h ord → RInv h0 d h' ord' → (∀ x, x ∈ ord → x ∈ ord') → (∀ x, in_time h0 d x i → x ∈ ord) →
    (∀ k o P, net_keys h0 d !! i = Some k → R k = Some o → rd_pred o = Some P → lk_etype P ≠ Some et_junction → pystr (lk_id P) ∈ ord → k ∈ ord') →
    ∀ x, in_time h0 d x (S i) → x ∈ ord'.
  Proof.
    intros HR HR' Hsub Ht Hk. enough (∀ x n, in_time h0 d x n → n = S i → x ∈ ord') as H by (intros x Hx; by eapply H).
    induction 1 as [k n Hr Hs|k n j o P Hj Hin Ho HP Hty HtP _|c n o L k Htc IH Hr Ho Hty HL Hkk]; intros ->.
    - by apply (ri_roots _ _ _ _ HR').
    - destruct (decide (j = i)) as [->|Hne].
      + apply (Hk k o P); try done. by apply Ht.
      + apply Hsub, Ht. eapply it_own; [exact Hj|lia|exact Ho|exact HP|exact Hty|exact HtP].
    - subst k. eapply (ri_conn _ _ _ _ HR' Hord c o L); try done. by apply IH.
  Qed.

  Lemma sweep_forward ks : ∀ i h ord n h', drop i (net_keys h0 d) = ks →
    RInv h0 d h ord → forward h → (∀ x, in_time h0 d x i → x ∈ ord) → sweep d ks h = (Ok n, h') →
    ∃ ext, RInv h0 d h' (ord ++ ext) ∧ n = length ext ∧ forward h' ∧ ∀ x, in_time h0 d x (i + length ks) → x ∈ ord ++ ext.
  Proof.
    induction ks as [|k ks IH]; intros i h ord n h' Hdrop HR Hfw Ht E; cbn [sweep] in E.
    - mleaf E. exists []. rewrite app_nil_r. split; [done|]. split; [done|]. split; [done|]. intros x Hx. apply Ht. by rewrite Nat.add_0_r in Hx.
    - apply bind_ok in E as (n1 & h1 & E1 & E). apply bind_ok in E as (n2 & h2 & E2 & E). mleaf E.
      assert (Hi : net_keys h0 d !! i = Some k). { rewrite -(Nat.add_0_r i) -lookup_drop Hdrop //. }
      destruct (sweep_road_forward h ord i k n1 h1 HR Hfw Hi Ht E1) as [Hf1 Hk1].
      destruct (sweep_road_ok h0 d Hfresh h ord k n1 h1 HR E1) as (e1 & HR1 & -> & _).
      apply (IH (S i) h1 (ord ++ e1)) in E2 as (e2 & HR2 & -> & Hf2 & Ht2); [|by rewrite -Nat.add_1_r -drop_drop Hdrop /= drop_0|done|done|].
      + exists (e1 ++ e2). rewrite app_assoc. split; [done|]. split; [by rewrite app_length|]. split; [done|]. intros x Hx. apply Ht2. by rewrite /= Nat.add_succ_r in Hx.
      + apply (in_time_step h h1 ord (ord ++ e1) i HR HR1); [intros x Hx; apply elem_of_app; by left|done|].
        intros k' o P Hi' Ho HP Hty Hin. assert (k' = k) as -> by congruence. apply (there_in h1 (ord ++ e1) k (ri_inv _ _ _ _ HR1)). by eapply Hk1.
  Qed.

  Lemma place_loop_forward fuel : ∀ h ord h', RInv h0 d h ord → forward h → (∀ x, in_time h0 d x 0 → x ∈ ord) →
    place_loop fuel d (length ord) h = (Ok tt, h') → forward h'.
  Proof.
    induction fuel as [|fuel IH]; intros h ord h' HR Hfw Ht E; cbn [place_loop] in E; unfold get_odr in E; rewrite bind_gets in E;
      rewrite (nf_odr _ _ _ (ni_frame _ _ _ _ (ri_inv _ _ _ _ HR))) in E.
    - destruct (decide _); by mleaf E.
    - destruct (decide _); [|by mleaf E]. apply bind_ok in E as (n & h1 & E1 & E).
      apply (sweep_forward _ 0 h ord) in E1 as (e1 & HR1 & -> & Hf1 & Ht1); [|done|done|done|done].
      destruct (decide _) as [Hd|Hd]; [by mleaf E|]. rewrite -app_length in E. eapply IH; [exact HR1|exact Hf1| |exact E].
      intros x Hx. apply Ht1. eapply in_time_mono; [|exact Hx]. lia.
  Qed.

  (** only roots are placed before the first sweep *)
  Lemma first_phase_roots n h' k : first_phase h0 d h0 = (Ok n, h') → there h' k → root h0 d k.
  Proof.
    intros E. unfold first_phase in E. apply bind_ok in E as (m & h1 & E1 & E).
    apply (place_fixed_ok h0 d Hfresh _ h0 []) in E1 as (ord & HI & -> & Hx);
      [|apply (ninv_init h0 d Hfresh)|apply Hfresh|intros x _ Hk; by apply elem_of_nil in Hk].
    simpl in HI. destruct ord as [|k0 ord].
    - simpl in E. assert (Hno : ∀ k, ¬ fixed_road h0 d k).
      { intros x Hf. apply (not_elem_of_nil x). apply Hx. split; [|done]. destruct Hf as (o & Ho & _). apply (keys_named h0 d). by eexists. }
      apply bind_ok in E as (x & h2 & E1 & E). apply or_raise_ok in E1 as [Hk ->].
      apply bind_ok in E as (pv & h2 & E1 & E).
      rewrite -(nf_odr _ _ _ (ni_frame _ _ _ _ HI)) in E1. apply planview_at_ok in E1 as (-> & o & Ho & ->).
      rewrite (named_frame h0 d h1) in Ho; [apply HI|].
      apply bind_ok in E as ([] & h2 & E2 & E). mleaf E.
      assert (HI1 : NInv h0 d h2 ([] ++ [x])).
      { eapply (place_root h0 d Hfresh); [exact HI|exact Ho|by apply not_elem_of_nil| |exact E2]. right. by split. }
      intros Ht%(there_in _ _ k HI1). apply elem_of_list_singleton in Ht as ->. right. by split.
    - simpl in E. mleaf E. intros Ht%(there_in _ _ k HI). left. by apply Hx.
  Qed.

  Theorem placed_forward h' : adjust_startpoints d h0 = (Ok tt, h') → ∀ k o, R k = Some o → ∃ q, put_forward h0 (view h0 o) (view h' o) q.
  Proof.
    intros E k o Ho. destruct (adjust_startpoints_result h0 d Hfresh _ _ E) as (ord' & HR' & Hp).
    assert (Ha : pv_adjusted (view h' o) = true).
    { apply (ni_adj _ _ _ _ (ri_inv _ _ _ _ HR') k o Ho). rewrite Hp. apply (keys_named h0 d). by eexists. }
    rewrite adjust_startpoints_split in E. apply bind_ok in E as (n & h1 & E1 & E).
    pose proof (λ x, first_phase_roots n h1 x E1) as Hroots. apply (first_phase_ok h0 d Hfresh) in E1 as (ord & HR & ->).
    pose proof (ri_inv _ _ _ _ HR) as HI.
    assert (Hf : forward h1).
    { intros x ox Hox Hx. assert (Ht : there h1 x) by (by exists ox). pose proof (Hroots x Ht) as Hr. apply (there_in _ _ x HI) in Ht.
      destruct (ni_rootp _ _ _ _ HI x Ht Hr) as (_ & o' & Ho' & Hput). assert (o' = ox) as -> by congruence. by eexists. }
    refine (place_loop_forward _ _ _ _ HR Hf _ E k o Ho Ha).
    intros x Hx. assert (∀ y n, in_time h0 d y n → n = 0 → root h0 d y ∧ is_Some (R y)) as H0.
    { induction 1 as [y n Hr Hs|y n i oy P Hi Hin Hoy HP Hty Hty2 _|c n oc L y Hc IH Hrc Hoc Hty HL Hy]; intros ->; [done|lia|]. by destruct (IH eq_refl) as [? _]. }
    destruct (H0 x 0 Hx eq_refl) as [Hr Hs]. by apply (ri_roots _ _ _ _ HR).
  Qed.
End Flow.

(** ** A road that stands right after the roots and names, first, something that is not a road *)
Section Blocked.
  Context {F : Type} `{!Num F}.
  Context (h0 : heap F) (d : ref) (Hfresh : fresh_network h0 d).
  Local Notation R := (road_named h0 d).
  Local Arguments adjust_road_wrt_neighbour : simpl never.

  (** [x] is a connecting road that leads to road [k] *)
  Definition leads (x k : string) : Prop := ∃ o L, R x = Some o ∧ rd_type o ≠ (-1)%Z ∧ (rd_pred o = Some L ∨ rd_succ o = Some L) ∧ pystr (lk_id L) = k.

  Lemma sweep_blocked k o L ks2 : ∀ ks1 h ord n h', RInv h0 d h ord → k ∉ ks1 → (∀ x, x ∈ ks1 → root h0 d x ∨ ¬ leads x k) → k ∉ ord → R k = Some o →
    rd_pred o = Some L ∨ rd_pred o = None ∧ rd_succ o = Some L → pystr (lk_id L) ∉ net_keys h0 d → sweep d (ks1 ++ k :: ks2) h ≠ (Ok n, h').
  Proof.
    induction ks1 as [|x ks1 IH]; intros h ord n h' HR Hks1 Hks Hk Ho HL Hid E; cbn [app sweep] in E; apply bind_ok in E as (n1 & h1 & E1 & E); pose proof (ri_inv _ _ _ _ HR) as HI.
    - clear E. unfold sweep_road in E1. mstep E1. apply bind_ok in E1 as (r & h2 & E2 & E1). apply or_raise_ok in E2 as [Hr ->]. mstep E1. mstep E1.
      assert (Hko : R k = Some (h_road h !!! r)). { rewrite -(named_frame h0 d h); [apply HI|]. unfold road_named. by rewrite Hr. }
      rewrite Ho in Hko. injection Hko as Hko. rewrite -Hko in E1. destruct (pv_adjusted (h_pv h !!! rd_planview o)) eqn:Ha; [by destruct Hk; apply (ni_adj _ _ _ _ HI k o Ho)|].
      apply bind_ok in E1 as (bp & h2 & E2 & E1). apply (link_ready_ok h0 d h ord) in E2 as (-> & Hbp & Hlook); [|done].
      destruct HL as [HL|[HL0 HL]].
      + apply Hid. apply (keys_named h0 d). by apply Hlook.
      + destruct bp; [destruct Hbp as [Hbp _]; destruct (Hbp eq_refl) as (L' & HL' & _); congruence|].
        apply bind_ok in E1 as (bs & h3 & E2 & E1). apply (link_ready_ok h0 d h ord) in E2 as (-> & _ & Hlook2); [|done]. apply Hid. apply (keys_named h0 d). by apply Hlook2.
    - apply bind_ok in E as (n2 & h2 & E2 & _). apply not_elem_of_cons in Hks1 as [Hxk Hks1].
      assert (Hxr : is_Some (R x)).
      { unfold sweep_road in E1. mstep E1. apply bind_ok in E1 as (r & h3 & E3 & E1). apply or_raise_ok in E3 as [Hr ->].
        eexists. rewrite -(named_frame h0 d h); [apply HI|]. unfold road_named. by rewrite Hr. }
      apply (sweep_road_adds h0 d Hfresh h ord) in E1 as (ext & HR1 & _ & _ & Hin & Hadds); [|done].
      refine (IH h1 (ord ++ ext) n2 h2 HR1 Hks1 _ _ Ho HL Hid E2); [intros y Hy; apply Hks; by right|]. intros [?|Hext]%elem_of_app; [done|].
      destruct (Hks x ltac:(left)) as [Hroot|Hlead].
      + rewrite (Hin (ri_roots _ _ _ _ HR x Hroot Hxr)) in Hext. by apply elem_of_nil in Hext.
      + by destruct (Hadds k Hext) as [?|?].
  Qed.
  Theorem blocked i k o L h' : net_keys h0 d !! i = Some k → (∀ x, x ∈ take i (net_keys h0 d) → root h0 d x ∨ ¬ leads x k) → ¬ root h0 d k → R k = Some o →
    rd_pred o = Some L ∨ rd_pred o = None ∧ rd_succ o = Some L → pystr (lk_id L) ∉ net_keys h0 d → adjust_startpoints d h0 ≠ (Ok tt, h').
  Proof.
    intros Hi Hpre Hk Ho HL Hid E.
    rewrite adjust_startpoints_split in E. apply bind_ok in E as (n & h1 & E1 & E).
    pose proof (λ x, first_phase_roots h0 d Hfresh n h1 x E1) as Hroots. apply (first_phase_ok h0 d Hfresh) in E1 as (ord & HR & ->).
    pose proof (ri_inv _ _ _ _ HR) as HI.
    assert (Hno : k ∉ ord) by (intros Hx; apply Hk, Hroots, (there_in h0 d h1 ord k HI), Hx).
    assert (Hlt : length ord < length (od_roads (h_odr h0 !!! d))).
    { assert (Hsub : k :: ord ⊆+ net_keys h0 d).
      { apply NoDup_submseteq; [apply NoDup_cons; split; [done|apply HI]|]. intros x [->|Hx]%elem_of_cons; [by eapply elem_of_list_lookup_2|]. apply (keys_named h0 d). by apply HI. }
      apply submseteq_length in Hsub. unfold net_keys in Hsub. rewrite map_length in Hsub. simpl in Hsub. lia. }
    pose proof (nf_odr _ _ _ (ni_frame _ _ _ _ HI)) as Eo. destruct (length (od_roads (h_odr h0 !!! d))) as [|fuel] eqn:El; [lia|]. cbn [place_loop] in E. unfold get_odr in E. rewrite bind_gets in E. rewrite Eo El in E.
    rewrite decide_True // in E. apply bind_ok in E as (m & h2 & E2 & _).
    assert (Ek : dict_keys (od_roads (h_odr h0 !!! d)) = take i (net_keys h0 d) ++ k :: drop (S i) (net_keys h0 d)) by (symmetry; by apply take_drop_middle).
    assert (Hnt : k ∉ take i (net_keys h0 d)).
    { intros (j & Hj)%elem_of_list_lookup. apply lookup_take_Some in Hj as [Hj Hji]. pose proof (NoDup_lookup _ _ _ _ (fn_keys _ _ Hfresh) Hi Hj). lia. }
    rewrite Ek in E2. exact (sweep_blocked k o L _ _ h1 ord m h2 HR Hnt Hpre Hno Ho HL Hid E2).
  Qed.
End Blocked.
