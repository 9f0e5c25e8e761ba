(** When one sweep is enough, placing a network succeeds *)
From Coq Require Import ssreflect.
From Verif.Model Require Import Api.
From Verif.Spec Require Import SpecNetwork SpecFlow.
From Verif.Proof Require Import Monad DictFacts PlanViewFacts NetFrame Network Flow.
Local Open Scope general_if_scope.

Section FlowRun.
  Context {F : Type} `{!Num F}.
  Context (h0 : heap F) (d : ref) (Hfresh : fresh_network h0 d) (Hord : connects_ordinary h0 d).
  Local Notation R := (road_named h0 d).
  Context (WE : ∀ k o, R k = Some o → (∀ g, g ∈ pv_raw (view h0 o) → evaluable (h_geom h0 !!! g)) ∧
    (pv_over (view h0 o) = [] ∨ length (pv_raw (view h0 o)) ≤ length (pv_over (view h0 o)))).
  Local Arguments adjust_road_wrt_neighbour : simpl never.

  Lemma os_link_ready h ord L : NInv h0 d h ord → is_Some (R (pystr (lk_id L))) → ∃ b, link_ready (od_roads (h_odr h !!! d)) (Some L) h = (Ok b, h).
  Proof. intros HI Hs. simpl. destruct (lta_run h0 d h ord L HI Hs) as [b E]. rewrite (bind_run _ _ _ _ _ E). by eexists. Qed.

  Lemma os_other_succ h ord k o : NInv h0 d h ord → k ∈ ord → R k = Some o → (rd_type o ≠ (-1)%Z → ∀ S, rd_succ o = Some S → is_Some (R (pystr (lk_id S)))) →
    ∃ n h', place_other_succ d k (rd_type o) (rd_succ o) h = (Ok n, h').
  Proof.
    intros HI Hk Ho Hs. unfold place_other_succ. destruct (rd_succ o) as [L|] eqn:HL; [|by eexists _, _].
    destruct (bool_decide_reflect (rd_type o = (-1)%Z)) as [|Ht]; [by eexists _, _|]. unfold get_odr. rewrite bind_gets.
    destruct (Hs Ht L eq_refl) as [os Hos]. destruct (lta_run h0 d h ord L HI) as [b E]; [by eexists|]. rewrite (bind_run _ _ _ _ _ E).
    destruct b; [by eexists _, _|].
    destruct (awn_run h0 d WE h ord _ k os cp_end (bool_decide (lk_contact L = Some cp_start)) HI Hos Hk) as [h1 E1].
    rewrite (bind_run _ _ _ _ _ E1). by eexists _, _.
  Qed.
  Lemma os_other_pred h ord k o : NInv h0 d h ord → k ∈ ord → R k = Some o → (∀ P, rd_pred o = Some P → is_Some (R (pystr (lk_id P)))) →
    ∃ n h', place_other_pred d k (rd_type o) (rd_pred o) h = (Ok n, h').
  Proof.
    intros HI Hk Ho Hs. unfold place_other_pred. destruct (rd_pred o) as [L|] eqn:HL; [|by eexists _, _].
    destruct (bool_decide_reflect (rd_type o = (-1)%Z)) as [|Ht]; [by eexists _, _|]. unfold get_odr. rewrite bind_gets.
    destruct (Hs L eq_refl) as [os Hos]. destruct (lta_run h0 d h ord L HI) as [b E]; [by eexists|]. rewrite (bind_run _ _ _ _ _ E).
    destruct b; [by eexists _, _|].
    destruct (awn_run h0 d WE h ord _ k os cp_start (bool_decide (lk_contact L = Some cp_start)) HI Hos Hk) as [h1 E1].
    rewrite (bind_run _ _ _ _ _ E1). by eexists _, _.
  Qed.

  (** the turn of road [k] *)
  Definition its_turn (ord : list string) (k : string) (o : road) : Prop :=
    k ∈ ord ∨
    (∃ P, rd_pred o = Some P ∧ lk_etype P ≠ Some et_junction ∧ lk_contact P ≠ None ∧ pystr (lk_id P) ∈ ord ∧
      (rd_type o ≠ (-1)%Z → ∀ S, rd_succ o = Some S → is_Some (R (pystr (lk_id S))))) ∨
    resolved h0 d o.
  Lemma os_road h ord k o : RInv h0 d h ord → R k = Some o → its_turn ord k o →
    ∃ n h', sweep_road d k h = (Ok n, h') ∧
      (∀ P, rd_pred o = Some P → lk_etype P ≠ Some et_junction → pystr (lk_id P) ∈ ord → there h0 d h' k).
  Proof.
    intros HR Ho Hturn. pose proof (ri_inv _ _ _ _ HR) as HI. unfold sweep_road, get_odr. rewrite bind_gets.
    pose proof Ho as Ho'. rewrite -(named_frame h0 d h) in Ho'; [apply HI|]. unfold road_named in Ho'.
    destruct (dict_get _ k) as [r|] eqn:Er; [|done]. simpl in Ho'. unfold road_at. rewrite Er. simpl.
    unfold get_road. assert (Hr : h_road h !!! r = o) by (by injection Ho').
    unfold bind at 1, ret at 1. rewrite bind_gets Hr. unfold get_pv. rewrite bind_gets.
    destruct (pv_adjusted _) eqn:Ha. { eexists _, _. split; [done|]. intros. by exists o. }
    assert (Hn : k ∉ ord). { intros Hk. apply (ni_adj _ _ _ _ HI k o Ho) in Hk. unfold view in Hk. congruence. }
    assert (Hroot : ¬ root h0 d k) by (intros Hx; apply Hn, (ri_roots _ _ _ _ HR); [done|by eexists]).
    assert (Hkk : k ∈ ord ++ [k]) by (apply elem_of_app; right; by apply elem_of_list_singleton).
    assert (Hplace : ∀ h1 (b : bool) L, (if b then rd_pred o else rd_succ o) = Some L → lk_etype L ≠ Some et_junction → pystr (lk_id L) ∈ ord →
      adjust_road_wrt_neighbour d k (pystr (lk_id L)) (lk_contact L) b h = (Ok tt, h1) → NInv h0 d h1 (ord ++ [k])).
    { intros h1 b L HL Het Hin E1.
      destruct (awn_ok h0 d Hfresh _ _ _ _ _ _ _ HI E1 Hn Hin) as (o' & o2 & c & q & H1 & H2 & Hc & Hq & Hput & Hg & Had).
      assert (o' = o) as -> by congruence.
      eapply (ninv_place h0 d Hfresh); [exact HI|exact H1|exact Hn|exact Hg|exact Had|]. right. split; [done|].
      exists (pystr (lk_id L)). split; [done|]. destruct b; [by eapply att_pred|by eapply att_succ]. }
    (* from its predecessor *)
    assert (Hpred : ∀ L, rd_pred o = Some L → lk_etype L ≠ Some et_junction → lk_contact L ≠ None → pystr (lk_id L) ∈ ord →
      (rd_type o ≠ (-1)%Z → ∀ S, rd_succ o = Some S → is_Some (R (pystr (lk_id S)))) →
      ∃ n h', (adjust_road_wrt_neighbour d k (pystr (lk_id L)) (lk_contact L) true ;;
               let! n := place_other_succ d k (rd_type o) (rd_succ o) in ret (1 + n)) h = (Ok n, h') ∧ there h0 d h' k).
    { intros L HL Het Hcp Hin Hs. destruct (lk_contact L) as [c|] eqn:Ec; [|done].
      destruct (awn_run h0 d WE h ord k _ o c true HI Ho Hin) as [h1 E1]. rewrite (bind_run _ _ _ _ _ E1).
      assert (HI1 : NInv h0 d h1 (ord ++ [k])). { apply (Hplace h1 true L); try done. by rewrite Ec. }
      destruct (os_other_succ h1 (ord ++ [k]) k o HI1 Hkk Ho Hs) as (n & h2 & E2). rewrite (bind_run _ _ _ _ _ E2). eexists _, _. split; [done|].
      eapply (place_other_succ_ok h0 d Hfresh h1 (ord ++ [k])) in E2 as (ext & HI2 & _); try done.
      { apply (there_in _ _ _ _ k HI2). apply elem_of_app. by left. }
      intros x Hx Hs'. apply elem_of_app. left. by apply (ri_roots _ _ _ _ HR). }
    destruct Hturn as [?|[(P & HP & Et & Ec & Hin & Hs)|Hres]]; [done|..].
    - destruct (os_link_ready h ord P HI) as [bp Ep]; [by apply (ni_keys _ _ _ _ HI)|]. rewrite HP. rewrite (bind_run _ _ _ _ _ Ep).
      apply (link_ready_ok h0 d h ord) in Ep as (_ & Hbp & _); [|done]. destruct bp.
      + destruct (Hpred P HP Et Ec Hin Hs) as (n & h' & E & Ht). exists n, h'. split; [exact E|]. done.
      + destruct Hbp as [_ Hbp]. discriminate Hbp. by exists P.
    - assert (Hlr : ∀ ol, (∀ L, ol = Some L → rd_pred o = Some L ∨ rd_succ o = Some L) → ∃ b, link_ready (od_roads (h_odr h !!! d)) ol h = (Ok b, h)).
      { intros [L|] HL; [|by eexists]. apply (os_link_ready h ord L HI). by apply Hres, HL. }
      destruct (Hlr (rd_pred o)) as [bp Ep]; [by left|]. rewrite (bind_run _ _ _ _ _ Ep).
      apply (link_ready_ok h0 d h ord) in Ep as (_ & Hbp & _); [|done]. destruct bp.
      + destruct Hbp as [Hbp _]. destruct (Hbp eq_refl) as (L & HL & Het & Hin). rewrite HL.
        destruct (Hres L (or_introl HL)) as [_ [?|Hc]]; [done|].
        destruct (Hpred L HL Het Hc Hin) as (n & h' & E & Ht); [intros _ S HS; by apply Hres; right|]. exists n, h'. split; [exact E|]. done.
      + assert (Hno : ∀ P, rd_pred o = Some P → lk_etype P ≠ Some et_junction → pystr (lk_id P) ∉ ord).
        { intros P HP Hty Hin. destruct Hbp as [_ Hbp]. discriminate Hbp. by exists P. }
        destruct (Hlr (rd_succ o)) as [bs Es]; [by right|]. rewrite (bind_run _ _ _ _ _ Es).
        apply (link_ready_ok h0 d h ord) in Es as (_ & Hbs & _); [|done].
        destruct bs; [|eexists _, _; split; [done|]; intros P HP Hty Hin; by destruct (Hno P HP Hty)]. destruct Hbs as [Hbs _]. destruct (Hbs eq_refl) as (L & HL & Het & Hin). rewrite HL.
        destruct (Hres L (or_intror HL)) as [_ [?|Hc]]; [done|]. destruct (lk_contact L) as [c|] eqn:Ec; [|done].
        destruct (awn_run h0 d WE h ord k _ o c false HI Ho Hin) as [h1 E1]. rewrite (bind_run _ _ _ _ _ E1).
        destruct (os_other_pred h1 (ord ++ [k]) k o) as (n & h2 & E2); try done.
        { apply (Hplace h1 false L); try done. by rewrite Ec. }
        { intros P HP. by apply Hres; left. }
        rewrite (bind_run _ _ _ _ _ E2). eexists _, _. split; [done|]. intros P HP Hty HinP. by destruct (Hno P HP Hty).
  Qed.

  Context (Hos : one_sweep h0 d).

  Lemma os_sweep ks : ∀ i h ord, drop i (net_keys h0 d) = ks → RInv h0 d h ord → (∀ x, in_time h0 d x i → x ∈ ord) →
    ∃ n h' ext, sweep d ks h = (Ok n, h') ∧ RInv h0 d h' (ord ++ ext) ∧ n = length ext ∧ ∀ x, in_time h0 d x (i + length ks) → x ∈ ord ++ ext.
  Proof.
    induction ks as [|k ks IH]; intros i h ord Hdrop HR Ht; cbn [sweep].
    - exists 0, h, []. rewrite app_nil_r. split; [done|]. split; [done|]. split; [done|]. intros x Hx. apply Ht. by rewrite Nat.add_0_r in Hx.
    - assert (Hi : net_keys h0 d !! i = Some k). { rewrite -(Nat.add_0_r i) -lookup_drop Hdrop //. }
      assert (is_Some (R k)) as [o Ho]. { apply (keys_named h0 d). by eapply elem_of_list_lookup_2. }
      assert (Hturn : its_turn ord k o).
      { destruct (os_turn _ _ Hos i k o Hi Ho) as [Hk|[(P & HP & Et & Ec & Hin & Hs)|?]]; [left; by apply Ht| |by right; right].
        right. left. exists P. split_and!; try done. by apply Ht. }
      destruct (os_road h ord k o HR Ho Hturn) as (n1 & h1 & E1 & Hk1). rewrite (bind_run _ _ _ _ _ E1).
      destruct (sweep_road_ok h0 d Hfresh h ord k n1 h1 HR E1) as (e1 & HR1 & -> & _).
      destruct (IH (S i) h1 (ord ++ e1)) as (n2 & h2 & e2 & E2 & HR2 & -> & Ht2); [by rewrite -Nat.add_1_r -drop_drop Hdrop /= drop_0|done|..].
      { apply (in_time_step h0 d Hord h h1 ord (ord ++ e1) i HR HR1); [intros x Hx; apply elem_of_app; by left|done|].
        intros k' o' P Hi' Ho' HP Hty Hin. assert (k' = k) as -> by congruence. assert (o' = o) as -> by congruence.
        apply (there_in h0 d h1 (ord ++ e1) k (ri_inv _ _ _ _ HR1)). by apply (Hk1 P). }
      rewrite (bind_run _ _ _ _ _ E2). eexists _, _, (e1 ++ e2). split; [done|]. rewrite app_assoc. split; [done|]. split; [by rewrite app_length|].
      intros x Hx. apply Ht2. by rewrite /= Nat.add_succ_r in Hx.
  Qed.

  Theorem one_sweep_runs : net_keys h0 d ≠ [] → ∃ h', adjust_startpoints d h0 = (Ok tt, h').
  Proof.
    intros Hne. rewrite adjust_startpoints_split. destruct (first_phase_run h0 d Hfresh WE Hne) as (n & h1 & E1). rewrite (bind_run _ _ _ _ _ E1).
    apply (first_phase_ok h0 d Hfresh) in E1 as (ord & HR & ->).
    assert (H0 : ∀ x, in_time h0 d x 0 → x ∈ ord).
    { intros x Hx. assert (∀ y n, in_time h0 d y n → n = 0 → root h0 d y ∧ is_Some (R y)) as H0.
      { induction 1 as [y n Hr Hs|y n i oy P Hi Hin Hoy HP Hty Hty2 _|c n oc L y Hc IH Hrc Hoc Hty HL Hy]; intros ->; [done|lia|]. by destruct (IH eq_refl) as [? _]. }
      destruct (H0 x 0 Hx eq_refl) as [Hr Hs]. by apply (ri_roots _ _ _ _ HR). }
    pose proof (nf_odr _ _ _ (ni_frame _ _ _ _ (ri_inv _ _ _ _ HR))) as Eo.
    destruct (length (od_roads (h_odr h0 !!! d))) as [|fuel] eqn:El.
    { exfalso. apply Hne. unfold net_keys. by destruct (od_roads (h_odr h0 !!! d)). }
    cbn [place_loop]. unfold get_odr. rewrite bind_gets Eo. destruct (decide _) as [Hd|]; [|by eexists].
    destruct (os_sweep (dict_keys (od_roads (h_odr h0 !!! d))) 0 h1 ord) as (n & h2 & ext & E2 & HR2 & -> & Ht2); [done..|]. rewrite (bind_run _ _ _ _ _ E2).
    assert (Hlen : length ord + length ext = S fuel).
    { assert (Hp : ord ++ ext ≡ₚ net_keys h0 d).
      { apply NoDup_Permutation; [apply (ri_inv _ _ _ _ HR2)|apply Hfresh|]. intros x. split.
        - intros Hx. apply (keys_named h0 d). by apply (ni_keys _ _ _ _ (ri_inv _ _ _ _ HR2)).
        - intros Hx. apply Ht2. simpl. by apply (os_all _ _ Hos). }
      apply Permutation_length in Hp. rewrite app_length in Hp. unfold net_keys in Hp. rewrite map_length El in Hp. done. }
    pose proof (nf_odr _ _ _ (ni_frame _ _ _ _ (ri_inv _ _ _ _ HR2))) as Eo2.
    rewrite decide_False; [rewrite El; intros [? _]; lia|].
    cbn [place_loop]. unfold get_odr. rewrite bind_gets Eo2. rewrite decide_False; [rewrite El; lia|]. by eexists.
  Qed.
End FlowRun.
