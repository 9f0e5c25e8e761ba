(** * adjust_startpoints as a sequence of calls *)
From Coq Require Import ssreflect.
From Verif.Model Require Import Api.
From Verif.Spec Require Import SpecState SpecNetwork SpecByHand.
From Verif.Proof Require Import Monad DictFacts PlanViewFacts NetFrame Network Again Reach Steps History Invariants.
From Verif.Properties Require Import PHistory PFrame.
Local Open Scope general_if_scope.
Local Open Scope nat_scope.

Section ByHand.
  Context {F : Type} `{!Num F}.
  Implicit Types (h : heap F).

  Lemma performs_run (P : heap F → op F → Prop) h cs r h' : performs P h cs r h' → run h cs = h'.
  Proof.
    induction 1 as [h|c e h h' _ E|c cs r h h1 h' _ E H IH]; [done| |].
    - change (run h [c]) with (step c h).2. by rewrite E.
    - change (run h (c :: cs)) with (run (step c h).2 cs). by rewrite E.
  Qed.
  Lemma performs_app (P : heap F → op F → Prop) h c1 h1 c2 r h2 : performs P h c1 None h1 → performs P h1 c2 r h2 → performs P h (c1 ++ c2) r h2.
  Proof.
    remember (None (A := exn)) as o eqn:Eo. intros H. revert Eo. induction H as [h|c e h h' _ E|c cs r' h h1 h' HP E H IH]; intros Eo H2; [done|done|].
    simpl. eapply pf_call; [done|exact E|]. by apply IH.
  Qed.
  Lemma performs_mono (P Q : heap F → op F → Prop) h cs r h' : (∀ h c, P h c → Q h c) → performs P h cs r h' → performs Q h cs r h'.
  Proof. intros HPQ. induction 1; [constructor|econstructor; eauto|econstructor; eauto]. Qed.

  Definition does {A} (P : heap F → op F → Prop) (m : H (F:=F) A) (Q : A → heap F → Prop) h : Prop :=
    reachable h → ∃ cs r, performs P h cs r (m h).2 ∧
      match (m h).1 with Ok a => r = None ∧ Q a (m h).2 | Err e => r = None ∨ r = Some e end.
  Lemma does_bind {A B} (P : heap F → op F → Prop) (m : H (F:=F) A) (k : A → H (F:=F) B) Q Q' h :
    does P m Q h → (∀ a h1, m h = (Ok a, h1) → Q a h1 → does P (k a) Q' h1) → does P (bind m k) Q' h.
  Proof.
    intros Hm Hk Rh. destruct (Hm Rh) as (cs & r & Hp & Hr). unfold bind. destruct (m h) as [[a|e] h1] eqn:E; simpl in *.
    - destruct Hr as [-> HQ]. assert (R1 : reachable h1) by (rewrite -(performs_run _ _ _ _ _ Hp); by apply run_reachable).
      destruct (Hk a h1 eq_refl HQ R1) as (cs2 & r2 & Hp2 & Hr2). exists (cs ++ cs2), r2. split; [by eapply performs_app|done].
    - exists cs, r. done.
  Qed.
  Lemma does_pure {A} (P : heap F → op F → Prop) (m : H (F:=F) A) (Q : A → heap F → Prop) h : Pure m → (∀ a, m h = (Ok a, h) → Q a h) → does P m Q h.
  Proof.
    intros Hp HQ _. exists [], None. pose proof (Hp h) as E. rewrite E. split; [constructor|]. destruct (m h) as [[a|e] h1]; simpl in *; subst; auto.
  Qed.
  Lemma does_gets {A B} (P : heap F → op F → Prop) (f : heap F → A) (k : A → H (F:=F) B) Q h : does P (k (f h)) Q h → does P (bind (gets f) k) Q h.
  Proof. done. Qed.
  Lemma does_ret {A} (P : heap F → op F → Prop) (a : A) (Q : A → heap F → Prop) h : Q a h → does P (ret a) Q h.
  Proof. intros HQ _. exists [], None. split; [constructor|done]. Qed.
  Lemma does_raise {A} (P : heap F → op F → Prop) e (Q : A → heap F → Prop) h : does P (raise e) Q h.
  Proof. intros _. exists [], None. split; [constructor|by left]. Qed.
  (* one call *)
  Lemma does_call (P : heap F → op F → Prop) (m : H (F:=F) unit) c (Q : unit → heap F → Prop) h : P h c → (reachable h → step c h = as_unit m h) →
    (∀ h1, m h = (Ok tt, h1) → Q tt h1) → does P m Q h.
  Proof.
    intros HP Hc HQ Rh. specialize (Hc Rh). destruct (m h) as [[[]|e] h1] eqn:E; simpl.
    - rewrite (as_unit_ok m h h1 E) in Hc. exists [c], None. split; [|auto]. eapply pf_call; [done|exact Hc|constructor].
    - rewrite (as_unit_err m h h1 e E) in Hc. exists [c], (Some e). split; [|auto]. by eapply pf_raised.
  Qed.

  Section Place.
    Context (d : ref).
    Notation D_ := (does (λ h, placing_call h d)).

    Lemma nf_exists h h' : net_frame d h h' → exists_in h_odr h d → exists_in h_odr h' d.
    Proof. intros H. unfold exists_in. by rewrite (nf_odr _ _ _ H). Qed.
    Lemma road_pv_exists h k o : reachable h → road_named h d k = Some o → exists_in h_odr h d → exists_in h_pv h (rd_planview o).
    Proof.
      intros Rh Ho Hd. apply reachable_no_dangling in Rh. unfold road_named in Ho. destruct (dict_get _ k) as [x|] eqn:E; [|done]. injection Ho as <-.
      apply nd_road_pv; [done|]. by eapply nd_odr_road.
    Qed.
    (* laying out a root *)
    Lemma does_root k o h : root h d k → road_named h d k = Some o → exists_in h_odr h d →
      D_ (adjust_geometries (rd_planview o) false) (λ _ h', net_frame d h h') h.
    Proof.
      intros Hr Ho Hd. apply (does_call _ _ (OpAdjustGeometries (rd_planview o) false)).
      - by exists k, o.
      - intros Rh. unfold step. rewrite guarded_true //. by apply has_true, (road_pv_exists h k).
      - intros h1 E. change h1 with (Ok tt, h1).2. rewrite -E. by eapply nf_adjust.
    Qed.
    (* placing a road at another one *)
    Lemma does_awn k k2 (o o2 : road) cp (b : bool) h : road_named h d k = Some o → road_named h d k2 = Some o2 → exists_in h_odr h d →
      pv_adjusted (view h o) = false → pv_adjusted (view h o2) = true →
      linked_to_place o o2 k k2 cp (if b then "predecessor" else "successor") →
      D_ (adjust_road_wrt_neighbour d k k2 cp b) (λ _ h', net_frame d h h' ∧ pv_adjusted (view h' o) = true) h.
    Proof.
      intros Ho Ho2 Hd Ha Ha2 Hl. apply (does_call _ _ (OpAdjustRoadWrt d (PStr k) (PStr k2) cp (if b then "predecessor" else "successor"))).
      - split; [done|]. by exists o, o2.
      - intros Rh. unfold step. rewrite guarded_true; [by apply has_true|]. unfold adjust_road_wrt. by destruct b.
      - intros h1 E. split; [change h1 with (Ok tt, h1).2; rewrite -E; apply nf_awn|].
        unfold adjust_road_wrt_neighbour in E. mstep E. apply bind_ok in E as (mr & h2 & E1 & E). apply or_raise_ok in E1 as [Hmr ->]. mstep E.
        assert (Eo : h_road h !!! mr = o). { unfold road_named in Ho. rewrite Hmr in Ho. simpl in Ho. by injection Ho. } rewrite Eo in E.
        apply bind_ok in E as (npv & h2 & _ & E). apply bind_ok in E as (q & h3 & _ & E). destruct (if b then shift_pred _ _ else _) as [[x y] hd].
        apply bind_ok in E as ([] & h4 & _ & E). destruct b; simpl in E.
        + by apply adjust_forward_spec in E as (?&?&?&?&?&?&?&?&?&?).
        + by apply adjust_backward_spec in E as (?&?&?&?&?&?&?&?&?&?&?).
    Qed.
    Lemma lta_named h L b h' : link_target_adjusted (od_roads (h_odr h !!! d)) L h = (Ok b, h') →
      ∃ o, road_named h d (pystr (lk_id L)) = Some o ∧ b = pv_adjusted (view h o).
    Proof.
      intros E. unfold link_target_adjusted in E. apply bind_ok in E as (pv & h1 & E1 & E). apply planview_at_ok in E1 as (-> & o & Ho & ->).
      mstep E. mleaf E. by exists o.
    Qed.
    Lemma named_same h h' k : net_frame d h h' → road_named h' d k = road_named h d k.
    Proof. intros H. unfold road_named. by rewrite (nf_odr _ _ _ H) (nf_road _ _ _ H). Qed.

    Lemma does_other_succ h k o : road_named h d k = Some o → pv_adjusted (view h o) = true → exists_in h_odr h d →
      D_ (place_other_succ d k (rd_type o) (rd_succ o)) (λ _ h', net_frame d h h') h.
    Proof.
      intros Ho Ha Hd. unfold place_other_succ. destruct (rd_succ o) as [L|] eqn:HL; [|by apply does_ret].
      destruct (bool_decide_reflect (rd_type o = (-1)%Z)) as [|Hty]; [by apply does_ret|]. apply does_gets.
      eapply (does_bind _ _ _ (λ b h', h' = h)); [apply does_pure; [apply pure_lta|done]|]. intros b h1 E ->.
      destruct (lta_named _ _ _ _ E) as (os & Hos & ->). destruct (pv_adjusted (view h os)) eqn:Hs; [by apply does_ret|].
      eapply does_bind; [apply (does_awn _ _ os o); try done|intros ? ? _ [H _]; by apply does_ret].
      right. right. left. exists L. split_and!; try done. by destruct (bool_decide_reflect (lk_contact L = Some cp_start)), (decide (lk_contact L = Some cp_start)).
    Qed.
    Lemma does_other_pred h k o : road_named h d k = Some o → pv_adjusted (view h o) = true → exists_in h_odr h d →
      D_ (place_other_pred d k (rd_type o) (rd_pred o)) (λ _ h', net_frame d h h') h.
    Proof.
      intros Ho Ha Hd. unfold place_other_pred. destruct (rd_pred o) as [L|] eqn:HL; [|by apply does_ret].
      destruct (bool_decide_reflect (rd_type o = (-1)%Z)) as [|Hty]; [by apply does_ret|]. apply does_gets.
      eapply (does_bind _ _ _ (λ b h', h' = h)); [apply does_pure; [apply pure_lta|done]|]. intros b h1 E ->.
      destruct (lta_named _ _ _ _ E) as (os & Hos & ->). destruct (pv_adjusted (view h os)) eqn:Hs; [by apply does_ret|].
      eapply does_bind; [apply (does_awn _ _ os o); try done|intros ? ? _ [H _]; by apply does_ret].
      right. right. right. exists L. split_and!; try done. by destruct (bool_decide_reflect (lk_contact L = Some cp_start)), (decide (lk_contact L = Some cp_start)).
    Qed.
    Lemma link_ready_named h ol h' : link_ready (od_roads (h_odr h !!! d)) ol h = (Ok true, h') →
      ∃ L o, ol = Some L ∧ lk_etype L ≠ Some et_junction ∧ road_named h d (pystr (lk_id L)) = Some o ∧ pv_adjusted (view h o) = true.
    Proof.
      intros E. unfold link_ready in E. destruct ol as [L|]; [|done]. apply bind_ok in E as (b & h1 & E1 & E). destruct (lta_named _ _ _ _ E1) as (o & Ho & ->).
      injection E as E _. apply andb_true_iff in E as [E1' E2]. apply negb_true_iff, bool_decide_eq_false in E2. by exists L, o.
    Qed.
    Lemma does_sweep_road k h : exists_in h_odr h d → D_ (sweep_road d k) (λ _ h', net_frame d h h') h.
    Proof.
      intros Hd. unfold sweep_road. apply does_gets.
      eapply (does_bind _ _ _ (λ r h', h' = h ∧ dict_get (od_roads (h_odr h !!! d)) k = Some r)).
      { apply does_pure; [apply pure_or_raise|]. intros r E. unfold road_at in E. by apply or_raise_ok in E as [? _]. }
      intros r h1 _ [-> Hr]. apply does_gets, does_gets. set (o := h_road h !!! r). assert (Ho : road_named h d k = Some o) by (unfold road_named; by rewrite Hr).
      rewrite -/(view h o). destruct (pv_adjusted (view h o)) eqn:Ha; [by apply does_ret|].
      eapply (does_bind _ _ _ (λ b h', h' = h)); [apply does_pure; [apply pure_link_ready|done]|]. intros [] h1 E ->.
      - destruct (link_ready_named _ _ _ E) as (L & o2 & HL & Ht & Ho2 & Ha2). rewrite {1}HL.
        eapply does_bind; [apply (does_awn _ _ o o2); try done|].
        { left. exists L. done. }
        intros _ h1 _ [N1 Ha1]. eapply does_bind; [apply does_other_succ; [by rewrite (named_same _ _ _ N1)|done|by eapply nf_exists]|].
        intros n h2 _ N2. apply does_ret. by etrans.
      - clear E. eapply (does_bind _ _ _ (λ b h', h' = h)); [apply does_pure; [apply pure_link_ready|done]|]. intros [] h1 E ->; [|by apply does_ret].
        destruct (link_ready_named _ _ _ E) as (L & o2 & HL & Ht & Ho2 & Ha2). rewrite {1}HL.
        eapply does_bind; [apply (does_awn _ _ o o2); try done|].
        { right. left. exists L. done. }
        intros _ h1 _ [N1 Ha1]. eapply does_bind; [apply does_other_pred; [by rewrite (named_same _ _ _ N1)|done|by eapply nf_exists]|].
        intros n h2 _ N2. apply does_ret. by etrans.
    Qed.
    Lemma does_sweep ks : ∀ h, exists_in h_odr h d → D_ (sweep d ks) (λ _ h', net_frame d h h') h.
    Proof.
      induction ks as [|k ks IH]; intros h Hd; simpl; [by apply does_ret|].
      eapply does_bind; [by apply does_sweep_road|]. intros n h1 _ N1. eapply does_bind; [apply IH; exact (nf_exists _ _ N1 Hd)|]. intros m h2 _ N2. apply does_ret. exact (transitivity N1 N2).
    Qed.
    Lemma does_place_loop n : ∀ total h, exists_in h_odr h d → D_ (place_loop n d total) (λ _ h', True) h.
    Proof.
      induction n as [|n IH]; intros total h Hd; cbn [place_loop]; apply does_gets; (destruct (decide _); [|by apply does_ret]); [by apply does_raise|].
      eapply does_bind; [by apply does_sweep|]. intros m h1 _ N1. destruct (decide _); [by apply does_raise|]. apply IH. exact (nf_exists _ _ N1 Hd).
    Qed.
    Lemma does_place_fixed ks : ∀ h, exists_in h_odr h d →
      D_ (place_fixed d ks) (λ n h', net_frame d h h' ∧ (n = 0 → h' = h ∧ ∀ k o, k ∈ ks → road_named h d k = Some o → pv_fixed (view h o) = false)) h.
    Proof.
      induction ks as [|k ks IH]; intros h Hd; simpl.
      { apply does_ret. split; [done|]. intros _. split; [done|]. intros k o Hk. by apply elem_of_nil in Hk. }
      apply does_gets. eapply (does_bind _ _ _ (λ pv h', h' = h ∧ ∃ o, road_named h d k = Some o ∧ pv = rd_planview o)).
      { apply does_pure; [apply pure_planview_at|]. intros pv E. apply planview_at_ok in E. done. }
      intros pv h1 _ (-> & o & Ho & ->). apply does_gets. rewrite -/(view h o). destruct (pv_fixed (view h o)) eqn:Hf.
      - eapply does_bind; [apply (does_root k o); [|done|done]; left; by exists o|]. intros ? h1 _ N1.
        eapply does_bind; [apply IH; exact (nf_exists _ _ N1 Hd)|]. intros n h2 _ [N2 _]. apply does_ret. split; [exact (transitivity N1 N2)|done].
      - intros Rh. destruct (IH h Hd Rh) as (cs & r & Hp & Hr). exists cs, r. split; [done|]. destruct (place_fixed d ks h) as [[n|e] h1]; simpl in *; [|done].
        destruct Hr as [-> [N1 H0]]. split; [done|]. split; [done|]. intros En. destruct (H0 En) as [-> HF]. split; [done|].
        intros k' o' [->|Hk]%elem_of_cons Ho'; [congruence|by eapply HF].
    Qed.
    Theorem does_startpoints h : exists_in h_odr h d → D_ (adjust_startpoints d) (λ _ _, True) h.
    Proof.
      intros Hd. unfold adjust_startpoints. apply does_gets. eapply does_bind; [by apply does_place_fixed|]. intros n h1 _ [N1 H0].
      eapply (does_bind _ _ _ (λ _ h', net_frame d h h')); [|intros total h2 _ N2; apply does_place_loop; exact (nf_exists _ _ N2 Hd)].
      destruct n as [|n]; [|by apply does_ret]. destruct (H0 eq_refl) as [-> HF]. clear H0.
      eapply (does_bind _ _ _ (λ k h', h' = h ∧ head (net_keys h d) = Some k)).
      { apply does_pure; [apply pure_or_raise|]. intros k E. by apply or_raise_ok in E as [? _]. }
      intros k h1 _ [-> Hk]. eapply (does_bind _ _ _ (λ pv h', h' = h ∧ ∃ o, road_named h d k = Some o ∧ pv = rd_planview o)).
      { apply does_pure; [apply pure_planview_at|]. intros pv E. apply planview_at_ok in E. done. }
      intros pv h1 _ (-> & o & Ho & ->). eapply does_bind; [apply (does_root k o); [|done|done]|intros ? h1 _ N2; apply does_ret; exact N2].
      right. split; [|done]. intros k' (o' & Ho' & Hf). rewrite (HF k' o') // in Hf. apply (keys_named h d). by eexists.
    Qed.

    (** *** linking the lanes *)
    Definition named_ref (roads : dict ref) (k : string) : ref := default 0 (dict_get roads k).
    Definition link_call (roads : dict ref) (kk : string * string) : op F := OpCreateLaneLinks (named_ref roads kk.1) (named_ref roads kk.2).
    Lemma links_perform roads kks : ∀ h, reachable h → exists_in h_odr h d → od_roads (h_odr h !!! d) = roads →
      (∀ kk, kk ∈ kks → is_Some (dict_get roads kk.1) ∧ is_Some (dict_get roads kk.2)) →
      let m := for_each (λ kk : string * string, let! r1 := road_at roads kk.1 in let! r2 := road_at roads kk.2 in create_lane_links r1 r2) kks in
      ∃ n r, performs (λ h, linking_call h d) h (take n (map (link_call roads) kks)) r (m h).2 ∧
        match (m h).1 with Ok _ => r = None ∧ n = length kks | Err e => r = Some e end.
    Proof.
      induction kks as [|[k1 k2] kks IH]; intros h Rh Hd Er Hk; cbn zeta; [exists 0, None; split; [constructor|done]|].
      destruct (Hk (k1, k2)) as [[r1 H1] [r2 H2]]; [apply elem_of_list_here|]. simpl in H1, H2.
      set (f := λ kk : string * string, _) in *.
      assert (Ef : f (k1, k2) h = create_lane_links r1 r2 h) by (unfold f, road_at; simpl; by rewrite H1 H2). cbn [for_each].
      assert (Hc : link_call roads (k1, k2) = OpCreateLaneLinks r1 r2) by (unfold link_call, named_ref; simpl; by rewrite H1 H2).
      assert (He : exists_in h_road h r1 ∧ exists_in h_road h r2).
      { apply reachable_no_dangling in Rh. rewrite -Er in H1 H2. split; by eapply nd_odr_road. }
      assert (Es : step (OpCreateLaneLinks r1 r2) h = as_unit (create_lane_links r1 r2) h).
      { unfold step. rewrite guarded_true //. destruct He. by rewrite !has_true. }
      assert (HP : linking_call h d (OpCreateLaneLinks r1 r2)) by (exists k1, k2; by rewrite Er).
      pose proof (lo_create_lane_links r1 r2 h) as Lo. destruct (create_lane_links r1 r2 h) as [[[]|e] h1] eqn:E.
      - rewrite (bind_run _ _ _ _ _ Ef). simpl in Lo. rewrite (as_unit_ok _ _ _ E) in Es.
        destruct (IH h1) as (n & r & Hp & Hr).
        { change h1 with (Ok (RNone (F:=F)), h1).2. rewrite -Es. by apply reachable_step. }
        { unfold exists_in. unfold lanes_only in Lo. rewrite Lo. done. }
        { unfold lanes_only in Lo. rewrite Lo. done. }
        { intros kk Hkk. apply Hk. by apply elem_of_list_further. }
        exists (S n), r. cbn [map take]. rewrite Hc. split; [by eapply pf_call|]. destruct (for_each f kks h1) as [[]]; simpl in *; [|done]. destruct Hr as [-> ->]. done.
      - rewrite (bind_run_err _ _ _ _ _ Ef) (as_unit_err _ _ _ _ E) in Es |- *. exists 1, (Some e). cbn [map take]. rewrite Hc take_0. split; [by eapply pf_raised|done].
    Qed.
  End Place.
End ByHand.
