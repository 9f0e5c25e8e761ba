(** Frame and exceptions of adjust_startpoints *)
From Coq Require Import ssreflect.
From Verif.Model Require Import Api.
From Verif.Spec Require Import SpecNetwork.
From Verif.Proof Require Import Monad DictFacts PlanViewFacts.
Local Open Scope general_if_scope.

(** [Raises E m]: [m] raises only exceptions in [E] *)
Definition Raises {S A} (E : exn → Prop) (m : M S A) : Prop := ∀ s e s', m s = (Err e, s') → E e.
Section Raises.
  Context {S : Type} (E : exn → Prop).
  Lemma raises_ret {A} (a : A) : Raises (S:=S) E (ret a). Proof. intros ??? [=]. Qed.
  Lemma raises_gets {A} (f : S → A) : Raises E (gets f). Proof. intros ??? [=]. Qed.
  Lemma raises_modify (f : S → S) : Raises E (modify f). Proof. intros ??? [=]. Qed.
  Lemma raises_raise {A} e : E e → Raises (S:=S) (A:=A) E (raise e). Proof. intros ???? [= <- _]. done. Qed.
  Lemma raises_lift {A} (r : res A) : (∀ e, r = Err e → E e) → Raises (S:=S) E (lift r).
  Proof. intros H ??? [= Hr _]. by apply H. Qed.
  Lemma raises_or_raise {A} e (o : option A) : E e → Raises (S:=S) E (or_raise e o).
  Proof. intros H. destruct o; [apply raises_ret|by apply raises_raise]. Qed.
  Lemma raises_bind {A B} (m : M S A) (k : A → M S B) : Raises E m → (∀ a, Raises E (k a)) → Raises E (bind m k).
  Proof. intros Hm Hk s e s' H. apply bind_err in H as [H|(a & s1 & _ & H)]; [by eapply Hm|by eapply Hk]. Qed.
  Lemma raises_for_each {A} (f : A → M S unit) l : (∀ x, Raises E (f x)) → Raises E (for_each f l).
  Proof. intros H. induction l; simpl; [apply raises_ret|apply raises_bind; auto]. Qed.
End Raises.

Section NetFrame.
  Context {F : Type} `{!Num F}.
  Notation pose := (F * F * F)%type.
  Local Arguments geom_end : simpl never.
  Local Arguments geom_start : simpl never.

  (** the exceptions placement can raise, besides UndefinedRoadNetwork *)
  Definition place_exn (e : exn) : Prop :=
    e = TypeError ∨ e = IndexError ∨ e = ZeroDivisionError ∨ e = KeyError ∨ e = UnboundLocalError.

  Lemma geom_end_raises (g : geom F) x y hd e : (geom_end g x y hd).1 = Err e → place_exn e.
  Proof.
    unfold place_exn. destruct g as [l|cs ce [l|]|c l a|]; unfold geom_end; simpl; try naive_solver.
    - unfold spiral_eval, euler_create. destruct (fiszero l); simpl; naive_solver.
    - unfold arc_eval. repeat case_match; simpl; naive_solver.
    - unfold poly_param. repeat case_match; simpl; naive_solver.
  Qed.
  Lemma geom_start_raises (g : geom F) x y hd e : (geom_start g x y hd).1 = Err e → place_exn e.
  Proof.
    unfold place_exn. destruct g as [l|cs ce [l|]|c l a|]; unfold geom_start; simpl; try naive_solver.
    - unfold spiral_eval, euler_create. destruct (fiszero l); simpl; naive_solver.
    - unfold arc_eval. repeat case_match; simpl; naive_solver.
    - unfold poly_param. repeat case_match; simpl; naive_solver.
  Qed.

  Ltac exn := unfold place_exn; naive_solver.
  Lemma raises_eval_end g x y hd : Raises place_exn (eval_end (F:=F) g x y hd).
  Proof.
    apply raises_bind; [apply raises_gets|intros o].
    destruct (geom_end o x y hd) as [r o'] eqn:E. apply raises_bind; [apply raises_modify|intros _].
    apply raises_lift. intros e ->. apply (geom_end_raises o x y hd). by rewrite E.
  Qed.
  Lemma raises_eval_start g x y hd : Raises place_exn (eval_start (F:=F) g x y hd).
  Proof.
    apply raises_bind; [apply raises_gets|intros o].
    destruct (geom_start o x y hd) as [r o'] eqn:E. apply raises_bind; [apply raises_modify|intros _].
    apply raises_lift. intros e ->. apply (geom_start_raises o x y hd). by rewrite E.
  Qed.

  Ltac rz :=
    repeat first
      [ apply raises_eval_end | apply raises_eval_start | apply raises_ret | apply raises_gets | apply raises_modify
      | apply raises_raise; exn | apply raises_or_raise; exn
      | apply raises_bind; [|intros ?] ].

  Lemma raises_adjust_forward pv gs : ∀ i, Raises place_exn (adjust_forward (F:=F) pv i gs).
  Proof.
    induction gs as [|g gs IH]; intros i; simpl; [rz|].
    apply raises_bind; [rz|intros p]. apply raises_bind; [destruct (decide _); rz|intros _].
    apply raises_bind; [rz|intros p']. apply raises_bind; [unfold pgeom_init; rz|intros ng].
    apply raises_bind; [unfold pgeom_end; rz|intros [[[x y] hd] l]]. rz. apply IH.
  Qed.
  Lemma raises_adjust_backward pv gs : Raises place_exn (adjust_backward (F:=F) pv gs).
  Proof.
    induction gs as [|g gs IH]; simpl; [rz|].
    apply raises_bind; [rz|intros p]. apply raises_bind; [unfold pgeom_init; rz|intros ng].
    apply raises_bind; [|intros [[[[x y] hd] l] ng']].
    { unfold pgeom_start. apply raises_bind; [rz|intros [[[x y] hd] l]]. rz. }
    rz. apply IH.
  Qed.
  Lemma raises_assign_s pv ls : Raises place_exn (assign_s (F:=F) pv ls).
  Proof. induction ls as [|l ls IH]; simpl; rz. apply IH. Qed.
  Lemma raises_adjust_geometries pv b : Raises place_exn (adjust_geometries (F:=F) pv b).
  Proof.
    unfold adjust_geometries. apply raises_bind; [|intros _; rz]. destruct b; simpl.
    - apply raises_bind; [rz|intros _]. apply raises_bind; [rz|intros p].
      apply raises_bind; [apply raises_adjust_backward|intros ls]. rz. apply raises_assign_s.
    - apply raises_bind; [rz|intros _]. apply raises_bind; [rz|intros p].
      apply raises_bind; [apply raises_adjust_forward|intros ls]. rz.
  Qed.

  Lemma raises_planview_at roads k : Raises place_exn (planview_at (F:=F) roads k).
  Proof. unfold planview_at, road_at. rz. Qed.
  Lemma raises_awn d k k2 cp b : Raises place_exn (adjust_road_wrt_neighbour (F:=F) d k k2 cp b).
  Proof.
    unfold adjust_road_wrt_neighbour. apply raises_bind; [rz|intros D].
    apply raises_bind; [unfold road_at; rz|intros mr]. apply raises_bind; [rz|intros m].
    apply raises_bind; [destruct cp; [apply raises_planview_at|rz]|intros npv].
    apply raises_bind; [|intros q].
    { unfold neighbour_pose. apply raises_bind; [rz|intros p]. destruct cp as [[]|]; rz. destruct a as [[??]?]. rz. }
    destruct (if b then _ else _) as [[x y] hd]. apply raises_bind; [unfold pv_set_start_point; rz|intros _].
    apply raises_adjust_geometries.
  Qed.
  Lemma raises_lta roads k : Raises place_exn (link_target_adjusted (F:=F) roads k).
  Proof. unfold link_target_adjusted. apply raises_bind; [apply raises_planview_at|intros ?]. rz. Qed.
  Lemma raises_link_ready roads o : Raises place_exn (link_ready (F:=F) roads o).
  Proof. unfold link_ready. destruct o; [|rz]. apply raises_bind; [apply raises_lta|intros ?]. rz. Qed.
  Lemma raises_place_other_succ d k ty o : Raises place_exn (place_other_succ (F:=F) d k ty o).
  Proof.
    unfold place_other_succ. destruct o; [|rz]. destruct (bool_decide _); [rz|].
    apply raises_bind; [rz|intros D]. apply raises_bind; [apply raises_lta|intros []]; [rz|].
    apply raises_bind; [apply raises_awn|intros _]. rz.
  Qed.
  Lemma raises_place_other_pred d k ty o : Raises place_exn (place_other_pred (F:=F) d k ty o).
  Proof.
    unfold place_other_pred. destruct o; [|rz]. destruct (bool_decide _); [rz|].
    apply raises_bind; [rz|intros D]. apply raises_bind; [apply raises_lta|intros []]; [rz|].
    apply raises_bind; [apply raises_awn|intros _]. rz.
  Qed.
  Lemma raises_sweep_road d k : Raises place_exn (sweep_road (F:=F) d k).
  Proof.
    unfold sweep_road. apply raises_bind; [rz|intros D]. apply raises_bind; [unfold road_at; rz|intros r].
    apply raises_bind; [rz|intros o]. apply raises_bind; [rz|intros p]. destruct (pv_adjusted p); [rz|].
    apply raises_bind; [apply raises_link_ready|intros []].
    - destruct (rd_pred o); [|rz]. apply raises_bind; [apply raises_awn|intros _].
      apply raises_bind; [apply raises_place_other_succ|intros ?]. rz.
    - apply raises_bind; [apply raises_link_ready|intros []]; [|rz].
      destruct (rd_succ o); [|rz]. apply raises_bind; [apply raises_awn|intros _].
      apply raises_bind; [apply raises_place_other_pred|intros ?]. rz.
  Qed.
  Lemma raises_sweep d ks : Raises place_exn (sweep (F:=F) d ks).
  Proof.
    induction ks as [|k ks IH]; simpl; [rz|]. apply raises_bind; [apply raises_sweep_road|intros n].
    apply raises_bind; [apply IH|intros m]. rz.
  Qed.
  Lemma raises_place_fixed d ks : Raises place_exn (place_fixed (F:=F) d ks).
  Proof.
    induction ks as [|k ks IH]; simpl; [rz|]. apply raises_bind; [rz|intros D].
    apply raises_bind; [apply raises_planview_at|intros pv]. apply raises_bind; [rz|intros p].
    destruct (pv_fixed p); [|apply IH].
    apply raises_bind; [apply raises_adjust_geometries|intros _]. apply raises_bind; [apply IH|intros n]. rz.
  Qed.

  (** ** The frame *)
  Record net_frame (d : ref) (h h' : heap F) : Prop := {
    nf_geom : ∀ g, evolves (h_geom h !!! g) (h_geom h' !!! g);
    nf_pv : ∀ r, (∀ k o, road_named h d k = Some o → rd_planview o ≠ r) → h_pv h' !!! r = h_pv h !!! r;
    nf_same : ∀ r, pv_same (h_pv h !!! r) (h_pv h' !!! r);
    nf_adj : ∀ r, pv_adjusted (h_pv h !!! r) = true → pv_adjusted (h_pv h' !!! r) = true;
    nf_lane : h_lane h' = h_lane h;
    nf_sec : h_sec h' = h_sec h;
    nf_lanes : h_lanes h' = h_lanes h;
    nf_linker : h_linker h' = h_linker h;
    nf_conn : h_conn h' = h_conn h;
    nf_junc : h_junc h' = h_junc h;
    nf_obj : h_obj h' = h_obj h;
    nf_road : h_road h' = h_road h;
    nf_odr : h_odr h' = h_odr h;
    nf_ids : h_ids h' = h_ids h;
    nf_next : h_next h' = h_next h
  }.

  Lemma road_named_frame (h h' : heap F) d k : h_road h' = h_road h → h_odr h' = h_odr h → road_named h' d k = road_named h d k.
  Proof. intros E1 E2. unfold road_named. by rewrite E1 E2. Qed.

  #[global] Instance net_frame_preorder d : PreOrder (net_frame d).
  Proof.
    split.
    - intros h. split; try done. intros g. constructor.
    - intros h1 h2 h3 A B. destruct A, B. split; try congruence.
      + intros g. by eapply evolves_trans.
      + intros r Hr. rewrite nf_pv1; [|by apply nf_pv0]. intros k o Hk. rewrite (road_named_frame h1) // in Hk. by eapply Hr.
      + intros r. destruct (nf_same0 r) as (?&?&?), (nf_same1 r) as (?&?&?). repeat split; congruence.
      + auto.
  Qed.

  (** adjusting keeps "adjusted" *)
  Lemma adj_mono_adjust pv b r : Pres (λ h h', pv_adjusted (h_pv h !!! r) = true → pv_adjusted (h_pv h' !!! r) = true) (adjust_geometries (F:=F) pv b).
  Proof.
    set (R := λ h h' : heap F, pv_adjusted (h_pv h !!! r) = true → pv_adjusted (h_pv h' !!! r) = true).
    assert (PreOrder R) by (unfold R; split; [intros ??|intros ?????]; auto).
    assert (Hupd : ∀ f, (∀ p, pv_adjusted p = true → pv_adjusted (f p) = true) → Pres R (upd_pv pv f)).
    { intros f Hf h. unfold R, upd_pv, modify. simpl. destruct (decide (pv = r)) as [->|Hne].
      - rewrite ltm_insert. apply Hf.
      - by rewrite ltm_insert_ne. }
    assert (Hee : ∀ g x y hd, Pres R (eval_end g x y hd)).
    { intros g x y hd h. unfold eval_end, get_geom, gets, bind. simpl. destruct (geom_end _ _ _ _) as [? ?]; intros ?; done. }
    assert (Hes : ∀ g x y hd, Pres R (eval_start g x y hd)).
    { intros g x y hd h. unfold eval_start, get_geom, gets, bind. simpl. destruct (geom_start _ _ _ _) as [? ?]; intros ?; done. }
    assert (Hf : ∀ gs i, Pres R (adjust_forward pv i gs)).
    { induction gs as [|g gs IH]; intros i; simpl; [apply pres_ret, _|].
      apply pres_bind; [apply _|apply pres_gets, _|intros p]. apply pres_bind; [apply _| |intros _].
      { destruct (decide _); [|apply pres_ret, _]. apply pres_bind; [apply _|apply pres_or_raise, _|intros ?]. by apply Hupd. }
      apply pres_bind; [apply _|apply pres_gets, _|intros p'].
      apply pres_bind; [apply _| |intros ng].
      { apply pres_bind; [apply _|apply Hee|intros ?; apply pres_ret, _]. }
      apply pres_bind; [apply _|apply Hee|intros [[[x y] hd] l]].
      apply pres_bind; [apply _|by apply Hupd|intros _]. apply pres_bind; [apply _|apply pres_or_raise, _|intros ?].
      apply pres_bind; [apply _|by apply Hupd|intros _]. apply pres_bind; [apply _|by apply Hupd|intros _]. apply IH. }
    assert (Hb : ∀ gs, Pres R (adjust_backward pv gs)).
    { induction gs as [|g gs IH]; simpl; [apply pres_ret, _|].
      apply pres_bind; [apply _|apply pres_gets, _|intros p]. apply pres_bind; [apply _| |intros ng].
      { apply pres_bind; [apply _|apply Hee|intros ?; apply pres_ret, _]. }
      apply pres_bind; [apply _| |intros [[[[x y] hd] l] ng']].
      { apply pres_bind; [apply _|apply Hes|intros [[[x y] hd] l]]. apply pres_ret, _. }
      apply pres_bind; [apply _|by apply Hupd|intros _]. apply pres_bind; [apply _|by apply Hupd|intros _].
      apply pres_bind; [apply _|apply IH|intros ?]. apply pres_ret, _. }
    assert (Ha : ∀ ls, Pres R (assign_s pv ls)).
    { induction ls as [|l ls IH]; simpl; [apply pres_ret, _|].
      apply pres_bind; [apply _|by apply Hupd|intros _]. apply pres_bind; [apply _|by apply Hupd|intros _]. apply IH. }
    unfold adjust_geometries. apply pres_bind; [apply _| |intros _; by apply Hupd]. destruct b; simpl.
    - apply pres_bind; [apply _|by apply Hupd|intros _]. apply pres_bind; [apply _|apply pres_gets, _|intros p].
      apply pres_bind; [apply _|apply Hb|intros ls]. apply pres_bind; [apply _|by apply Hupd|intros _].
      apply pres_bind; [apply _|apply pres_or_raise, _|intros ?]. apply pres_bind; [apply _|by apply Hupd|intros _]. apply Ha.
    - apply pres_bind; [apply _|by apply Hupd|intros _]. apply pres_bind; [apply _|apply pres_gets, _|intros p].
      apply pres_bind; [apply _|apply Hf|intros ls]. by apply Hupd.
  Qed.

  Lemma geo_net_frame d k o (h h' : heap F) :
    road_named h d k = Some o → geo_frame (rd_planview o) h h' →
    (pv_adjusted (h_pv h !!! rd_planview o) = true → pv_adjusted (h_pv h' !!! rd_planview o) = true) →
    net_frame d h h'.
  Proof.
    intros Hk Hf Ha. destruct Hf. split; try done.
    - intros r Hr. apply gf_pv. intros ->. by eapply Hr.
    - intros r. destruct (decide (r = rd_planview o)) as [->|Hne]; [done|]. by rewrite gf_pv.
    - intros r. destruct (decide (r = rd_planview o)) as [->|Hne]; [done|]. by rewrite gf_pv.
  Qed.

  Lemma nf_adjust d k o h b : road_named h d k = Some o → net_frame d h (adjust_geometries (rd_planview o) b h).2.
  Proof.
    intros Hk. eapply geo_net_frame; [exact Hk| |].
    - apply gf_adjust_geometries.
    - apply adj_mono_adjust.
  Qed.

  (** [pres] with knowledge of the state *)
  Lemma nf_bind {A B} d (m : H (F:=F) A) (k : A → H (F:=F) B) h :
    net_frame d h (m h).2 → (∀ a h1, m h = (Ok a, h1) → net_frame d h1 (k a h1).2) → net_frame d h (bind m k h).2.
  Proof.
    intros Hm Hk. unfold bind. destruct (m h) as [[a|e] h1] eqn:E; simpl in *; [|done].
    etrans; [exact Hm|by apply Hk].
  Qed.
  Lemma nf_pure {A} d (m : H (F:=F) A) h : (m h).2 = h → net_frame d h (m h).2.
  Proof. intros ->. reflexivity. Qed.

  (** pure steps *)
  Definition Pure {A} (m : H (F:=F) A) : Prop := ∀ h, (m h).2 = h.
  Lemma pure_eq {A} (m : H (F:=F) A) h r h' : Pure m → m h = (r, h') → h' = h.
  Proof. intros Hm E. specialize (Hm h). by rewrite E in Hm. Qed.
  Lemma pure_bind {A B} (m : H (F:=F) A) (k : A → H (F:=F) B) : Pure m → (∀ a, Pure (k a)) → Pure (bind m k).
  Proof. intros Hm Hk h. unfold bind. specialize (Hm h). destruct (m h) as [[a|e] h1]; simpl in *; subst; [apply Hk|done]. Qed.
  Lemma pure_gets {A} (f : heap F → A) : Pure (gets f). Proof. done. Qed.
  Lemma pure_ret {A} (a : A) : Pure (ret a). Proof. done. Qed.
  Lemma pure_raise {A} e : Pure (A:=A) (raise e). Proof. done. Qed.
  Lemma pure_or_raise {A} e (o : option A) : Pure (or_raise e o). Proof. by destruct o. Qed.
  Lemma pure_planview_at roads k : Pure (planview_at roads k).
  Proof. apply pure_bind; [apply pure_or_raise|intros r]. apply pure_bind; [apply pure_gets|intros; apply pure_ret]. Qed.
  Lemma pure_neighbour_pose npv cp : Pure (neighbour_pose npv cp).
  Proof.
    apply pure_bind; [apply pure_gets|intros p]. destruct cp as [[]|]; [|apply pure_or_raise|apply pure_raise].
    apply pure_bind; [apply pure_or_raise|intros [[??]?]; apply pure_ret].
  Qed.
  Lemma pure_lta roads k : Pure (link_target_adjusted roads k).
  Proof. apply pure_bind; [apply pure_planview_at|intros pv]. apply pure_bind; [apply pure_gets|intros; apply pure_ret]. Qed.
  Lemma pure_link_ready roads o : Pure (link_ready roads o).
  Proof. destruct o; [|apply pure_ret]. apply pure_bind; [apply pure_lta|intros; apply pure_ret]. Qed.

  Lemma nf_awn d k k2 cp b h : net_frame d h (adjust_road_wrt_neighbour d k k2 cp b h).2.
  Proof.
    unfold adjust_road_wrt_neighbour. apply nf_bind; [by apply nf_pure|]. intros D h1 E. apply gets_eq in E as [[= ->] ->].
    apply nf_bind; [apply nf_pure, pure_or_raise|]. intros mr h1 E. apply or_raise_ok in E as [Hmr ->].
    apply nf_bind; [by apply nf_pure|]. intros m h1 E. apply gets_eq in E as [[= ->] ->].
    apply nf_bind; [apply nf_pure; destruct cp; [apply pure_planview_at|done]|]. intros npv h1 E.
    assert (h1 = h) as -> by (eapply pure_eq; [|exact E]; destruct cp; [apply pure_planview_at|apply pure_raise]).
    apply nf_bind; [apply nf_pure, pure_neighbour_pose|]. intros q h1 E2.
    assert (h1 = h) as -> by (eapply pure_eq; [apply pure_neighbour_pose|exact E2]).
    assert (Hk : road_named h d k = Some (h_road h !!! mr)) by (unfold road_named; by rewrite Hmr).
    destruct (if b then _ else _) as [[x y] hd].
    apply nf_bind.
    - eapply geo_net_frame; [exact Hk|apply gf_set_start|]. simpl. rewrite ltm_insert. done.
    - intros [] h1 E3. assert (Hf : net_frame d h h1).
      { eapply geo_net_frame; [exact Hk|eapply pres_ok; [apply gf_set_start|exact E3]|].
        unfold pv_set_start_point in E3. mleaf E3. rewrite ltm_insert. done. }
      apply (nf_adjust d k). rewrite (road_named_frame h); [apply Hf|apply Hf|done].
  Qed.

  Lemma nf_place_other_succ d k ty o h : net_frame d h (place_other_succ d k ty o h).2.
  Proof.
    unfold place_other_succ. destruct o; [|by apply nf_pure]. destruct (bool_decide _); [by apply nf_pure|].
    apply nf_bind; [by apply nf_pure|]. intros D h1 _. apply nf_bind; [apply nf_pure, pure_lta|].
    intros [] h2 _; [by apply nf_pure|]. apply nf_bind; [apply nf_awn|]. intros _ h3 _. by apply nf_pure.
  Qed.
  Lemma nf_place_other_pred d k ty o h : net_frame d h (place_other_pred d k ty o h).2.
  Proof.
    unfold place_other_pred. destruct o; [|by apply nf_pure]. destruct (bool_decide _); [by apply nf_pure|].
    apply nf_bind; [by apply nf_pure|]. intros D h1 _. apply nf_bind; [apply nf_pure, pure_lta|].
    intros [] h2 _; [by apply nf_pure|]. apply nf_bind; [apply nf_awn|]. intros _ h3 _. by apply nf_pure.
  Qed.
  Lemma nf_sweep_road d k h : net_frame d h (sweep_road d k h).2.
  Proof.
    unfold sweep_road. apply nf_bind; [by apply nf_pure|]. intros D h1 _.
    apply nf_bind; [apply nf_pure, pure_or_raise|]. intros r h2 _.
    apply nf_bind; [by apply nf_pure|]. intros o h3 _. apply nf_bind; [by apply nf_pure|]. intros p h4 _.
    destruct (pv_adjusted p); [by apply nf_pure|].
    apply nf_bind; [apply nf_pure, pure_link_ready|]. intros [] h5 _.
    - destruct (rd_pred o); [|by apply nf_pure]. apply nf_bind; [apply nf_awn|]. intros _ h6 _.
      apply nf_bind; [apply nf_place_other_succ|]. intros n h7 _. by apply nf_pure.
    - apply nf_bind; [apply nf_pure, pure_link_ready|]. intros [] h6 _; [|by apply nf_pure].
      destruct (rd_succ o); [|by apply nf_pure]. apply nf_bind; [apply nf_awn|]. intros _ h7 _.
      apply nf_bind; [apply nf_place_other_pred|]. intros n h8 _. by apply nf_pure.
  Qed.
  Lemma nf_sweep d ks h : net_frame d h (sweep d ks h).2.
  Proof.
    revert h. induction ks as [|k ks IH]; intros h; [by apply nf_pure|simpl].
    apply nf_bind; [apply nf_sweep_road|]. intros n h1 _. apply nf_bind; [apply IH|]. intros m h2 _. by apply nf_pure.
  Qed.
  Lemma nf_place_loop d fuel total h : net_frame d h (place_loop fuel d total h).2.
  Proof.
    revert total h. induction fuel as [|fuel IH]; intros total h; simpl.
    - apply nf_bind; [by apply nf_pure|]. intros D h1 _. destruct (decide _); by apply nf_pure.
    - apply nf_bind; [by apply nf_pure|]. intros D h1 _. destruct (decide _); [|by apply nf_pure].
      apply nf_bind; [apply nf_sweep|]. intros n h2 _. destruct (decide _); [by apply nf_pure|]. apply IH.
  Qed.
  Lemma planview_at_ok d k (h : heap F) pv h' :
    planview_at (od_roads (h_odr h !!! d)) k h = (Ok pv, h') → h' = h ∧ ∃ o, road_named h d k = Some o ∧ pv = rd_planview o.
  Proof.
    unfold planview_at, road_at. intros E. apply bind_ok in E as (r & h1 & E1 & E). apply or_raise_ok in E1 as [Hr ->].
    mstep E. mleaf E. split; [done|]. eexists. split; [|done]. unfold road_named. by rewrite Hr.
  Qed.
  Lemma nf_place_fixed d ks h : net_frame d h (place_fixed d ks h).2.
  Proof.
    revert h. induction ks as [|k ks IH]; intros h; [by apply nf_pure|simpl].
    apply nf_bind; [by apply nf_pure|]. intros D h1 E. apply gets_eq in E as [[= ->] ->].
    apply nf_bind; [apply nf_pure, pure_planview_at|]. intros pv h1 E.
    apply planview_at_ok in E as (-> & o & Hk & ->).
    apply nf_bind; [by apply nf_pure|]. intros p h1 E. apply gets_eq in E as [[= ->] ->].
    destruct (pv_fixed _); [|apply IH].
    apply nf_bind; [by eapply nf_adjust|]. intros _ h1 _. apply nf_bind; [apply IH|]. intros; by apply nf_pure.
  Qed.
  Theorem nf_adjust_startpoints d h : net_frame d h (adjust_startpoints d h).2.
  Proof.
    unfold adjust_startpoints. apply nf_bind; [by apply nf_pure|]. intros D h1 E. apply gets_eq in E as [[= ->] ->].
    apply nf_bind; [apply nf_place_fixed|]. intros n h1 E.
    assert (Hf : net_frame d h h1) by (change h1 with (Ok n, h1).2; rewrite -E; apply nf_place_fixed).
    assert (Hm : net_frame d h1 ((match n with
       | O => let! k := or_raise IndexError (head (dict_keys (od_roads (h_odr h !!! d)))) in
              let! pv := planview_at (od_roads (h_odr h !!! d)) k in
              adjust_geometries pv false ;; ret 1
       | S _ => ret n end) h1).2).
    { destruct n; [|by apply nf_pure]. apply nf_bind; [apply nf_pure, pure_or_raise|]. intros k h2 E2. apply or_raise_ok in E2 as [_ ->].
      apply nf_bind; [apply nf_pure, pure_planview_at|]. intros pv h2 E3.
      rewrite -(nf_odr _ _ _ Hf) in E3. apply planview_at_ok in E3 as (-> & o & Hk & ->).
      apply nf_bind; [by eapply nf_adjust|]. intros; by apply nf_pure. }
    apply nf_bind; [exact Hm|]. intros total h2 _. apply nf_place_loop.
  Qed.

  (** ** Termination *)
  Definition while_exn (e : exn) : Prop := place_exn e ∨ e = UndefinedRoadNetwork.
  Lemma raises_weaken {A} (E E' : exn → Prop) (m : H (F:=F) A) : (∀ e, E e → E' e) → Raises E m → Raises E' m.
  Proof. intros H Hm s e s' Hr. by eapply H, Hm. Qed.

  Lemma place_loop_raises d fuel : ∀ total h e h',
    length (od_roads (h_odr h !!! d)) - total ≤ fuel →
    place_loop fuel d total h = (Err e, h') → while_exn e.
  Proof.
    induction fuel as [|fuel IH]; intros total h e h' Hle Hr; simpl in Hr.
    - apply bind_err in Hr as [Hr|(D & h1 & E & Hr)]; [by mleaf Hr|]. mleaf E.
      destruct (decide _); [lia|]. mleaf Hr.
    - apply bind_err in Hr as [Hr|(D & h1 & E & Hr)]; [by mleaf Hr|]. mleaf E.
      destruct (decide _); [|mleaf Hr].
      apply bind_err in Hr as [Hr|(n & h2 & E & Hr)].
      { left. by eapply raises_sweep. }
      destruct (decide _) as [Hd|Hd]. { mleaf Hr. by right. }
      eapply IH; [|exact Hr].
      assert (Hf : net_frame d h h2) by (change h2 with (Ok n, h2).2; rewrite -E; apply nf_sweep).
      rewrite (nf_odr _ _ _ Hf). assert (n ≠ 0 ∨ total + n = length (od_roads (h_odr h !!! d))) by lia. lia.
  Qed.

  Local Arguments place_loop : simpl never.
  Theorem adjust_startpoints_raises d : Raises while_exn (adjust_startpoints (F:=F) d).
  Proof.
    intros h e h' Hr. unfold adjust_startpoints in Hr.
    apply bind_err in Hr as [Hr|(D & h1 & E & Hr)]; [by mleaf Hr|]. mleaf E.
    apply bind_err in Hr as [Hr|(n & h2 & E & Hr)]; [left; by eapply raises_place_fixed|].
    assert (Hf : net_frame d h h2) by (change h2 with (Ok n, h2).2; rewrite -E; apply nf_place_fixed).
    apply bind_err in Hr as [Hr|(total & h3 & E3 & Hr)].
    { left. destruct n; [|mleaf Hr]. revert Hr. apply raises_bind; [apply raises_or_raise; exn|intros k].
      apply raises_bind; [apply raises_planview_at|intros pv].
      apply raises_bind; [apply raises_adjust_geometries|intros]. apply raises_ret. }
    eapply place_loop_raises; [|exact Hr].
    assert (Ho : h_odr h3 = h_odr h).
    { rewrite -(nf_odr _ _ _ Hf). destruct n; [|by mleaf E3].
      apply bind_ok in E3 as (k & h4 & E4 & E3). apply or_raise_ok in E4 as [_ ->].
      apply bind_ok in E3 as (pv & h5 & E5 & E3). rewrite -(nf_odr _ _ _ Hf) in E5. apply planview_at_ok in E5 as (-> & o & Hk & ->).
      apply bind_ok in E3 as ([] & h5 & E5 & E3). mleaf E3.
      assert (Hf5 : net_frame d h2 h5) by (change h5 with (Ok tt, h5).2; rewrite -E5; by eapply nf_adjust). apply Hf5. }
    rewrite Ho. lia.
  Qed.
End NetFrame.
