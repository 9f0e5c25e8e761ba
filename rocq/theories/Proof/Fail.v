(** Calls that raise (C65) *)
From Coq Require Import ssreflect.
From Verif.Model Require Import Api.
From Verif.Spec Require Import SpecChain SpecState SpecNetwork SpecFrame SpecFail.
From Verif.Proof Require Import Monad DictFacts PlanViewFacts NetFrame Reach Steps History Frame.
Local Open Scope general_if_scope.

Section Fail.
  Context {F : Type} `{!Num F}.
  Implicit Types (h : heap F).

  (** [m] never raises *)
  Definition total {A} (m : H (F:=F) A) : Prop := ∀ h, ∃ a h', m h = (Ok a, h').
  (** if [m] raises, the state is the one before *)
  Definition an {A} (m : H (F:=F) A) h : Prop := ∀ e h', m h = (Err e, h') → h' = h.

  Lemma total_bind {A B} (m : H (F:=F) A) (k : A → H (F:=F) B) : total m → (∀ a, total (k a)) → total (bind m k).
  Proof. intros Hm Hk h. destruct (Hm h) as (a & h1 & E). rewrite (bind_run _ _ _ _ _ E). apply Hk. Qed.
  Lemma total_ret {A} (a : A) : total (ret a). Proof. intros h. by exists a, h. Qed.
  Lemma total_gets {A} (f : heap F → A) : total (gets f). Proof. intros h. by exists (f h), h. Qed.
  Lemma total_modify (f : heap F → heap F) : total (modify f). Proof. intros h. by exists tt, (f h). Qed.
  Lemma total_for_each {A} (f : A → H (F:=F) unit) l : (∀ x, total (f x)) → total (for_each f l).
  Proof. intros Hf. induction l as [|x l IH]; simpl; [apply total_ret|]. apply total_bind; [apply Hf|]. intros _. apply IH. Qed.
  Lemma total_an {A} (m : H (F:=F) A) h : total m → an m h.
  Proof. intros Hm e h' E. destruct (Hm h) as (a & h1 & E'). congruence. Qed.
  Lemma an_raise {A} e h : an (raise (A:=A) e) h. Proof. by intros e' h' [= _ <-]. Qed.
  Lemma an_gets {A B} (f : heap F → A) (k : A → H (F:=F) B) h : an (k (f h)) h → an (bind (gets f) k) h.
  Proof. done. Qed.
  Lemma an_lift {A B} (o : res A) (k : A → H (F:=F) B) h : (∀ a, an (k a) h) → an (bind (lift o) k) h.
  Proof. intros Hk e h'. unfold bind, lift. destruct o as [a|e']; [apply Hk|]. by intros [= _ <-]. Qed.
  Lemma an_bind_total {A B} (m : H (F:=F) A) (k : A → H (F:=F) B) h : an m h → (∀ a, total (k a)) → an (bind m k) h.
  Proof.
    intros Hm Hk e h'. unfold bind. destruct (m h) as [[a|e1] h1] eqn:E.
    - intros E'. destruct (Hk a h1) as (b & h2 & E2). congruence.
    - intros [= <- <-]. by eapply Hm.
  Qed.

  Lemma total_add_link l (ty : string) id : ty ≠ "neighbor" → total (lane_add_link (F:=F) l (Some ty) id).
  Proof.
    intros Hty. unfold lane_add_link. apply total_bind; [|intros; apply total_modify]. intros h. unfold mk_link, lift.
    rewrite (bool_decide_false (Some ty = Some "neighbor")); [congruence|]. simpl. eauto.
  Qed.
  Lemma total_use_lanelink k i : total (use_lanelink (F:=F) k i).
  Proof.
    apply total_bind; [apply total_gets|]. intros o. destruct (_ !! i) as [p|]; [|apply total_ret]. destruct (ll_used p); [apply total_ret|].
    apply total_bind; [apply total_gets|]. intros s. apply total_bind; [by apply total_add_link|]. intros _.
    apply total_bind; [apply total_gets|]. intros q. apply total_bind; [by apply total_add_link|]. intros _. apply total_modify.
  Qed.
  Lemma total_update_id r : total (update_id (F:=F) r).
  Proof.
    apply total_bind; [apply total_gets|]. intros o. apply total_bind; [apply total_modify|]. intros _.
    apply total_bind; [apply total_gets|]. intros [used c]. apply total_bind.
    - destruct (_ || _); [|apply total_ret]. apply total_bind.
      + intros h. destruct (free_id_total used c) as [n Hn]. rewrite Hn. by exists n, h.
      + intros n. apply total_bind; [apply total_modify|]. intros _. apply total_modify.
    - intros _. apply total_bind; [apply total_gets|]. intros o'. apply total_modify.
  Qed.
  Lemma total_add_object r os : total (add_object (F:=F) r os).
  Proof. apply total_bind; [|intros; apply total_modify]. apply total_for_each. apply total_update_id. Qed.

  Lemma geom_end_err (g g' : geom F) x y hd e : geom_end g x y hd = (Err e, g') → g' = g.
  Proof.
    destruct g as [l|cs ce l|c l a|au bu cu du av bv cv dv p l]; simpl; [congruence|congruence| |].
    - unfold arc_eval. destruct (ftruthy_opt l); [congruence|]. destruct a; congruence.
    - unfold poly_param. destruct (String.eqb p "normalized"); [congruence|]. destruct l; congruence.
  Qed.
  Lemma geom_start_err (g g' : geom F) x y hd e : geom_start g x y hd = (Err e, g') → g' = g.
  Proof.
    destruct g as [l|cs ce l|c l a|au bu cu du av bv cv dv p l]; simpl; [congruence|congruence| |].
    - unfold arc_eval. destruct (ftruthy_opt l); [congruence|]. destruct a; congruence.
    - unfold poly_param. destruct (String.eqb p "normalized"); [congruence|]. destruct l; congruence.
  Qed.
  Lemma upd_geom_same g h : exists_in h_geom h g → (upd_geom g (λ _, h_geom h !!! g) h).2 = h.
  Proof.
    intros Hg. simpl. pose proof (exists_at _ _ _ Hg) as E. destruct h; simpl in *. f_equal. by rewrite insert_id.
  Qed.
  Lemma an_eval_end g x y hd h : exists_in h_geom h g → an (eval_end g x y hd) h.
  Proof.
    intros Hg e h'. unfold eval_end, get_geom. rewrite bind_gets. destruct (geom_end _ x y hd) as [r o] eqn:E.
    destruct r as [p|e']; [by intros [=]|]. intros [= _ <-]. apply geom_end_err in E as ->. by apply upd_geom_same.
  Qed.
  Lemma an_eval_start g x y hd h : exists_in h_geom h g → an (eval_start g x y hd) h.
  Proof.
    intros Hg e h'. unfold eval_start, get_geom. rewrite bind_gets. destruct (geom_start _ x y hd) as [r o] eqn:E.
    destruct r as [p|e']; [by intros [=]|]. intros [= _ <-]. apply geom_start_err in E as ->. by apply upd_geom_same.
  Qed.

  Lemma an_guarded g m h : (g h = true → an m h) → an (guarded g m) h.
  Proof. intros Hm e h'. unfold guarded. destruct (g h); [by apply Hm|]. by intros [= _ <-]. Qed.
  Lemma an_wrap {A B} (m : H (F:=F) A) (f : A → B) h : an m h → an (let! r := m in ret (f r)) h.
  Proof. intros Hm. apply an_bind_total; [done|]. intros. apply total_ret. Qed.
  Lemma an_as_pose m h : an m h → an (as_pose (F:=F) m) h.
  Proof. intros Hm. apply an_bind_total; [done|]. intros [[[x y] hd] l]. apply total_ret. Qed.

  Ltac tot := repeat first [solve [intros ?; eexists _, _; reflexivity]|apply total_ret|apply total_gets|apply total_modify|apply total_bind; [|intros ?]].
  Lemma total_standard_lane w m : total (standard_lane (F:=F) w m). Proof. tot. Qed.
  Lemma total_left s l : total (add_left_lane (F:=F) s l). Proof. tot. Qed.
  Lemma total_right s l : total (add_right_lane (F:=F) s l). Proof. tot. Qed.
  Lemma total_sides s n w : total (create_sides (F:=F) s n w).
  Proof. apply total_for_each. intros _. tot. Qed.
  Lemma total_side add s n w : (∀ s l, total (add s l)) → total (create_side (F:=F) add s n w).
  Proof. intros Ha. apply total_for_each. intros i. apply total_bind; [tot|]. intros l. apply Ha. Qed.
  Lemma total_straight id l j n w : total (create_straight_road (F:=F) id l j n w).
  Proof.
    do 5 (apply total_bind; [tot|]; intros ?). apply total_bind; [apply total_sides|]. intros _. tot.
  Qed.

  Theorem fail_step o h : ¬ may_stop_halfway o → ¬ builds_several o → an (step o) h.
  Proof.
    intros H1 H2.
    destruct o; try (by destruct H1; exact I); try (by destruct H2; exact I); clear H1 H2; simpl;
      try (apply an_guarded; intros Hg); try apply an_wrap; try apply an_as_pose.
    all: try (apply total_an; tot; fail).
    all: try (apply an_lift; intros ?; apply total_an; tot; fail).
    - apply an_eval_end. by apply bool_decide_eq_true in Hg.
    - apply an_eval_start. by apply bool_decide_eq_true in Hg.
    - apply total_an. apply total_bind; [|intros _; apply total_modify]. apply total_for_each. intros k.
      apply total_bind; [apply total_gets|]. intros l. apply total_for_each. intros i. apply total_use_lanelink.
    - apply an_gets. destruct (so_class _); [apply an_raise|]. apply total_an, total_modify.
    - apply an_gets. destruct (rd_succ _); [apply an_raise|]. apply an_lift. intros k. apply total_an, total_modify.
    - apply an_gets. destruct (rd_pred _); [apply an_raise|]. apply an_lift. intros k. apply total_an, total_modify.
    - apply an_gets. destruct (decide _); [apply an_raise|]. apply an_lift. intros k. apply total_an. tot.
    - apply total_an, total_add_object.
    - apply total_an. apply total_bind; [|intros; apply total_modify]. apply total_for_each. apply total_update_id.
    - apply total_an, total_straight.
  Qed.

  (** nothing below the allocation pointer has changed *)
  Definition old_same h h' : Prop := (∀ r, r < h_next h → same_object h h' r) ∧ h_ids h' = h_ids h.
  Lemma roadside_fail r p d s t side h e h' : add_object_roadside r p d s t side h = (Err e, h') → old_same h h'.
  Proof.
    intros E. set (m := let! o := get_road r in let! p' := get_pv (rd_planview o) in
      if negb (pv_adjusted p') then raise RoadsAndLanesNotAdjusted else
      let! secs := get_lanes (rd_lanes o) in let! es := roadside_entries p side secs in
      for_each (roadside_finish (rd_planview o) d s t) es ;; ret es).
    assert (Hm : fr true (λ _, True) (h_next h) (λ _, False) m (λ _ _, True) h).
    { apply fr_bgets, fr_bgets. destruct (negb _); [apply fr_raise|]. apply fr_bgets.
      eapply fr_bind; [apply ot_roadside_entries|]. intros es h1 Hes. eapply fr_bindT; [by apply ot_roadside_finish|]. intros. by apply fr_ret. }
    assert (Em : m h = (Err e, h')).
    { revert E. unfold m, add_object_roadside, get_road, get_pv, get_lanes. rewrite !bind_gets. destruct (negb _). { by intros [= <- <-]. } rewrite !bind_gets.
      unfold bind at 1 3. destruct (roadside_entries _ _ _ _) as [[es|e1] h1]; [|by intros [= <- <-]].
      unfold bind. destruct (for_each _ _ h1) as [[[]|e1] h2]; [|by intros [= <- <-]].
      destruct (total_add_object r (map (λ e, e.2) es) h2) as (a & h3 & ->). done. }
    destruct (Hm I (le_n _)) as (_ & _ & Hi & Hs & _). rewrite Em in Hi, Hs. simpl in Hi, Hs. split; [|by apply Hi]. intros x Hx. apply Hs; [done|]. by intros [].
  Qed.
  Lemma several_fail o h e h' : builds_several o → step o h = (Err e, h') → old_same h h'.
  Proof.
    intros Ho E. pose proof (frame_step o h) as (_ & Hi & Hs). rewrite E in Hi, Hs. destruct o; try done.
    2-4: split; [intros r Hr; apply Hs; [done|by intros []]|apply Hi; by intros []].
    clear Hi Hs. revert E. simpl. unfold guarded. destruct (_ && _); [|by intros [= _ <-]].
    unfold as_unit, bind. destruct (add_object_roadside _ _ _ _ _ _ h) as [[[]|e1] h1] eqn:E; [done|]. intros [= _ <-]. by eapply roadside_fail.
  Qed.

  (** *** which exceptions *)
  Section Raises.
    Context (E : list exn).
    Definition rs {A} (m : H (F:=F) A) : Prop := ∀ h e h', m h = (Err e, h') → e ∈ E.
    Lemma rs_total {A} (m : H (F:=F) A) : total m → rs m.
    Proof. intros Hm h e h' Eq. destruct (Hm h) as (a & h1 & E'). congruence. Qed.
    Lemma rs_bind {A B} (m : H (F:=F) A) (k : A → H (F:=F) B) : rs m → (∀ a, rs (k a)) → rs (bind m k).
    Proof.
      intros Hm Hk h e h'. unfold bind. destruct (m h) as [[a|e1] h1] eqn:Eq; [apply Hk|]. intros [= <- _]. by eapply Hm.
    Qed.
    Lemma rs_or_raise {A} e (o : option A) : e ∈ E → rs (or_raise e o).
    Proof. intros He h e' h'. destruct o; simpl; [done|]. by intros [= <- _]. Qed.
    Lemma rs_raise {A} e : e ∈ E → rs (raise (A:=A) e).
    Proof. by intros He h e' h' [= <- _]. Qed.
    Lemma rs_lift {A} (o : res A) : (∀ e, o = Err e → e ∈ E) → rs (lift o).
    Proof. intros He h e' h'. unfold lift. destruct o; [done|]. intros [= <- _]. by apply He. Qed.
    Lemma rs_for_each {A} (f : A → H (F:=F) unit) l : (∀ x, rs (f x)) → rs (for_each f l).
    Proof. intros Hf. induction l as [|x l IH]; simpl; [by apply rs_total, total_ret|]. apply rs_bind; [apply Hf|]. intros _. apply IH. Qed.
  End Raises.
  Lemma rs_mono {A} E E' (m : H (F:=F) A) : (∀ e, e ∈ E → e ∈ E') → rs E m → rs E' m.
  Proof. intros HE Hm h e h' Eq. eapply HE, Hm, Eq. Qed.
  Ltac inE := repeat first [apply elem_of_list_here|apply elem_of_list_further].
  Ltac rz := repeat first
    [ apply rs_total; solve [tot]
    | apply rs_raise; inE | apply rs_or_raise; inE
    | apply rs_bind; [|intros ?]
    | apply rs_for_each; intros ? ].
  Lemma rs_get {A B} E (f : heap F → A) (k : A → H (F:=F) B) : (∀ a, rs E (k a)) → rs E (bind (gets f) k).
  Proof. intros. apply rs_bind; [|done]. apply rs_total. tot. Qed.

  Definition eval_exn : list exn := [TypeError; ZeroDivisionError].
  Lemma spiral_err l cs ce (x y hd : F) e : spiral_eval l cs ce x y hd = Err e → e ∈ eval_exn.
  Proof.
    unfold spiral_eval, rbind, euler_create. destruct l as [l|]; [|intros [= <-]; inE]. destruct (fiszero l); [intros [= <-]; inE|done].
  Qed.
  Lemma end_err (g : geom F) x y hd e : (geom_end g x y hd).1 = Err e → e ∈ eval_exn.
  Proof.
    destruct g as [l|cs ce l|c l a|au bu cu du av bv cv dv p l]; simpl; [done|apply spiral_err| |].
    - unfold arc_eval. destruct (if ftruthy_opt l then _ else _); simpl; [done|]. intros [= <-]; inE.
    - destruct (poly_param _ _ _ _ _ _ _ _) as [[]]; simpl; [done|]. intros [= <-]; inE.
  Qed.
  Lemma start_err (g : geom F) x y hd e : (geom_start g x y hd).1 = Err e → e ∈ eval_exn.
  Proof.
    destruct g as [l|cs ce l|c l a|au bu cu du av bv cv dv p l]; simpl; [done|apply spiral_err| |].
    - unfold arc_eval. destruct (if ftruthy_opt l then _ else _); simpl; [done|]. intros [= <-]; inE.
    - destruct (poly_param _ _ _ _ _ _ _ _) as [[]]; simpl; [done|]. intros [= <-]; inE.
  Qed.
  Lemma rs_eval_end g x y hd : rs eval_exn (eval_end (F:=F) g x y hd).
  Proof.
    apply rs_get. intros o. destruct (geom_end o x y hd) as [r o'] eqn:Eq. rz. apply rs_lift. intros e ->.
    apply (end_err o x y hd). by rewrite Eq.
  Qed.
  Lemma rs_eval_start g x y hd : rs eval_exn (eval_start (F:=F) g x y hd).
  Proof.
    apply rs_get. intros o. destruct (geom_start o x y hd) as [r o'] eqn:Eq. rz. apply rs_lift. intros e ->.
    apply (start_err o x y hd). by rewrite Eq.
  Qed.
  Lemma eval_sub (E : list exn) : TypeError ∈ E → ZeroDivisionError ∈ E → ∀ e, e ∈ eval_exn → e ∈ E.
  Proof. intros H1 H2 e. unfold eval_exn. rewrite !elem_of_cons elem_of_nil. naive_solver. Qed.
  Section Adjust.
    Context (E : list exn) (HT : TypeError ∈ E) (HZ : ZeroDivisionError ∈ E).
    Lemma rs_end g x y hd : rs E (eval_end (F:=F) g x y hd). Proof. eapply rs_mono; [by apply eval_sub|apply rs_eval_end]. Qed.
    Lemma rs_start g x y hd : rs E (eval_start (F:=F) g x y hd). Proof. eapply rs_mono; [by apply eval_sub|apply rs_eval_start]. Qed.
    Lemma rs_pgeom_init s x y hd g : rs E (pgeom_init (F:=F) s x y hd g).
    Proof. apply rs_bind; [apply rs_end|]. intros [[[? ?] ?] ?]. rz. Qed.
    Lemma rs_forward pv gs : IndexError ∈ E → ∀ i, rs E (adjust_forward (F:=F) pv i gs).
    Proof.
      intros HI. induction gs as [|g gs IH]; intros i; simpl; [rz|]. apply rs_get. intros p. apply rs_bind.
      - destruct (decide _); [|rz]. apply rs_bind; [by apply rs_or_raise|]. intros. rz.
      - intros _. apply rs_get. intros p'. apply rs_bind; [apply rs_pgeom_init|]. intros ng. apply rs_bind; [apply rs_end|].
        intros [[[x y] hd] l]. apply rs_bind; [rz|]. intros _. apply rs_bind; [by apply rs_or_raise|]. intros l'.
        apply rs_bind; [rz|]. intros _. apply rs_bind; [rz|]. intros _. apply IH.
    Qed.
    Lemma rs_backward pv gs : rs E (adjust_backward (F:=F) pv gs).
    Proof.
      induction gs as [|g gs IH]; simpl; [rz|]. apply rs_get. intros p. apply rs_bind; [apply rs_pgeom_init|]. intros ng. apply rs_bind.
      - apply rs_bind; [apply rs_start|]. intros [[[x y] hd] l]. rz.
      - intros [[[[x y] hd] l] ng']. apply rs_bind; [rz|]. intros _. apply rs_bind; [rz|]. intros _. apply rs_bind; [apply IH|]. intros. rz.
    Qed.
    Lemma total_assign pv ls : total (assign_s (F:=F) pv ls).
    Proof. induction ls as [|l ls IH]; simpl; [tot|]. apply total_bind; [tot|]. intros _. apply total_bind; [tot|]. intros _. apply IH. Qed.
    Lemma rs_adjust_back pv : rs E (adjust_geometries (F:=F) pv true).
    Proof.
      apply rs_bind; [|intros; rz]. simpl. apply rs_bind; [rz|]. intros _. apply rs_get. intros p. apply rs_bind; [apply rs_backward|].
      intros ls. apply rs_bind; [rz|]. intros _. apply rs_bind; [by apply rs_or_raise|]. intros ls'. apply rs_bind; [rz|]. intros _. apply rs_total, total_assign.
    Qed.
    Lemma rs_adjust pv b : IndexError ∈ E → rs E (adjust_geometries (F:=F) pv b).
    Proof.
      intros HI. destruct b; [apply rs_adjust_back|]. apply rs_bind; [|intros; rz]. simpl. apply rs_bind; [rz|]. intros _.
      apply rs_get. intros p. apply rs_bind; [by apply rs_forward|]. intros. rz.
    Qed.
  End Adjust.

  Section LaneLinks.
    Context (E : list exn) (HN : NotSameAmountOfLanesError ∈ E) (HA : AttributeError ∈ E) (HI : IndexError ∈ E) (HT : TypeError ∈ E).
    Lemma related_type (r c : road) ty s i : get_related_lanesection r c = Ok (ty, s, i) → ty ≠ Some "neighbor".
    Proof.
      assert (Hb : (related_base r c).1.1 ≠ Some "neighbor").
      { unfold related_base. destruct (rd_succ r); [destruct (bool_decide _); [done|]|]; (destruct (rd_pred r); [destruct (bool_decide _)|]; done). }
      unfold get_related_lanesection. destruct (related_base r c) as [[ty' s'] i']. simpl in Hb.
      destruct (bool_decide _); [congruence|]. destruct (rd_pred c); [|done]. destruct (bool_decide _); [congruence|].
      destruct (rd_succ c); [|done]. destruct (bool_decide _); congruence.
    Qed.
      Lemma related_sign (r c : road) k ty s i : rd_succ r = Some k ∨ rd_pred r = Some k → lk_id k = rd_id c →
        get_related_lanesection r c = Ok (ty, s, i) → is_Some s ∧ is_Some i.
      Proof.
        intros Hk Hid.
        assert (Hb : is_Some (related_base r c).1.2 ∧ is_Some (related_base r c).2).
        { unfold related_base. destruct Hk as [->|Ek]; [rewrite bool_decide_true //; eauto|].
          destruct (rd_succ r); [case_bool_decide; [eauto|]|]; rewrite Ek bool_decide_true //; eauto. }
        unfold get_related_lanesection. destruct (related_base r c) as [[ty' s'] i']. simpl in Hb. destruct Hb as [[s0 ->] [i0 ->]].
        destruct (bool_decide _); [intros [= _ <- <-]; eauto|]. destruct (rd_pred c); [|done]. destruct (bool_decide _); [intros [= _ <- <-]; eauto|].
        destruct (rd_succ c); [|done]. destruct (bool_decide _); intros [= _ <- <-]; eauto.
      Qed.
    Lemma related_err (r c : road) e : get_related_lanesection r c = Err e → e = AttributeError.
    Proof.
      unfold get_related_lanesection. destruct (related_base r c) as [[ty' s'] i'].
      destruct (bool_decide _); [done|]. destruct (rd_pred c); [|congruence]. destruct (bool_decide _); [done|].
      destruct (rd_succ c); [|congruence]. destruct (bool_decide _); done.
    Qed.
    Lemma rs_related {B} (r c : road) (k : _ → H (F:=F) B) : (∀ ty s i, ty ≠ Some "neighbor" → rs E (k (ty, s, i))) →
      rs E (bind (lift (get_related_lanesection r c)) k).
    Proof.
      intros Hk h e h'. unfold bind, lift. destruct (get_related_lanesection r c) as [[[ty s] i]|e'] eqn:Eq.
      - apply Hk. by eapply related_type.
      - apply related_err in Eq as ->. by intros [= <- _].
    Qed.
    Lemma rs_section o i : rs E (road_section (F:=F) o i).
    Proof. apply rs_get. intros l. apply rs_bind; [|intros; rz]. destruct i; [by apply rs_or_raise|by apply rs_raise]. Qed.
    Lemma rs_id_times l s : rs E (lane_id_times (F:=F) l s).
    Proof. apply rs_get. intros o. apply rs_bind; [by apply rs_or_raise|]. intros. apply rs_bind; [by apply rs_or_raise|]. intros. rz. Qed.
    Lemma rs_add_link l ty id : ty ≠ Some "neighbor" → rs E (lane_add_link (F:=F) l ty id).
    Proof.
      intros Hty. apply rs_bind; [|intros; rz]. apply rs_lift. intros e. unfold mk_link. rewrite bool_decide_false //.
    Qed.
    Ltac lk := repeat first
      [ by apply rs_add_link | apply rs_id_times | apply rs_section | by apply rs_or_raise | by apply rs_raise
      | apply rs_total; solve [tot] | apply rs_for_each; intros ? | apply rs_bind; [|intros ?] ].
    Lemma rs_links_connecting c r : rs E (create_links_connecting_road (F:=F) c r).
    Proof.
      apply rs_get. intros C. apply rs_get. intros R. apply rs_related. intros ty s i Hty. apply rs_related. intros ty2 s2 i2 _.
      destruct i as [i|]; [|rz]. apply rs_bind; [apply rs_section|]. intros csec. apply rs_bind.
      - destruct (ls_left csec); [rz|]. lk.
      - intros _. apply rs_bind; [apply rs_section|]. intros csec2. destruct (ls_right csec2); [rz|]. lk.
    Qed.
    Lemma rs_links_roads c r : rs E (create_links_roads (F:=F) c r).
    Proof.
      apply rs_get. intros C. apply rs_get. intros R. apply rs_related. intros ty s i Hty. apply rs_related. intros ty2 s2 i2 Hty2.
      apply rs_bind; [apply rs_section|]. intros p1. apply rs_bind; [apply rs_section|]. intros p2. apply rs_bind.
      - destruct (bool_decide _); lk.
      - intros _. apply rs_bind; [apply rs_section|]. intros p3. apply rs_bind; [apply rs_section|]. intros p4. destruct (bool_decide _); lk.
    Qed.
    Lemma rs_create_lane_links r1 r2 : rs E (create_lane_links (F:=F) r1 r2).
    Proof.
      apply rs_get. intros o1. apply rs_get. intros o2.
      destruct (_ && _); [destruct (are_roads_consecutive _ _); [apply rs_links_roads|]; destruct (are_roads_consecutive _ _); [apply rs_links_roads|rz]|].
      destruct (negb _); apply rs_links_connecting.
    Qed.
  End LaneLinks.

  (** in a reachable state every lane of a section has its number, so lane linking multiplies numbers only *)
  Section Numbered.
    Context (h0 : heap F) (E : list exn) (HN : NotSameAmountOfLanesError ∈ E) (HA : AttributeError ∈ E) (HI : IndexError ∈ E).
    Definition ids_there h : Prop := h_sec h = h_sec h0 ∧ h_road h = h_road h0 ∧
      ∀ s l, l ∈ ls_left (h_sec h0 !!! s) ∨ l ∈ ls_right (h_sec h0 !!! s) → is_Some (ln_id (h_lane h !!! l)).
    Definition jr {A} (m : H (F:=F) A) (Q : A → Prop) : Prop :=
      ∀ h, ids_there h → ids_there (m h).2 ∧ (∀ e, (m h).1 = Err e → e ∈ E) ∧ ∀ a, (m h).1 = Ok a → Q a.
    Notation any := (λ _, True).
    Lemma jr_bind {A B} (m : H (F:=F) A) (k : A → H (F:=F) B) R Q : jr m R → (∀ a, R a → jr (k a) Q) → jr (bind m k) Q.
    Proof.
      intros Hm Hk h Hh. destruct (Hm h Hh) as (I1 & E1 & Q1). unfold bind. destruct (m h) as [[a|e] h1]; simpl in *.
      - apply Hk; [by apply Q1|done].
      - split_and!; [done|by intros e' [= <-]; apply E1|done].
    Qed.
    Lemma jr_ret {A} (a : A) (Q : A → Prop) : Q a → jr (ret a) Q.
    Proof. intros HQ h Hh. split_and!; [done|done|]. by intros ? [= <-]. Qed.
    Lemma jr_raise {A} e (Q : A → Prop) : e ∈ E → jr (raise e) Q.
    Proof. intros He h Hh. split_and!; [done|by intros e' [= <-]|done]. Qed.
    Lemma jr_or_raise {A} e (o : option A) (Q : A → Prop) : e ∈ E → (∀ a, o = Some a → Q a) → jr (or_raise e o) Q.
    Proof. intros He HQ. destruct o; [by apply jr_ret, HQ|by apply jr_raise]. Qed.
    Lemma jr_gets {A B} (f : heap F → A) (k : A → H (F:=F) B) Q : (∀ h, ids_there h → jr (k (f h)) Q) → jr (bind (gets f) k) Q.
    Proof. intros Hk h Hh. rewrite bind_gets. by apply Hk. Qed.
    Lemma jr_for_each {A} (f : A → H (F:=F) unit) l : (∀ x, jr (f x) any) → jr (for_each f l) any.
    Proof. intros Hf. induction l as [|x l IH]; simpl; [by apply jr_ret|]. eapply jr_bind; [apply Hf|]. intros. apply IH. Qed.
    Definition a_section (s : lanesection F) : Prop := ∃ x, s = h_sec h0 !!! x.
    Lemma jr_section o i : jr (road_section (F:=F) o (Some i)) a_section.
    Proof.
      apply jr_gets. intros h1 _. eapply (jr_bind _ _ any); [by apply jr_or_raise|]. intros s _ h Hh. simpl. split_and!; [done|done|].
      intros a [= <-]. exists s. by destruct Hh as [-> _].
    Qed.
    Definition a_lane (l : ref) : Prop := ∃ s, l ∈ ls_left (h_sec h0 !!! s) ∨ l ∈ ls_right (h_sec h0 !!! s).
    Lemma jr_left s (i : nat) : a_section s → jr (or_raise IndexError (ls_left s !! i)) a_lane.
    Proof. intros [x ->]. apply jr_or_raise; [done|]. intros l Hl. exists x. left. by eapply elem_of_list_lookup_2. Qed.
    Lemma jr_right s (i : nat) : a_section s → jr (or_raise IndexError (ls_right s !! i)) a_lane.
    Proof. intros [x ->]. apply jr_or_raise; [done|]. intros l Hl. exists x. right. by eapply elem_of_list_lookup_2. Qed.
    Lemma jr_id_times l sg : a_lane l → jr (lane_id_times (F:=F) l (Some sg)) any.
    Proof.
      intros [x Hx]. apply jr_gets. intros h (_ & _ & Hid). destruct (Hid _ _ Hx) as [z ->]. simpl.
      apply (jr_bind (ret z) _ any); [by apply jr_ret|]. intros i _. apply (jr_bind (ret sg) _ any); [by apply jr_ret|]. intros. by apply jr_ret.
    Qed.
    Lemma jr_add_link l ty id : ty ≠ Some "neighbor" → jr (lane_add_link (F:=F) l ty id) any.
    Proof.
      intros Hty h (H1 & H2 & H3). unfold lane_add_link, mk_link, bind, lift. rewrite bool_decide_false //. simpl. split_and!; [|done|done].
      split_and!; simpl; [done|done|]. intros s l' Hl'. destruct (decide (l = l')) as [<-|]; [rewrite ltm_insert; simpl|rewrite ltm_insert_ne //]; by apply (H3 s).
    Qed.
    Lemma jr_get_road {B} x (k : road → H (F:=F) B) Q : jr (k (h_road h0 !!! x)) Q → jr (bind (get_road x) k) Q.
    Proof. intros Hk. apply jr_gets. intros h (_ & -> & _). done. Qed.
    Lemma jr_related {B} (r c : road) (k : _ → H (F:=F) B) Q : (∀ ty s i, get_related_lanesection r c = Ok (ty, s, i) → jr (k (ty, s, i)) Q) →
      jr (bind (lift (get_related_lanesection r c)) k) Q.
    Proof.
      intros Hk h Hh. unfold bind, lift. destruct (get_related_lanesection r c) as [[[ty s] i]|e'] eqn:Eq.
      - by apply Hk.
      - apply related_err in Eq as ->. simpl. split_and!; [done|by intros e [= <-]|done].
    Qed.
    Ltac sec s H := eapply jr_bind; [apply jr_section|intros s H].
    Lemma jr_links_roads p s : are_roads_consecutive (h_road h0 !!! p) (h_road h0 !!! s) = true → jr (create_links_roads (F:=F) p s) any.
    Proof.
      intros Hc. apply jr_get_road, jr_get_road. set (P := h_road h0 !!! p) in *. set (S := h_road h0 !!! s) in *. clearbody P S.
      unfold are_roads_consecutive in Hc. destruct (rd_succ P) as [k|] eqn:Ek; [|done]. destruct (rd_pred S) as [k'|] eqn:Ek'; [|done].
      rewrite !andb_true_iff !bool_decide_eq_true in Hc. destruct Hc as [[_ H1] H2].
      apply jr_related. intros ty sg i Er. pose proof (related_type _ _ _ _ _ Er) as Hty.
      destruct (related_sign P S k _ _ _ (or_introl Ek) H1 Er) as [[sg' ->] [i' ->]]. clear Er.
      apply jr_related. intros ty2 sg2 i2 Er. pose proof (related_type _ _ _ _ _ Er) as Hty2.
      destruct (related_sign S P k' _ _ _ (or_intror Ek') H2 Er) as [_ [i2' ->]]. clear Er.
      sec p1 Hp1. sec s1 Hs1. eapply (jr_bind _ _ any).
      - destruct (bool_decide _); [|by apply jr_raise]. apply jr_for_each. intros i. sec p2 Hp2. eapply jr_bind; [by apply jr_left|]. intros pl Hpl.
        eapply jr_bind; [by apply jr_id_times|]. intros z _. eapply jr_bind; [by apply jr_add_link|]. intros _ _. sec s2 Hs2.
        eapply jr_bind; [by apply jr_left|]. intros sl Hsl. eapply (jr_bind (ret sg') _ any); [by apply jr_ret|]. intros sg _. by apply jr_add_link.
      - intros _ _. sec p2 Hp2. sec s2 Hs2. destruct (bool_decide _); [|by apply jr_raise]. apply jr_for_each. intros i. sec p3 Hp3.
        eapply jr_bind; [by apply jr_right|]. intros pl Hpl. apply jr_gets. intros h _. eapply jr_bind; [by apply jr_add_link|]. intros _ _.
        sec s3 Hs3. eapply jr_bind; [by apply jr_right|]. intros sl Hsl. by apply jr_add_link.
    Qed.
    (** a connecting road that finds a section at one end finds one at the other *)
    Lemma related_both (c r : road) ty s i ty2 s2 i2 : rd_type c ≠ (-1)%Z → get_related_lanesection c r = Ok (ty, s, Some i) →
      get_related_lanesection r c = Ok (ty2, s2, i2) → is_Some s ∧ is_Some i2.
    Proof.
      intros Hc. unfold get_related_lanesection, related_base. rewrite (bool_decide_false (rd_type c = (-1)%Z)) //.
      destruct (rd_pred c) as [pc|]; [|intros _; destruct (rd_succ r) as [sr|], (rd_pred r) as [pr|]; repeat case_bool_decide; done].
      destruct (rd_succ c) as [sc|], (rd_succ r) as [sr|], (rd_pred r) as [pr|]; repeat case_bool_decide; intros [= <- <- <-] [= <- <- <-]; eauto.
    Qed.
    Lemma jr_links_connecting c r : rd_type (h_road h0 !!! c) ≠ (-1)%Z → jr (create_links_connecting_road (F:=F) c r) any.
    Proof.
      intros Hc. apply jr_get_road, jr_get_road. set (C := h_road h0 !!! c) in *. set (R := h_road h0 !!! r) in *. clearbody C R.
      apply jr_related. intros ty sg i Er. pose proof (related_type _ _ _ _ _ Er) as Hty.
      apply jr_related. intros ty2 sg2 i2 Er2. destruct i as [i|]; [|by apply jr_ret].
      destruct (related_both _ _ _ _ _ _ _ _ Hc Er Er2) as [[sg' ->] [i2' ->]]. clear Er Er2.
      sec c1 Hc1. eapply (jr_bind _ _ any).
      - destruct (ls_left c1); [by apply jr_ret|]. sec c2 Hc2. apply jr_for_each. intros nn. sec r1 Hr1. eapply jr_bind; [by apply jr_left|]. intros rl Hrl.
        eapply jr_bind; [by apply jr_id_times|]. intros z _. sec c3 Hc3. eapply jr_bind; [by apply jr_left|]. intros cl Hcl. by apply jr_add_link.
      - intros _ _. sec c2 Hc2. destruct (ls_right c2); [by apply jr_ret|]. apply jr_for_each. intros nn. sec r1 Hr1. eapply jr_bind; [by apply jr_right|]. intros rl Hrl.
        eapply jr_bind; [by apply jr_id_times|]. intros z _. sec c3 Hc3. eapply jr_bind; [by apply jr_right|]. intros cl Hcl. by apply jr_add_link.
    Qed.
    Lemma jr_create_lane_links r1 r2 : jr (create_lane_links (F:=F) r1 r2) any.
    Proof.
      apply jr_get_road, jr_get_road. case_bool_decide as T1; case_bool_decide as T2; simpl.
      - destruct (are_roads_consecutive _ _) eqn:Ec; [by apply jr_links_roads|]. clear Ec.
        destruct (are_roads_consecutive _ _) eqn:Ec; [by apply jr_links_roads|by apply jr_ret].
      - by apply jr_links_connecting.
      - by apply jr_links_connecting.
      - by apply jr_links_connecting.
    Qed.
  End Numbered.
  Section Generated.
    Context (E : list exn).
    Lemma rs_cloth c a ca id j cs n w : ValueError ∈ E → rs E (create_cloth_arc_cloth (F:=F) c a ca id j cs n w).
    Proof.
      intros HV. apply rs_bind; [rz|]. intros pv. cbv zeta. set (flip := _ && _).
      assert (Hs : ∀ x y z, rs E (lift (S:=heap F) (mk_spiral x y None (Some z) None))).
      { intros x y z. apply rs_lift. intros e. unfold mk_spiral. simpl. destruct (ftruthy z); done. }
      apply rs_bind; [apply Hs|]. intros g1. apply rs_bind; [rz|]. intros s1. apply rs_bind.
      { apply rs_lift. intros e. unfold mk_arc. destruct (fiszero _); [by intros [= <-]|done]. }
      intros g2. apply rs_bind; [rz|]. intros s2. apply rs_bind; [apply Hs|]. intros g3. apply rs_total.
      do 6 (apply total_bind; [tot|]; intros ?). apply total_bind; [apply total_sides|]. intros _. tot.
    Qed.
    Lemma rs_create_road gs id l r ty m w : TypeError ∈ E → rs E (create_road (F:=F) gs id l r ty m w).
    Proof.
      intros HT. apply rs_bind; [rz|]. intros pv. apply rs_bind.
      { apply rs_for_each. intros g. apply rs_bind; [rz|]. intros _. apply rs_get. intros o. apply rs_bind; [by apply rs_or_raise|]. intros. rz. }
      intros _. apply rs_total. do 3 (apply total_bind; [tot|]; intros ?).
      apply total_bind; [apply total_side, total_left|]. intros _. apply total_bind; [apply total_side, total_right|]. intros _. tot.
    Qed.
    Lemma rs_add_link_road r et id cp off (b : bool) : ValueError ∈ E → rs E (if b then add_successor (F:=F) r et id cp off else add_predecessor r et id cp off).
    Proof.
      intros HV. destruct b; apply rs_get; intros o; [destruct (rd_succ o)|destruct (rd_pred o)]; try (by apply rs_raise);
        (apply rs_bind; [|intros; rz]); apply rs_lift; intros e; unfold mk_link; rewrite bool_decide_false //.
    Qed.
    Section Roads.
      Context (HV : ValueError ∈ E) (HNa : NameError ∈ E) (HI : IndexError ∈ E) (HZ : ZeroDivisionError ∈ E).
      Lemma rs_section_some o z : rs E (road_section (F:=F) o (Some z)).
      Proof. apply rs_get. intros l. apply rs_bind; [by apply rs_or_raise|intros; rz]. Qed.
      Lemma rs_junction_road rds an r j sp ap ll cp i sn jj : rs E (junction_road (F:=F) rds an r j sp ap ll cp i sn jj).
      Proof.
        apply rs_bind; [by apply rs_or_raise|]. intros aj. apply rs_bind; [by apply rs_or_raise|]. intros ai. cbv zeta.
        apply rs_bind; [by apply rs_or_raise|]. intros ri. apply rs_bind; [by apply rs_or_raise|]. intros rj. apply rs_bind.
        { apply rs_get. intros o1. apply rs_get. intros o2. apply rs_bind; [apply rs_section_some|]. intros s1.
          apply rs_bind; [apply rs_section_some|]. intros s2. destruct (_ && _); [|by apply rs_raise].
          apply rs_bind; [by apply rs_or_raise|]. intros. rz. }
        intros [n w]. apply rs_bind; [destruct (fiszero _); [apply rs_total, total_straight|by apply rs_cloth]|]. intros tmp.
        apply rs_get. intros oi. apply rs_bind; [by apply (rs_add_link_road _ _ _ _ _ false)|]. intros _.
        apply rs_get. intros oj. apply rs_bind; [by apply (rs_add_link_road _ _ _ _ _ true)|]. intros. rz.
      Qed.
      Lemma rs_inner rds an r j sp ap ll cp i js : ∀ sn, rs E (junction_inner (F:=F) rds an r j sp ap ll cp i sn js).
      Proof.
        induction js as [|jj js IH]; intros sn; simpl; [rz|]. apply rs_bind; [apply rs_junction_road|]. intros. apply rs_bind; [apply IH|]. intros. rz.
      Qed.
      Lemma rs_outer rds an r j sp ap ll iss : ∀ sn, rs E (junction_outer (F:=F) rds an r j sp ap ll sn iss).
      Proof.
        induction iss as [|i iss IH]; intros sn; simpl; [rz|]. apply rs_bind; [by apply rs_or_raise|]. intros ri.
        apply rs_bind; [by apply rs_add_link_road|]. intros _. apply rs_bind; [apply rs_inner|]. intros row. apply rs_bind; [apply IH|]. intros. rz.
      Qed.
      Lemma rs_create_junction_roads rds an r j sp ap sn : rs E (create_junction_roads (F:=F) rds an r j sp ap sn).
      Proof.
        apply rs_bind.
        { apply rs_lift. intros e. unfold junction_linelength. destruct (fiszero r); [by intros [= <-]|]. unfold euler_create.
          destruct (fiszero _); simpl; [by intros [= <-]|]. by repeat case_match. }
        intros ll. apply rs_bind; [apply rs_outer|]. intros js. apply rs_bind; [by apply rs_or_raise|]. intros rl.
        apply rs_bind; [by apply (rs_add_link_road _ _ _ _ _ false)|]. intros. rz.
      Qed.
    End Roads.
    Section Junction.
      Context (HA : AttributeError ∈ E) (HI : IndexError ∈ E).
      Definition rs1 {A} (m : H (F:=F) A) h : Prop := ∀ e h', m h = (Err e, h') → e ∈ E.
      Lemma by_id_found rds id h x h' : get_road_by_id (F:=F) rds id h = (Ok (Some x), h') → h' = h ∧ rd_id (h_road h !!! x) = id.
      Proof.
        induction rds as [|r rds IH]; simpl; [done|]. unfold get_road. rewrite bind_gets. case_bool_decide; [by intros [= <- <-]|apply IH].
      Qed.
      Lemma total_by_id rds id : total (get_road_by_id (F:=F) rds id).
      Proof.
        induction rds as [|r rds IH]; simpl; [tot|]. apply total_bind; [tot|]. intros o. destruct (bool_decide _); [tot|apply IH].
      Qed.
      Lemma total_junction_links c n rl sg a b : total (create_junction_links (F:=F) c n rl (Some sg) a b).
      Proof. apply total_for_each. intros i. simpl. tot. Qed.
      Lemma rs_junction_connection j rds jr k cp idx a b : rd_succ jr = Some k ∨ rd_pred jr = Some k →
        rs E (junction_connection (F:=F) j rds jr k cp idx a b).
      Proof.
        intros Hk. apply rs_bind; [rz|]. intros c h. assert (G : ∀ m : H (F:=F) unit, rs E m → rs1 m h) by (intros m Hm e h'; apply Hm).
        change (rs1 (let! rr := get_road_by_id rds (lk_id k) in let! rr := or_raise AttributeError rr in let! ro := get_road rr in
          let! t := lift (get_related_lanesection jr ro) in let '(_, sign, _) := t in let! s := road_section jr (Some idx) in
          create_junction_links c (length (ls_right s)) (-1) sign a b ;; create_junction_links c (length (ls_left s)) 1 sign a b ;; add_connection j c) h).
        destruct (total_by_id rds (lk_id k) h) as (rr & h1 & Eq). intros e h'. rewrite (bind_run _ _ _ _ _ Eq).
        destruct rr as [x|]; [|intros [= <- _]; done]. apply by_id_found in Eq as [-> Hid].
        unfold or_raise. rewrite (bind_run _ _ _ _ _ (eq_refl : ret x h = (Ok x, h))). unfold get_road. rewrite bind_gets.
        destruct (get_related_lanesection jr (h_road h !!! x)) as [[[ty s] i]|e1] eqn:Er.
        - rewrite (bind_run _ _ _ _ _ (eq_refl : lift (Ok (ty, s, i)) h = (Ok (ty, s, i), h))).
          destruct (related_sign jr _ k _ _ _ Hk (eq_sym Hid) Er) as [[sg ->] _]. revert e h'. apply G.
          apply rs_bind; [by apply rs_section_some|]. intros sec. apply rs_total.
          apply total_bind; [apply total_junction_links|]. intros _. apply total_bind; [apply total_junction_links|]. intros _. tot.
        - apply related_err in Er as ->. intros [= <- _]. done.
      Qed.
      Lemma rs_given {A B} e (o : option A) (k : A → H (F:=F) B) : e ∈ E → (∀ a, o = Some a → rs E (k a)) → rs E (bind (or_raise e o) k).
      Proof. intros He Hk. destruct o as [a|]; [by apply Hk|]. by intros h e' h' [= <- _]. Qed.
      Lemma rs_create_junction jrs id rds : rs E (create_junction (F:=F) jrs id rds).
      Proof.
        apply rs_bind; [rz|]. intros j. apply rs_bind; [|intros; rz]. apply rs_for_each. intros r. apply rs_get. intros jr.
        apply rs_given; [done|]. intros ks Hks. apply rs_bind; [apply rs_junction_connection; by left|]. intros _.
        apply rs_given; [done|]. intros kp Hkp. apply rs_junction_connection. by right.
      Qed.
    End Junction.
    Lemma rs_roadside r p d s t side : RoadsAndLanesNotAdjusted ∈ E → AttributeError ∈ E → rs E (add_object_roadside (F:=F) r p d s t side).
    Proof.
      intros HR HA. apply rs_get. intros o. apply rs_get. intros pv. destruct (negb _); [by apply rs_raise|]. apply rs_get. intros secs.
      assert (Hsum : ∀ ls acc, total (sum_widths (F:=F) acc ls)).
      { induction ls as [|l ls IH]; intros acc; simpl; [tot|]. apply total_bind; [tot|]. intros. apply IH. }
      assert (Hent : total (roadside_entries (F:=F) p side secs)).
      { assert (Hl : ∀ x, total (roadside_left (F:=F) p x)) by (intros x; do 3 (apply total_bind; [tot|]; intros ?); apply total_bind; [apply Hsum|]; intros; tot).
        assert (Hr : ∀ x, total (roadside_right (F:=F) p x)) by (intros x; do 3 (apply total_bind; [tot|]; intros ?); apply total_bind; [apply Hsum|]; intros; tot).
        induction secs as [|x secs IH]; simpl; [tot|]. apply total_bind; [destruct side; [apply Hl|apply Hl|tot]|]. intros l.
        apply total_bind; [destruct side; [apply Hr|tot|apply Hr]|]. intros r'. apply total_bind; [apply IH|]. intros. tot. }
      apply rs_bind; [by apply rs_total|]. intros es. apply rs_bind; [|intros; apply rs_total, total_add_object].
      apply rs_for_each. intros [[[sx f] w] x]. apply rs_bind; [rz|]. intros _. apply rs_get. intros pv'. apply rs_get. intros x'.
      apply rs_bind; [destruct (so_class x'); [by apply rs_raise|rz]|]. intros. rz.
    Qed.
  End Generated.
End Fail.
