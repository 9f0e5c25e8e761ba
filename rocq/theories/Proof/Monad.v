(** Reasoning about the state-and-exception monad of Py.v *)
From Verif.Model Require Import Api.

(** ** Inversion of successful runs *)
Lemma bind_ok {S A B} (m : M S A) (k : A → M S B) s b s' :
  bind m k s = (Ok b, s') ↔ ∃ a s1, m s = (Ok a, s1) ∧ k a s1 = (Ok b, s').
Proof.
  unfold bind. split.
  - destruct (m s) as [[a|e] s1] eqn:E; [eauto|done].
  - intros (a & s1 & -> & H). done.
Qed.

Lemma bind_err {S A B} (m : M S A) (k : A → M S B) s e s' :
  bind m k s = (Err e, s') ↔ m s = (Err e, s') ∨ ∃ a s1, m s = (Ok a, s1) ∧ k a s1 = (Err e, s').
Proof.
  unfold bind. split.
  - destruct (m s) as [[a|e1] s1] eqn:E; [eauto|]. intros ?. simplify_eq. by left.
  - intros [->|(a & s1 & -> & H)]; done.
Qed.

Lemma bind_run {S A B} (m : M S A) (k : A → M S B) s a s1 :
  m s = (Ok a, s1) → bind m k s = k a s1.
Proof. unfold bind. by intros ->. Qed.

Lemma bind_run_err {S A B} (m : M S A) (k : A → M S B) s e s1 :
  m s = (Err e, s1) → bind m k s = (Err e, s1).
Proof. unfold bind. by intros ->. Qed.

Lemma or_raise_ok {S A} e (o : option A) (s : S) a s' : or_raise e o s = (Ok a, s') ↔ o = Some a ∧ s' = s.
Proof. destruct o; simpl; unfold ret, raise; naive_solver. Qed.
Lemma or_raise_err {S A} e (o : option A) (s : S) e' s' : or_raise e o s = (Err e', s') ↔ o = None ∧ e' = e ∧ s' = s.
Proof. destruct o; simpl; unfold ret, raise; naive_solver. Qed.

(** ** Frame reasoning: [Pres R m]: whether [m] returns or raises, the states before and after are related by [R] *)
Definition Pres {S A} (R : S → S → Prop) (m : M S A) : Prop := ∀ s, R s (m s).2.

Section Pres.
  Context {S : Type} (R : S → S → Prop) `{!PreOrder R}.

  Lemma pres_ret {A} (a : A) : Pres R (ret a).
  Proof. intros s. simpl. reflexivity. Qed.
  Lemma pres_raise {A} e : Pres R (@raise S A e).
  Proof. intros s. simpl. reflexivity. Qed.
  Lemma pres_lift {A} (r : res A) : Pres R (lift r).
  Proof. intros s. simpl. reflexivity. Qed.
  Lemma pres_gets {A} (f : S → A) : Pres R (gets f).
  Proof. intros s. simpl. reflexivity. Qed.
  Lemma pres_or_raise {A} e (o : option A) : Pres R (or_raise e o).
  Proof. intros s. destruct o; simpl; reflexivity. Qed.
  Lemma pres_modify f : (∀ s, R s (f s)) → Pres R (modify f).
  Proof. intros H s. apply H. Qed.
  Lemma pres_bind {A B} (m : M S A) (k : A → M S B) :
    Pres R m → (∀ a, Pres R (k a)) → Pres R (bind m k).
  Proof.
    intros Hm Hk s. unfold bind. specialize (Hm s). destruct (m s) as [[a|e] s1]; simpl in *; [|done].
    etrans; [exact Hm|apply Hk].
  Qed.
  Lemma pres_for_each {A} (f : A → M S unit) l : (∀ x, x ∈ l → Pres R (f x)) → Pres R (for_each f l).
  Proof.
    induction l as [|x l IH]; intros H; simpl; [apply pres_ret|].
    apply pres_bind; [apply H; by left|]. intros _. apply IH. intros y Hy. apply H. by right.
  Qed.
  Lemma pres_py_index_opt {A} (l : list A) i : Pres R (py_index_opt l i).
  Proof. destruct i; simpl; [apply pres_or_raise|apply pres_raise]. Qed.
End Pres.

Lemma pres_mono {S A} (R R' : S → S → Prop) (m : M S A) : (∀ s s', R s s' → R' s s') → Pres R m → Pres R' m.
Proof. intros H Hm s. apply H, Hm. Qed.

Lemma pres_ok {S A} (R : S → S → Prop) (m : M S A) s r s' : Pres R m → m s = (r, s') → R s s'.
Proof. intros H E. specialize (H s). by rewrite E in H. Qed.

(** Invariants: [Inv P m]: [m] keeps [P] *)
Definition Inv {S A} (P : S → Prop) (m : M S A) : Prop := Pres (λ s s', P s → P s') m.
#[global] Instance inv_preorder {S} (P : S → Prop) : PreOrder (λ s s', P s → P s').
Proof. split; [by intros ?|intros ???; tauto]. Qed.

(** Total-map lookups *)
Lemma ltm_insert {V} `{!Inhabited V} (m : gmap nat V) k v : <[k:=v]> m !!! k = v.
Proof. by rewrite lookup_total_insert. Qed.
Lemma ltm_insert_ne {V} `{!Inhabited V} (m : gmap nat V) k k' v : k ≠ k' → <[k:=v]> m !!! k' = m !!! k'.
Proof. intros. by rewrite lookup_total_insert_ne. Qed.

(** Tactics.  [mrun] inverts hypotheses [m s = (Ok _, _)]. *)
Lemma ret_eq {S A} (a : A) (s : S) r s' : ret a s = (r, s') ↔ r = Ok a ∧ s' = s.
Proof. unfold ret. naive_solver. Qed.
Lemma raise_eq {S A} e (s : S) (r : res A) s' : raise e s = (r, s') ↔ r = Err e ∧ s' = s.
Proof. unfold raise. naive_solver. Qed.
Lemma lift_eq {S A} (x : res A) (s : S) r s' : lift x s = (r, s') ↔ r = x ∧ s' = s.
Proof. unfold lift. naive_solver. Qed.
Lemma gets_eq {S A} (f : S → A) (s : S) r s' : gets f s = (r, s') ↔ r = Ok (f s) ∧ s' = s.
Proof. unfold gets. naive_solver. Qed.
Lemma modify_eq {S} (f : S → S) (s : S) r s' : modify f s = (r, s') ↔ r = Ok tt ∧ s' = f s.
Proof. unfold modify. naive_solver. Qed.

Ltac mrun1 :=
  match goal with
  | H : bind _ _ _ = (Ok _, _) |- _ =>
    apply bind_ok in H; destruct H as (? & ? & ? & H); simpl in H
  | H : ret _ _ = (_, _) |- _ => apply ret_eq in H; destruct H as [? ?]; simplify_eq/=
  | H : raise _ _ = (_, _) |- _ => apply raise_eq in H; destruct H as [? ?]; simplify_eq/=
  | H : lift _ _ = (_, _) |- _ => apply lift_eq in H; destruct H as [? ?]; simplify_eq/=
  | H : gets _ _ = (_, _) |- _ => apply gets_eq in H; destruct H as [? ?]; simplify_eq/=
  | H : modify _ _ = (_, _) |- _ => apply modify_eq in H; destruct H as [? ?]; simplify_eq/=
  | H : or_raise _ _ _ = (Ok _, _) |- _ => apply or_raise_ok in H; destruct H as [? ?]; simplify_eq/=
  end.
Ltac mrun := repeat mrun1.

Ltac unfold_heap :=
  unfold get_geom, get_pv, get_lane, get_sec, get_lanes, get_linker, get_conn, get_junc, get_obj, get_road, get_odr,
    upd_geom, upd_pv, upd_lane, upd_sec, upd_lanes, upd_linker, upd_conn, upd_junc, upd_obj, upd_road, upd_odr in *.

(** [mleaf H]: [H] is a run of a primitive operation *)
Ltac mleaf H :=
  unfold get_geom, get_pv, get_lane, get_sec, get_lanes, get_linker, get_conn, get_junc, get_obj, get_road, get_odr,
    upd_geom, upd_pv, upd_lane, upd_sec, upd_lanes, upd_linker, upd_conn, upd_junc, upd_obj, upd_road, upd_odr in H;
  lazymatch type of H with
  | ret _ _ = _ => apply ret_eq in H
  | raise _ _ = _ => apply raise_eq in H
  | lift _ _ = _ => apply lift_eq in H
  | gets _ _ = _ => apply gets_eq in H
  | modify _ _ = _ => apply modify_eq in H
  | or_raise _ _ _ = (Ok _, _) => apply or_raise_ok in H
  end;
  destruct H as [? ?]; simplify_eq/=.

(** [mstep H]: [H : bind m k s = (Ok _, _)] with [m] a primitive operation: run it *)
Ltac mstep H :=
  let Hm := fresh "Hm" in
  apply bind_ok in H; destruct H as (? & ? & Hm & H); mleaf Hm.

(** [mexec]: run the first primitive operation of the goal's computation *)
Ltac mexec :=
  match goal with
  | |- context [bind (gets ?f) ?k ?s] => rewrite (bind_run (gets f) k s _ _ eq_refl)
  | |- context [bind (ret ?f) ?k ?s] => rewrite (bind_run (ret f) k s _ _ eq_refl)
  | |- context [bind (modify ?f) ?k ?s] => rewrite (bind_run (modify f) k s _ _ eq_refl)
  end; cbv beta.

Lemma elem_of_rev {A} (x : A) (l : list A) : x ∈ rev l ↔ x ∈ l.
Proof. rewrite !elem_of_list_In. symmetry. apply in_rev. Qed.

Lemma bind_gets {S A B} (f : S → A) (k : A → M S B) s : bind (gets f) k s = k (f s) s.
Proof. done. Qed.
Lemma bind_ret {S A B} (a : A) (k : A → M S B) s : bind (ret a) k s = k a s.
Proof. done. Qed.
Lemma run_ok {S A} (m : M S A) s a : (m s).1 = Ok a → m s = (Ok a, (m s).2).
Proof. intros <-. apply surjective_pairing. Qed.
Lemma run_err {S A} (m : M S A) s e : (m s).1 = Err e → m s = (Err e, (m s).2).
Proof. intros <-. apply surjective_pairing. Qed.
Lemma bind_lift_ok {S A B} (a : A) (k : A → M S B) s : bind (lift (Ok a)) k s = k a s.
Proof. done. Qed.
Lemma bind_lift_err {S A B} e (k : A → M S B) s : bind (lift (Err e)) k s = (Err e, s).
Proof. done. Qed.
