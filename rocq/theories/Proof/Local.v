(** What a call in place reads (C64) *)
From Coq Require Import ssreflect.
From Verif.Model Require Import Api.
From Verif.Spec Require Import SpecChain SpecState SpecNetwork SpecFrame SpecLocal.
From Verif.Proof Require Import Monad DictFacts PlanViewFacts NetFrame Reach Steps Frame.
Local Open Scope general_if_scope.

Section Local.
  Context {F : Type} `{!Num F}.
  Local Arguments geom_end : simpl never.
  Local Arguments geom_start : simpl never.
  Implicit Types (h : heap F).

  Lemma same_lt {V} `{!Inhabited V} (m m' : gmap nat V) r : m' !! r = m !! r → m !!! r = m' !!! r.
  Proof. intros E. by rewrite !lookup_total_alt E. Qed.

  Definition agree (P : ref → Prop) h1 h2 : Prop := ∀ r, P r → same_object h1 h2 r.

  (** [rl I P m Q h1 h2]: run from two states that agree on [P], of which the first satisfies [I], [m] has the same outcome and ends in
      states that agree on [P]; [I] is kept, nothing is allocated; if it returns, the value satisfies [Q]. *)
  Section Rules.
    Context (I : heap F → Prop) (P : ref → Prop).
    Definition rl {A} (m : H (F:=F) A) (Q : A → Prop) h1 h2 : Prop :=
      I h1 → agree P h1 h2 →
      I (m h1).2 ∧ agree P (m h1).2 (m h2).2 ∧ h_next (m h1).2 = h_next h1 ∧ (m h1).1 = (m h2).1 ∧ ∀ a, (m h1).1 = Ok a → Q a.
    Notation any := (λ _, True).

    Lemma rl_inv {A} (m : H (F:=F) A) Q h1 h2 : (I h1 → agree P h1 h2 → rl m Q h1 h2) → rl m Q h1 h2.
    Proof. intros H HI HA. by apply H. Qed.
    Lemma rl_bind {A B} (m : H (F:=F) A) (k : A → H (F:=F) B) R Q h1 h2 :
      rl m R h1 h2 → (∀ a h1' h2', R a → rl (k a) Q h1' h2') → rl (bind m k) Q h1 h2.
    Proof.
      intros Hm Hk HI HA. destruct (Hm HI HA) as (I1 & A1 & N1 & E1 & Q1). unfold bind.
      destruct (m h1) as [[a|e] h1'], (m h2) as [[a'|e'] h2']; simpl in *; try discriminate; [|split_and!; try done; congruence].
      injection E1 as <-. destruct (Hk a h1' h2' (Q1 _ eq_refl) I1 A1) as (I2 & A2 & N2 & E2 & Q2). split_and!; try done. congruence.
    Qed.
    Lemma rl_bindT {A B} (m : H (F:=F) A) (k : A → H (F:=F) B) Q h1 h2 :
      rl m any h1 h2 → (∀ a h1' h2', rl (k a) Q h1' h2') → rl (bind m k) Q h1 h2.
    Proof. intros Hm Hk. eapply rl_bind; [exact Hm|]. intros. apply Hk. Qed.
    Lemma rl_bgets {A B} (f : heap F → A) (k : A → H (F:=F) B) Q h1 h2 :
      (I h1 → agree P h1 h2 → f h1 = f h2) → (I h1 → rl (k (f h1)) Q h1 h2) → rl (bind (gets f) k) Q h1 h2.
    Proof. intros Hf Hk HI HA. unfold bind, gets. rewrite -(Hf HI HA). by apply Hk. Qed.
    Lemma rl_gets {A} (f : heap F → A) (Q : A → Prop) h1 h2 :
      (I h1 → agree P h1 h2 → f h1 = f h2) → (I h1 → Q (f h1)) → rl (gets f) Q h1 h2.
    Proof. intros Hf HQ HI HA. unfold gets. simpl. split_and!; [done|done|done|by rewrite -(Hf HI HA)|]. intros a [= <-]. by apply HQ. Qed.
    Lemma rl_ret {A} (a : A) (Q : A → Prop) h1 h2 : Q a → rl (ret a) Q h1 h2.
    Proof. intros HQ HI HA. split_and!; try done. by intros ? [= <-]. Qed.
    Lemma rl_raise {A} e (Q : A → Prop) h1 h2 : rl (raise e) Q h1 h2.
    Proof. intros HI HA. by split_and!. Qed.
    Lemma rl_or_raise {A} e (o : option A) (Q : A → Prop) h1 h2 : (∀ a, o = Some a → Q a) → rl (or_raise e o) Q h1 h2.
    Proof. intros HQ. destruct o; [apply rl_ret; auto|apply rl_raise]. Qed.
    Lemma rl_lift {A} (o : res A) (Q : A → Prop) h1 h2 : (∀ a, o = Ok a → Q a) → rl (lift o) Q h1 h2.
    Proof. intros HQ HI HA. by split_and!. Qed.
    Lemma rl_for_each {A} (f : A → H (F:=F) unit) l h1 h2 : (∀ x h1' h2', x ∈ l → rl (f x) any h1' h2') → rl (for_each f l) any h1 h2.
    Proof.
      revert h1 h2. induction l as [|x l IH]; intros h1 h2 Hf; simpl; [by apply rl_ret|].
      eapply rl_bindT; [apply Hf; by left|]. intros _ h1' h2'. apply IH. intros y h3 h4 Hy. apply Hf. by right.
    Qed.

    Lemma agree_ltm {V} `{!Inhabited V} (f : heap F → gmap nat V) h1 h2 r :
      (∀ h h', same_object h h' r → f h' !! r = f h !! r) → P r → agree P h1 h2 → f h1 !!! r = f h2 !!! r.
    Proof. intros Hf Hr HA. apply same_lt, Hf, HA, Hr. Qed.
    Ltac rd := intros; eapply agree_ltm; [|eassumption|eassumption]; intros ? ? X; apply X.
    Lemma a_geom h1 h2 r : P r → agree P h1 h2 → h_geom h1 !!! r = h_geom h2 !!! r. Proof. rd. Qed.
    Lemma a_pv h1 h2 r : P r → agree P h1 h2 → h_pv h1 !!! r = h_pv h2 !!! r. Proof. rd. Qed.
    Lemma a_lane h1 h2 r : P r → agree P h1 h2 → h_lane h1 !!! r = h_lane h2 !!! r. Proof. rd. Qed.
    Lemma a_sec h1 h2 r : P r → agree P h1 h2 → h_sec h1 !!! r = h_sec h2 !!! r. Proof. rd. Qed.
    Lemma a_lanes h1 h2 r : P r → agree P h1 h2 → h_lanes h1 !!! r = h_lanes h2 !!! r. Proof. rd. Qed.
    Lemma a_linker h1 h2 r : P r → agree P h1 h2 → h_linker h1 !!! r = h_linker h2 !!! r. Proof. rd. Qed.
    Lemma a_conn h1 h2 r : P r → agree P h1 h2 → h_conn h1 !!! r = h_conn h2 !!! r. Proof. rd. Qed.
    Lemma a_junc h1 h2 r : P r → agree P h1 h2 → h_junc h1 !!! r = h_junc h2 !!! r. Proof. rd. Qed.
    Lemma a_obj h1 h2 r : P r → agree P h1 h2 → h_obj h1 !!! r = h_obj h2 !!! r. Proof. rd. Qed.
    Lemma a_road h1 h2 r : P r → agree P h1 h2 → h_road h1 !!! r = h_road h2 !!! r. Proof. rd. Qed.
    Lemma a_odr h1 h2 r : P r → agree P h1 h2 → h_odr h1 !!! r = h_odr h2 !!! r. Proof. rd. Qed.

    Ltac leaf lem := intros HI HP HI' HA; pose proof (lem _ _ _ HP HA) as E; simpl; split_and!; [by apply HI| |done|done|done];
      intros r' Hr'; pose proof (HA r' Hr') as (?&?&?&?&?&?&?&?&?&?&?); split_and!; simpl; try assumption;
      rewrite E; match goal with |- <[?r:=_]> _ !! _ = _ => destruct (decide (r = r')) as [<-|] end;
      [by rewrite !lookup_insert|by rewrite !lookup_insert_ne].
    Lemma rl_geom r f h1 h2 : (I h1 → I (upd_geom r f h1).2) → P r → rl (upd_geom r f) any h1 h2. Proof. leaf a_geom. Qed.
    Lemma rl_pv r f h1 h2 : (I h1 → I (upd_pv r f h1).2) → P r → rl (upd_pv r f) any h1 h2. Proof. leaf a_pv. Qed.
    Lemma rl_lane r f h1 h2 : (I h1 → I (upd_lane r f h1).2) → P r → rl (upd_lane r f) any h1 h2. Proof. leaf a_lane. Qed.
    Lemma rl_sec r f h1 h2 : (I h1 → I (upd_sec r f h1).2) → P r → rl (upd_sec r f) any h1 h2. Proof. leaf a_sec. Qed.
    Lemma rl_lanes r f h1 h2 : (I h1 → I (upd_lanes r f h1).2) → P r → rl (upd_lanes r f) any h1 h2. Proof. leaf a_lanes. Qed.
    Lemma rl_linker r f h1 h2 : (I h1 → I (upd_linker r f h1).2) → P r → rl (upd_linker r f) any h1 h2. Proof. leaf a_linker. Qed.
    Lemma rl_conn r f h1 h2 : (I h1 → I (upd_conn r f h1).2) → P r → rl (upd_conn r f) any h1 h2. Proof. leaf a_conn. Qed.
    Lemma rl_junc r f h1 h2 : (I h1 → I (upd_junc r f h1).2) → P r → rl (upd_junc r f) any h1 h2. Proof. leaf a_junc. Qed.
    Lemma rl_obj r f h1 h2 : (I h1 → I (upd_obj r f h1).2) → P r → rl (upd_obj r f) any h1 h2. Proof. leaf a_obj. Qed.
    Lemma rl_road r f h1 h2 : (I h1 → I (upd_road r f h1).2) → P r → rl (upd_road r f) any h1 h2. Proof. leaf a_road. Qed.
    Lemma rl_odr r f h1 h2 : (I h1 → I (upd_odr r f h1).2) → P r → rl (upd_odr r f) any h1 h2. Proof. leaf a_odr. Qed.
  End Rules.
  Notation any := (λ _, True).

  Section Struct.
    Context (h0 : heap F) (P : ref → Prop).
    Notation R_ m Q h1 h2 := (rl (struct h0) P m Q h1 h2).
    Lemma sr_geom r f h1 h2 : P r → R_ (upd_geom r f) any h1 h2.
    Proof. intros. by apply rl_geom. Qed.
    Lemma sr_lane r f h1 h2 : P r → R_ (upd_lane r f) any h1 h2.
    Proof. intros. by apply rl_lane. Qed.
    Lemma sr_pv r f h1 h2 : P r → (∀ p, pv_raw (f p) = pv_raw p) → R_ (upd_pv r f) any h1 h2.
    Proof.
      intros Ho Hf. apply rl_pv; [|done]. intros (H1 & H2 & H3 & H4 & H5). split_and!; [done..|]. intros x. simpl.
      destruct (decide (r = x)) as [<-|Hne]; [rewrite ltm_insert Hf|rewrite ltm_insert_ne //]; apply H5.
    Qed.
    Lemma sr_eval_end g x y hd h1 h2 : P g → R_ (eval_end g x y hd) any h1 h2.
    Proof.
      intros Hg. apply rl_bgets; [intros _; by apply a_geom|intros _]. destruct (geom_end _ x y hd) as [r o].
      eapply rl_bindT; [by apply sr_geom|]. intros. by apply rl_lift.
    Qed.
    Lemma sr_eval_start g x y hd h1 h2 : P g → R_ (eval_start g x y hd) any h1 h2.
    Proof.
      intros Hg. apply rl_bgets; [intros _; by apply a_geom|intros _]. destruct (geom_start _ x y hd) as [r o].
      eapply rl_bindT; [by apply sr_geom|]. intros. by apply rl_lift.
    Qed.
    Lemma sr_pgeom_init s x y hd g h1 h2 : P g → R_ (pgeom_init s x y hd g) (λ ng, pg_geom ng = g) h1 h2.
    Proof. intros. eapply rl_bindT; [by apply sr_eval_end|]. intros. by apply rl_ret. Qed.
    Lemma sr_set_start pv x y hd h1 h2 : P pv → R_ (pv_set_start_point pv x y hd) any h1 h2.
    Proof. intros. by apply sr_pv. Qed.
    Lemma sr_forward pv gs : P pv → (∀ g, g ∈ gs → P g) → ∀ i h1 h2, R_ (adjust_forward pv i gs) any h1 h2.
    Proof.
      intros Hp. induction gs as [|g gs IH]; intros Hgs i h1 h2; simpl; [by apply rl_ret|].
      assert (Hg : P g) by (apply Hgs; by left).
      apply rl_bgets; [intros _; by apply a_pv|intros _]. eapply rl_bindT; [|intros _ h3 h4].
      { destruct (decide _); [|by apply rl_ret]. eapply rl_bindT; [by apply rl_or_raise|]. intros. by apply sr_pv. }
      apply rl_bgets; [intros _; by apply a_pv|intros _]. eapply rl_bind; [by apply sr_pgeom_init|]. intros ng h5 h6 Hng.
      eapply rl_bindT; [apply sr_eval_end; by rewrite Hng|]. intros [[[x y] hd] l] h7 h8.
      eapply rl_bindT; [by apply sr_pv|]. intros _ h9 h10. eapply rl_bindT; [by apply rl_or_raise|]. intros l' h11 h12.
      eapply rl_bindT; [by apply sr_pv|]. intros _ h13 h14. eapply rl_bindT; [by apply sr_pv|]. intros _ h15 h16.
      apply IH. intros g' Hg'. apply Hgs. by right.
    Qed.
    Lemma sr_backward pv gs : P pv → (∀ g, g ∈ gs → P g) → ∀ h1 h2, R_ (adjust_backward pv gs) any h1 h2.
    Proof.
      intros Hp. induction gs as [|g gs IH]; intros Hgs h1 h2; simpl; [by apply rl_ret|].
      assert (Hg : P g) by (apply Hgs; by left).
      apply rl_bgets; [intros _; by apply a_pv|intros _]. eapply rl_bind; [by apply sr_pgeom_init|]. intros ng h3 h4 Hng.
      eapply rl_bindT. { eapply rl_bindT; [apply sr_eval_start; by rewrite Hng|]. intros [[[x y] hd] l] h5 h6. by apply rl_ret. }
      intros [[[[x y] hd] l] ng'] h5 h6. eapply rl_bindT; [by apply sr_pv|]. intros _ h7 h8. eapply rl_bindT; [by apply sr_pv|]. intros _ h9 h10.
      eapply rl_bindT; [apply IH; intros g' Hg'; apply Hgs; by right|]. intros. by apply rl_ret.
    Qed.
    Lemma sr_assign pv ls : P pv → ∀ h1 h2, R_ (assign_s pv ls) any h1 h2.
    Proof.
      intros Hp. induction ls as [|l ls IH]; intros h1 h2; simpl; [by apply rl_ret|].
      eapply rl_bindT; [by apply sr_pv|]. intros _ h3 h4. eapply rl_bindT; [by apply sr_pv|]. intros _ h5 h6. apply IH.
    Qed.
    Lemma sr_adjust pv bb h1 h2 : P pv → (∀ g, g ∈ pv_raw (h_pv h0 !!! pv) → P g) → R_ (adjust_geometries pv bb) any h1 h2.
    Proof.
      intros Hp Hg. eapply rl_bindT; [|intros; by apply sr_pv]. destruct bb; simpl.
      - eapply rl_bindT; [by apply sr_pv|]. intros _ h3 h4. apply rl_bgets; [intros _; by apply a_pv|intros (_ & _ & _ & _ & Hr)].
        eapply rl_bindT; [apply sr_backward; [done|]; intros g; rewrite elem_of_rev Hr; apply Hg|]. intros ls h5 h6.
        eapply rl_bindT; [by apply sr_pv|]. intros _ h7 h8. eapply rl_bindT; [by apply rl_or_raise|]. intros ls' h9 h10.
        eapply rl_bindT; [by apply sr_pv|]. intros _ h11 h12. by apply sr_assign.
      - eapply rl_bindT; [by apply sr_pv|]. intros _ h3 h4. apply rl_bgets; [intros _; by apply a_pv|intros (_ & _ & _ & _ & Hr)].
        eapply rl_bindT; [apply sr_forward; [done|]; intros g; rewrite Hr; apply Hg|]. intros _ h5 h6. by apply sr_pv.
    Qed.

    (** placing *)
    Section Place.
      Context (d : ref) (Hd : P d).
      Notation roads := (od_roads (h_odr h0 !!! d)).
      Lemma sr_get_odr {B} (k : opendrive → H (F:=F) B) Q h1 h2 : R_ (k (h_odr h0 !!! d)) Q h1 h2 → R_ (bind (get_odr d) k) Q h1 h2.
      Proof. intros Hk. apply rl_bgets; [intros _; by apply a_odr|]. intros (_ & HO & _). by rewrite HO. Qed.
      Lemma sr_get_road {B} x (k : road → H (F:=F) B) Q h1 h2 : P x → R_ (k (h_road h0 !!! x)) Q h1 h2 → R_ (bind (get_road x) k) Q h1 h2.
      Proof. intros Hx Hk. apply rl_bgets; [intros _; by apply a_road|]. intros (HR & _). by rewrite HR. Qed.
      Definition pv_in (pv : ref) : Prop := P pv ∧ ∀ g, g ∈ pv_raw (h_pv h0 !!! pv) → P g.
      Lemma sr_neighbour_pose pv cp h1 h2 : P pv → R_ (neighbour_pose pv cp) any h1 h2.
      Proof.
        intros Hp. apply rl_bgets; [intros _; by apply a_pv|intros _]. destruct cp as [[]|].
        - eapply rl_bindT; [by apply rl_or_raise|]. intros [[x y] hd] h3 h4. by apply rl_ret.
        - by apply rl_or_raise.
        - apply rl_raise.
      Qed.
      Definition road_ok (k : string) : Prop := ∀ x, dict_get roads k = Some x →
        P x ∧ P (rd_planview (h_road h0 !!! x)) ∧ ∀ g, g ∈ pv_raw (view h0 (h_road h0 !!! x)) → P g.
      Lemma sr_road_ok k h1 h2 : road_ok k → R_ (road_at roads k) (λ x, P x ∧ pv_in (rd_planview (h_road h0 !!! x))) h1 h2.
      Proof. intros Hk. apply rl_or_raise. intros x Hx. by apply Hk in Hx. Qed.
      Lemma sr_planview_ok k h1 h2 : road_ok k → R_ (planview_at roads k) pv_in h1 h2.
      Proof.
        intros Hk. eapply rl_bind; [by apply sr_road_ok|]. intros x h3 h4 [Hx Hpv]. apply sr_get_road; [done|]. by apply rl_ret.
      Qed.
      Lemma sr_awn_two k k2 cp bb h1 h2 : road_ok k → road_ok k2 → R_ (adjust_road_wrt_neighbour d k k2 cp bb) any h1 h2.
      Proof.
        intros Hk Hk2. apply sr_get_odr. eapply rl_bind; [by apply sr_road_ok|]. intros mr h3 h4 [Hm [Hp Hg]]. apply sr_get_road; [done|].
        eapply (rl_bind _ _ _ _ pv_in); [destruct cp; [by apply sr_planview_ok|apply rl_raise]|]. intros npv h5 h6 [Hn _].
        eapply rl_bindT; [by apply sr_neighbour_pose|]. intros q h7 h8.
        destruct (if bb then _ else _) as [[x y] hd]. eapply rl_bindT; [by apply sr_set_start|]. intros _ h9 h10. by apply sr_adjust.
      Qed.
      Lemma sr_adjust_road_wrt k k2 cp kind h1 h2 : road_ok (pystr k) → road_ok (pystr k2) → R_ (adjust_road_wrt d k k2 cp kind) any h1 h2.
      Proof.
        intros Hk Hk2. unfold adjust_road_wrt. destruct (String.eqb kind _); [by apply sr_awn_two|].
        destruct (String.eqb kind _); [by apply sr_awn_two|]. apply sr_get_odr.
        eapply rl_bindT; [by apply rl_or_raise|]. intros. by apply rl_ret.
      Qed.
      Context (Hroad : ∀ k x, dict_get (od_roads (h_odr h0 !!! d)) k = Some x → P x ∧ P (rd_planview (h_road h0 !!! x)) ∧ ∀ g, g ∈ pv_raw (view h0 (h_road h0 !!! x)) → P g).
      Lemma sr_road_at k h1 h2 : R_ (road_at roads k) (λ x, P x ∧ pv_in (rd_planview (h_road h0 !!! x))) h1 h2.
      Proof. apply sr_road_ok. by intros x Hx%Hroad. Qed.
      Lemma sr_planview_at k h1 h2 : R_ (planview_at roads k) pv_in h1 h2.
      Proof. apply sr_planview_ok. by intros x Hx%Hroad. Qed.
      Lemma sr_awn k k2 cp bb h1 h2 : R_ (adjust_road_wrt_neighbour d k k2 cp bb) any h1 h2.
      Proof. apply sr_awn_two; by intros x Hx%Hroad. Qed.
      Lemma sr_lta k h1 h2 : R_ (link_target_adjusted roads k) any h1 h2.
      Proof.
        eapply rl_bind; [apply sr_planview_at|]. intros pv h3 h4 [Hp _]. apply rl_bgets; [intros _; by apply a_pv|intros _]. by apply rl_ret.
      Qed.
      Lemma sr_link_ready o h1 h2 : R_ (link_ready roads o) any h1 h2.
      Proof. destruct o as [k|]; [|by apply rl_ret]. eapply rl_bindT; [apply sr_lta|]. intros. by apply rl_ret. Qed.
      Lemma sr_other_succ k ty o h1 h2 : R_ (place_other_succ d k ty o) any h1 h2.
      Proof.
        unfold place_other_succ. destruct o; [|by apply rl_ret]. destruct (bool_decide _); [by apply rl_ret|].
        apply sr_get_odr. eapply rl_bindT; [apply sr_lta|]. intros [] h3 h4; [by apply rl_ret|].
        eapply rl_bindT; [apply sr_awn|]. intros. by apply rl_ret.
      Qed.
      Lemma sr_other_pred k ty o h1 h2 : R_ (place_other_pred d k ty o) any h1 h2.
      Proof.
        unfold place_other_pred. destruct o; [|by apply rl_ret]. destruct (bool_decide _); [by apply rl_ret|].
        apply sr_get_odr. eapply rl_bindT; [apply sr_lta|]. intros [] h3 h4; [by apply rl_ret|].
        eapply rl_bindT; [apply sr_awn|]. intros. by apply rl_ret.
      Qed.
      Lemma sr_sweep_road k h1 h2 : R_ (sweep_road d k) any h1 h2.
      Proof.
        apply sr_get_odr. eapply rl_bind; [apply sr_road_at|]. intros r h3 h4 [Hr [Hp _]]. apply sr_get_road; [done|].
        apply rl_bgets; [intros _; by apply a_pv|intros _].
        destruct (pv_adjusted _); [by apply rl_ret|]. eapply rl_bindT; [apply sr_link_ready|]. intros [] h5 h6.
        - destruct (rd_pred _); [|by apply rl_ret]. eapply rl_bindT; [apply sr_awn|]. intros _ h7 h8.
          eapply rl_bindT; [apply sr_other_succ|]. intros. by apply rl_ret.
        - eapply rl_bindT; [apply sr_link_ready|]. intros [] h7 h8; [|by apply rl_ret].
          destruct (rd_succ _); [|by apply rl_ret]. eapply rl_bindT; [apply sr_awn|]. intros _ h9 h10.
          eapply rl_bindT; [apply sr_other_pred|]. intros. by apply rl_ret.
      Qed.
      Lemma sr_sweep ks : ∀ h1 h2, R_ (sweep d ks) any h1 h2.
      Proof.
        induction ks as [|k ks IH]; intros h1 h2; simpl; [by apply rl_ret|]. eapply rl_bindT; [apply sr_sweep_road|]. intros c h3 h4.
        eapply rl_bindT; [apply IH|]. intros. by apply rl_ret.
      Qed.
      Lemma sr_place_loop fuel : ∀ total h1 h2, R_ (place_loop fuel d total) any h1 h2.
      Proof.
        induction fuel as [|fuel IH]; intros total h1 h2; cbn [place_loop]; apply sr_get_odr; destruct (decide _); try (by apply rl_ret); [apply rl_raise|].
        eapply rl_bindT; [apply sr_sweep|]. intros c h3 h4. destruct (decide _); [apply rl_raise|]. apply IH.
      Qed.
      Lemma sr_place_fixed ks : ∀ h1 h2, R_ (place_fixed d ks) any h1 h2.
      Proof.
        induction ks as [|k ks IH]; intros h1 h2; simpl; [by apply rl_ret|]. apply sr_get_odr.
        eapply rl_bind; [by apply sr_planview_at|]. intros pv h3 h4 [Hp Hg]. apply rl_bgets; [intros _; by apply a_pv|intros _].
        destruct (pv_fixed _); [|apply IH].
        eapply rl_bindT; [by apply sr_adjust|]. intros _ h5 h6. eapply rl_bindT; [apply IH|]. intros. by apply rl_ret.
      Qed.
      Lemma sr_adjust_startpoints h1 h2 : R_ (adjust_startpoints d) any h1 h2.
      Proof.
        unfold adjust_startpoints. apply sr_get_odr. eapply rl_bindT; [apply sr_place_fixed|].
        intros c h3 h4. eapply rl_bindT; [|intros; apply sr_place_loop].
        destruct c; [|by apply rl_ret]. eapply rl_bindT; [by apply rl_or_raise|]. intros k h5 h6.
        eapply rl_bind; [by apply sr_planview_at|]. intros pv h7 h8 [Hp Hg]. eapply rl_bindT; [by apply sr_adjust|]. intros. by apply rl_ret.
      Qed.
    End Place.

    (** lane links *)
    Lemma sr_add_link l ty id h1 h2 : P l → R_ (lane_add_link l ty id) any h1 h2.
    Proof. intros. eapply rl_bindT; [by apply rl_lift|]. intros. by apply sr_lane. Qed.
    Definition sec_in (s : lanesection F) : Prop := (∀ l, l ∈ ls_left s → P l) ∧ (∀ l, l ∈ ls_right s → P l).
    Definition road_in (o : road) : Prop := P (rd_lanes o) ∧ ∀ s, s ∈ h_lanes h0 !!! rd_lanes o → P s ∧ sec_in (h_sec h0 !!! s).
    Lemma sr_section o i h1 h2 : road_in o → R_ (road_section o i) sec_in h1 h2.
    Proof.
      intros [Hl Ho]. apply rl_bgets; [intros _; by apply a_lanes|]. intros (_ & _ & HL & _). rewrite HL.
      eapply (rl_bind _ _ _ _ (λ s, s ∈ h_lanes h0 !!! rd_lanes o)).
      - destruct i; [|apply rl_raise]. apply rl_or_raise. intros x Hx. by eapply py_index_elem.
      - intros s h3 h4 Hs. destruct (Ho s Hs) as [Ps Hsec]. apply rl_gets; [intros _; by apply a_sec|]. intros (_ & _ & _ & HS & _). by rewrite HS.
    Qed.
    Lemma sr_id_times l s h1 h2 : P l → R_ (lane_id_times l s) any h1 h2.
    Proof. intros Hl. apply rl_bgets; [intros _; by apply a_lane|intros _]. eapply rl_bindT; [by apply rl_or_raise|]. intros. eapply rl_bindT; [by apply rl_or_raise|]. intros. by apply rl_ret. Qed.
    Lemma sr_left s i h1 h2 : sec_in s → R_ (or_raise IndexError (ls_left s !! i)) P h1 h2.
    Proof. intros [Hs _]. apply rl_or_raise. intros l Hl. by eapply Hs, elem_of_list_lookup_2. Qed.
    Lemma sr_right s i h1 h2 : sec_in s → R_ (or_raise IndexError (ls_right s !! i)) P h1 h2.
    Proof. intros [_ Hs]. apply rl_or_raise. intros l Hl. by eapply Hs, elem_of_list_lookup_2. Qed.
    Ltac sect := eapply rl_bind; [apply sr_section; assumption|].
    Lemma sr_links_connecting c r h1 h2 : P c → P r → road_in (h_road h0 !!! c) → road_in (h_road h0 !!! r) → R_ (create_links_connecting_road c r) any h1 h2.
    Proof.
      intros Pc Pr Hc Hr. apply sr_get_road; [done|]. apply sr_get_road; [done|].
      set (C := h_road h0 !!! c) in *. set (R := h_road h0 !!! r) in *.
      eapply rl_bindT; [by apply rl_lift|]. intros [[lt sg] csec] ? ?. eapply rl_bindT; [by apply rl_lift|]. intros [[? ?] rsec] ? ?.
      destruct csec as [ci|]; [|by apply rl_ret]. sect. intros s ? ? Hs. eapply rl_bindT; [|intros _ ? ?].
      - destruct (ls_left _) eqn:El; [by apply rl_ret|]. clear El. sect. intros s' ? ? _. apply rl_for_each.
        intros i ? ? _. sect. intros s1 ? ? Hs1. eapply rl_bind; [by apply sr_left|]. intros rl ? ? Hrl.
        eapply rl_bindT; [by apply sr_id_times|]. intros k ? ?. sect. intros s2 ? ? Hs2.
        eapply rl_bind; [by apply sr_left|]. intros cl ? ? Hcl. by apply sr_add_link.
      - sect. intros s3 ? ? Hs3. destruct (ls_right _) eqn:El; [by apply rl_ret|]. clear El. apply rl_for_each.
        intros i ? ? _. sect. intros s1 ? ? Hs1. eapply rl_bind; [by apply sr_right|]. intros rl ? ? Hrl.
        eapply rl_bindT; [by apply sr_id_times|]. intros k ? ?. sect. intros s2 ? ? Hs2.
        eapply rl_bind; [by apply sr_right|]. intros cl ? ? Hcl. by apply sr_add_link.
    Qed.
    Lemma sr_links_roads p s h1 h2 : P p → P s → road_in (h_road h0 !!! p) → road_in (h_road h0 !!! s) → R_ (create_links_roads p s) any h1 h2.
    Proof.
      intros Pc Pr Hc Hr. apply sr_get_road; [done|]. apply sr_get_road; [done|].
      set (C := h_road h0 !!! p) in *. set (R := h_road h0 !!! s) in *.
      eapply rl_bindT; [by apply rl_lift|]. intros [[lt sg] csec] ? ?. eapply rl_bindT; [by apply rl_lift|]. intros [[? ?] rsec] ? ?.
      sect. intros s1 ? ? _. sect. intros s2 ? ? _. eapply rl_bindT; [|intros _ ? ?].
      - destruct (bool_decide _); [|apply rl_raise]. apply rl_for_each. intros i ? ? _. sect. intros s3 ? ? Hs3.
        eapply rl_bind; [by apply sr_left|]. intros pl ? ? Hpl. eapply rl_bindT; [by apply sr_id_times|]. intros k ? ?.
        eapply rl_bindT; [by apply sr_add_link|]. intros _ ? ?. sect. intros s4 ? ? Hs4.
        eapply rl_bind; [by apply sr_left|]. intros sl ? ? Hsl. eapply rl_bindT; [by apply rl_or_raise|]. intros. by apply sr_add_link.
      - sect. intros s3 ? ? _. sect. intros s4 ? ? _. destruct (bool_decide _); [|apply rl_raise]. apply rl_for_each. intros i ? ? _.
        sect. intros s5 ? ? Hs5. eapply rl_bind; [by apply sr_right|]. intros pl ? ? Hpl. apply rl_bgets; [intros _; by apply a_lane|intros _].
        eapply rl_bindT; [by apply sr_add_link|]. intros _ ? ?. sect. intros s6 ? ? Hs6.
        eapply rl_bind; [by apply sr_right|]. intros sl ? ? Hsl. by apply sr_add_link.
    Qed.
    Lemma sr_create_lane_links r1 r2 h1 h2 : P r1 → P r2 → road_in (h_road h0 !!! r1) → road_in (h_road h0 !!! r2) → R_ (create_lane_links r1 r2) any h1 h2.
    Proof.
      intros P1 P2 H1 H2. apply sr_get_road; [done|]. apply sr_get_road; [done|].
      destruct (_ && _); [destruct (are_roads_consecutive _ _); [by apply sr_links_roads|]; destruct (are_roads_consecutive _ _); [by apply sr_links_roads|by apply rl_ret]|].
      destruct (negb _); by apply sr_links_connecting.
    Qed.
    Lemma sr_link_all d h1 h2 : P d → (∀ k x, dict_get (od_roads (h_odr h0 !!! d)) k = Some x → P x ∧ road_in (h_road h0 !!! x)) →
      (∀ k x, dict_get (od_roads (h_odr h0 !!! d)) k = Some x → P x ∧ P (rd_planview (h_road h0 !!! x)) ∧ ∀ g, g ∈ pv_raw (view h0 (h_road h0 !!! x)) → P g) →
      R_ (adjust_roads_and_lanes d) any h1 h2.
    Proof.
      intros Hd Ho Hc. eapply rl_bindT; [by apply sr_adjust_startpoints|]. intros _ h3 h4. apply sr_get_odr; [done|].
      apply rl_for_each. intros [k1 k2] h5 h6 _. simpl.
      eapply rl_bind; [apply (rl_or_raise _ _ _ _ (λ x, P x ∧ road_in (h_road h0 !!! x))); intros; by eapply Ho|]. intros r1 h7 h8 [P1 Hr1].
      eapply rl_bind; [apply (rl_or_raise _ _ _ _ (λ x, P x ∧ road_in (h_road h0 !!! x))); intros; by eapply Ho|]. intros r2 h9 h10 [P2 Hr2].
      by apply sr_create_lane_links.
    Qed.
  End Struct.

  (** linkers *)
  Section Linkers.
    Context (h0 : heap F) (P : ref → Prop).
    Notation R_ m Q h1 h2 := (rl (same_pairs h0) P m Q h1 h2).
    Lemma lr_use k i h1 h2 : P k → (∀ l, lane_of_linker h0 k l → P l) → R_ (use_lanelink k i) any h1 h2.
    Proof.
      intros Hk Hl. apply rl_bgets; [intros _; by apply a_linker|intros HI]. destruct (_ !! i) as [p|] eqn:Ep; [|by apply rl_ret].
      destruct (ll_used p); [by apply rl_ret|].
      assert (Hp : P (ll_pred p) ∧ P (ll_succ p)).
      { apply elem_of_list_lookup_2 in Ep. apply (elem_of_list_fmap_1 (λ p, (ll_pred p, ll_succ p))) in Ep.
        change (map _ _) with (pairs (h_linker h1 !!! k)) in Ep.
        assert (E : (ll_pred p, ll_succ p) ∈ pairs (h_linker h0 !!! k)) by (rewrite -HI; exact Ep).
        apply elem_of_list_fmap in E as (q & E & Hq). injection E as E1 E2.
        split; apply Hl; exists q; auto. }
      destruct Hp as [Hp Hs]. apply rl_bgets; [intros _; by apply a_lane|intros _].
      assert (Hadd : ∀ l ty id h3 h4, P l → R_ (lane_add_link l ty id) any h3 h4).
      { intros l ty id h3 h4 HPl. eapply rl_bindT; [by apply rl_lift|]. intros. by apply rl_lane. }
      eapply rl_bindT; [by apply Hadd|]. intros _ h3 h4. apply rl_bgets; [intros _; by apply a_lane|intros _].
      eapply rl_bindT; [by apply Hadd|]. intros _ h5 h6. apply rl_linker; [|done]. clear. intros HI x. simpl.
      destruct (decide (k = x)) as [<-|Hne]; [rewrite ltm_insert pairs_alter|rewrite ltm_insert_ne //]; apply HI.
    Qed.
    Lemma lr_add_lanesection ls sec ks h1 h2 : P ls → (∀ k, k ∈ ks → P k ∧ ∀ l, lane_of_linker h0 k l → P l) → R_ (add_lanesection ls sec ks) any h1 h2.
    Proof.
      intros Hls Hks. eapply rl_bindT; [|intros; by apply rl_lanes]. apply rl_for_each. intros k h3 h4 Hk. destruct (Hks k Hk) as [Pk Hl].
      apply rl_bgets; [intros _; by apply a_linker|intros _]. apply rl_for_each. intros i h5 h6 _. by apply lr_use.
    Qed.
  End Linkers.

  (** *** the calls *)
  Definition local_at (P : ref → Prop) (o : op F) h1 h2 : Prop :=
    (step o h1).1 = (step o h2).1 ∧ h_next (step o h1).2 = h_next h1 ∧ agree P (step o h1).2 (step o h2).2.
  Lemma local_rl P (I : heap F → Prop) (m : H (F:=F) (retval F)) o h1 h2 Q :
    m = step o → I h1 → agree P h1 h2 → rl I P m Q h1 h2 → local_at P o h1 h2.
  Proof. intros -> HI HA Hf. destruct (Hf HI HA) as (_ & H1 & H2 & H3 & _). by split_and!. Qed.
  Lemma rl_guarded (I : heap F → Prop) P g m Q h1 h2 : (agree P h1 h2 → g h1 = g h2) → rl I P m Q h1 h2 → rl I P (guarded g m) Q h1 h2.
  Proof. intros Hg Hm HI HA. unfold guarded. rewrite -(Hg HA). destruct (g h1); [by apply Hm|]. simpl. by split_and!. Qed.
  Lemma rl_as_unit (I : heap F → Prop) P m Q h1 h2 : rl I P m Q h1 h2 → rl I P (as_unit m) any h1 h2.
  Proof. intros. eapply rl_bind; [done|]. intros. by apply rl_ret. Qed.
  Lemma rl_as_pose (I : heap F → Prop) P m Q h1 h2 : rl I P m Q h1 h2 → rl I P (as_pose m) any h1 h2.
  Proof. intros. eapply rl_bind; [done|]. intros [[[x y] hd] l] h3 h4 _. by apply rl_ret. Qed.
  Lemma has_eq {V} (f : heap F → gmap nat V) r h1 h2 : f h2 !! r = f h1 !! r → has f r h1 = has f r h2.
  Proof. intros E. unfold has. by rewrite E. Qed.
  Lemma all_have_eq {V} (f : heap F → gmap nat V) rs h1 h2 : (∀ r, r ∈ rs → f h2 !! r = f h1 !! r) → all_have f rs h1 = all_have f rs h2.
  Proof.
    unfold all_have. induction rs as [|r rs IH]; intros E; [done|]. simpl. rewrite (has_eq f r h1 h2); [apply E; by left|].
    rewrite IH //. intros x Hx. apply E. by right.
  Qed.
  Ltac gd := let X := fresh "X" in intros X; repeat first [apply has_eq; apply X; match goal with HP : ∀ r, works_on _ _ r → _ |- _ => apply HP end; simpl; tauto | apply f_equal2].
  Ltac wr := apply rl_guarded; [try (gd; fail)|first [eapply rl_as_unit|eapply rl_as_pose]].
  Ltac T := eapply (local_rl _ (λ _, True) _ _ _ _ any eq_refl I); [assumption|]; simpl; wr.
  Ltac S h := eapply (local_rl _ (struct h) _ _ _ _ any eq_refl (struct_refl h)); [assumption|]; simpl; wr.
  Ltac own := match goal with HP : ∀ r, works_on _ _ r → _ |- _ => apply HP end; simpl; auto.
  Lemma dict_get_in {V} (m : dict V) k v : dict_get m k = Some v → (k, v) ∈ m.
  Proof.
    induction m as [|[k' v'] m IH]; [done|]. simpl. destruct (String.eqb_spec k k') as [->|]; [intros [= ->]; apply elem_of_list_here|]. intros H. apply elem_of_list_further. auto.
  Qed.
  Lemma part_road_in h x (P : ref → Prop) : (∀ r, road_part h x r → P r) → P x ∧ road_in h P (h_road h !!! x).
  Proof.
    intros HP. split; [apply HP; by left|]. split; [apply HP; do 4 right; by left|]. intros s Hs.
    split; [apply HP; do 5 right; left; exists s; auto|]. split; intros l Hl; apply HP; do 5 right; left; exists s; auto.
  Qed.
  Lemma part_pv_in h x (P : ref → Prop) : (∀ r, road_part h x r → P r) →
    P x ∧ P (rd_planview (h_road h !!! x)) ∧ ∀ g, g ∈ pv_raw (view h (h_road h !!! x)) → P g.
  Proof. intros HP. split_and!; [apply HP; by left|apply HP; right; by left|]. intros g Hg. apply HP. do 2 right. by left. Qed.
  Lemma net_road h d k x : dict_get (od_roads (h_odr h !!! d)) k = Some x → ∀ r, road_part h x r → network_part h d r.
  Proof. intros Hx r Hr. right. left. exists k, x. split; [by apply dict_get_in|done]. Qed.

  Theorem local_step (P : ref → Prop) o h1 h2 : in_place o → (∀ r, works_on o h1 r → P r) → agree P h1 h2 → local_at P o h1 h2.
  Proof.
    intros Ho HP HA.
    destruct o as [?|?????|???|??????????|????|????|???|???|????|??|??????|???|??|??|??|??| |ls sec ks| |????|????|???|??|??|r1 r2|
      ?????????????????|?????????????????|????????????????|??????|?????|?????|????|??|??|??????|?|??|??|d|d|?????|??|???????|?????|????????|???????|???]; try done.
    - S h1. apply sr_eval_end. own.
    - S h1. apply sr_eval_start. own.
    - T. eapply rl_bindT; [apply rl_pv; [done|own]|]. intros. apply rl_pv; [done|own].
    - S h1. apply sr_set_start. own.
    - S h1. apply sr_adjust; [own|]. intros g Hg. own.
    - S h1. apply sr_add_link. own.
    - T. apply rl_lane; [done|own].
    - T. apply rl_bgets; [intros _; apply a_sec; own|intros _]. eapply rl_bindT; [apply rl_lane; [done|own]|]. intros.
      eapply rl_bindT; [apply rl_sec; [done|own]|]. intros. apply rl_sec; [done|own].
    - T. apply rl_bgets; [intros _; apply a_sec; own|intros _]. eapply rl_bindT; [apply rl_lane; [done|own]|]. intros.
      eapply rl_bindT; [apply rl_sec; [done|own]|]. intros. apply rl_sec; [done|own].
    - eapply (local_rl _ (same_pairs h1) _ _ _ _ any eq_refl (λ _, eq_refl)); [assumption|]; simpl; wr.
      + intros HA'. apply f_equal2; [revert HA'; gd|]. apply all_have_eq. intros k Hk. apply HA'. own.
      + apply lr_add_lanesection; [own|]. intros k Hk. split; [own|]. intros l Hl. apply HP. do 3 right. eauto.
    - T. apply rl_linker; [done|own].
    - T. apply rl_conn; [done|own].
    - T. apply rl_bgets; [intros _; apply a_junc; own|intros _]. eapply rl_bindT; [apply rl_conn; [done|own]|]. intros.
      eapply rl_bindT; [apply rl_junc; [done|own]|]. intros. apply rl_junc; [done|own].
    - S h1.
      + intros HA'. apply f_equal2; apply has_eq; apply HA', HP; [left|right]; by left.
      + pose proof (part_road_in h1 r1 P (λ r X, HP r (or_introl X))) as [P1 R1].
        pose proof (part_road_in h1 r2 P (λ r X, HP r (or_intror X))) as [P2 R2].
        by apply sr_create_lane_links.
    - T. apply rl_bgets; [intros _; apply a_obj; own|intros _]. destruct (so_class _); [apply rl_raise|]. apply rl_obj; [done|own].
    - T. apply rl_bgets; [intros _; apply a_road; own|intros _]. destruct (rd_succ _); [apply rl_raise|].
      eapply rl_bindT; [by apply rl_lift|]. intros. apply rl_road; [done|own].
    - T. apply rl_bgets; [intros _; apply a_road; own|intros _]. destruct (rd_pred _); [apply rl_raise|].
      eapply rl_bindT; [by apply rl_lift|]. intros. apply rl_road; [done|own].
    - T. apply rl_bgets; [intros _; apply a_road; own|intros _]. destruct (decide _); [apply rl_raise|].
      eapply rl_bindT; [by apply rl_lift|]. intros. eapply rl_bindT; [apply rl_road; [done|own]|]. intros. apply rl_road; [done|own].
    - T. apply rl_bgets; [intros _; apply a_road; own|intros _]. apply rl_odr; [done|own].
    - T. apply rl_odr; [done|own].
    - S h1; [intros HA'; apply has_eq, HA', HP; by left|]. apply sr_adjust_startpoints; [apply HP; by left|].
      intros k x Hx. apply (part_pv_in h1 x P). intros r Hr. apply HP. by eapply net_road.
    - S h1; [intros HA'; apply has_eq, HA', HP; by left|]. apply sr_link_all; [apply HP; by left| |].
      + intros k x Hx. apply (part_road_in h1 x P). intros r Hr. apply HP. by eapply net_road.
      + intros k x Hx. apply (part_pv_in h1 x P). intros r Hr. apply HP. by eapply net_road.
    - S h1. apply sr_adjust_road_wrt; [apply HP; by left| |].
      + intros x Hx. apply (part_pv_in h1 x P). intros r Hr. apply HP. right; left. exists x. split; [by apply dict_get_in|done].
      + intros x Hx. apply (part_pv_in h1 x P). intros r Hr. apply HP. right; right. exists x. split; [by apply dict_get_in|done].
  Qed.
End Local.
