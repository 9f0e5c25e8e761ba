(** The objects a call may change (C57) *)
From Coq Require Import ssreflect.
From Verif.Model Require Import Api.
From Verif.Spec Require Import SpecChain SpecState SpecNetwork SpecFrame.
From Verif.Proof Require Import Monad DictFacts PlanViewFacts NetFrame Reach Steps.
Local Open Scope general_if_scope.

Section Frame.
  Context {F : Type} `{!Num F}.
  Local Arguments geom_end : simpl never.
  Local Arguments geom_start : simpl never.
  Implicit Types (h : heap F).

  Lemma same_refl h r : same_object h h r.
  Proof. by split_and!. Qed.
  Lemma same_trans h1 h2 h3 r : same_object h1 h2 r → same_object h2 h3 r → same_object h1 h3 r.
  Proof. unfold same_object. intros. destruct_and?. split_and!; congruence. Qed.

  (** [fr b I n P m Q h]: run from [h], [m] keeps the invariant [I], changes only objects from address [n] on or in [P], allocates no
      address below [n]; it leaves the table of ids alone if [b]; if it returns, then [Q]. *)
  Section Rules.
    Context (b : bool) (I : heap F → Prop) (n : nat) (P : ref → Prop).
    Definition fr {A} (m : H (F:=F) A) (Q : A → heap F → Prop) h : Prop :=
      I h → n ≤ h_next h →
      I (m h).2 ∧ n ≤ h_next (m h).2 ∧ (b = true → h_ids (m h).2 = h_ids h) ∧
      (∀ r, r < n → ¬ P r → same_object h (m h).2 r) ∧ ∀ a h', m h = (Ok a, h') → Q a h'.
    Notation any := (λ _ _, True).

    Lemma fr_inv {A} (m : H (F:=F) A) Q h : (I h → fr m Q h) → fr m Q h.
    Proof. intros H HI. by apply H. Qed.
    Lemma fr_bind {A B} (m : H (F:=F) A) (k : A → H (F:=F) B) R Q h :
      fr m R h → (∀ a h', R a h' → fr (k a) Q h') → fr (bind m k) Q h.
    Proof.
      intros Hm Hk HI Hn. destruct (Hm HI Hn) as (I1 & N1 & D1 & S1 & Q1). unfold bind.
      destruct (m h) as [[a|e] h1]; simpl in *; [|split_and!; try done; by intros ? ? [=]].
      destruct (Hk a h1 (Q1 _ _ eq_refl) I1 N1) as (I2 & N2 & D2 & S2 & Q2). split_and!; [done|done| | |done].
      - intros Hb. by rewrite (D2 Hb) (D1 Hb).
      - intros r Hr HP. eapply same_trans; [by apply S1|by apply S2].
    Qed.
    Lemma fr_bindT {A B} (m : H (F:=F) A) (k : A → H (F:=F) B) Q h :
      fr m any h → (∀ a h', fr (k a) Q h') → fr (bind m k) Q h.
    Proof. intros Hm Hk. eapply fr_bind; [exact Hm|]. intros. apply Hk. Qed.
    Lemma fr_mono {A} (m : H (F:=F) A) (R Q : A → heap F → Prop) h : fr m R h → (∀ a h', R a h' → Q a h') → fr m Q h.
    Proof. intros Hm Hk HI Hn. destruct (Hm HI Hn) as (? & ? & ? & ? & HQ). split_and!; try done. intros a h' E. by apply Hk, HQ. Qed.
    Lemma fr_any {A} (m : H (F:=F) A) Q h : fr m Q h → fr m any h.
    Proof. intros H. by eapply fr_mono. Qed.
    Lemma fr_pure {A} (m : H (F:=F) A) (Q : A → heap F → Prop) h : Pure m → (∀ a, m h = (Ok a, h) → Q a h) → fr m Q h.
    Proof.
      intros Hp HQ HI Hn. pose proof (Hp h) as E. rewrite E. split_and!; [done|done|done|intros; apply same_refl|].
      intros a h' E'. rewrite E' in E. simpl in E. subst. by apply HQ.
    Qed.
    Lemma fr_bgets {A B} (f : heap F → A) (k : A → H (F:=F) B) Q h : fr (k (f h)) Q h → fr (bind (gets f) k) Q h.
    Proof. done. Qed.
    Lemma fr_ret {A} (a : A) (Q : A → heap F → Prop) h : Q a h → fr (ret a) Q h.
    Proof. intros HQ. apply fr_pure; [done|]. by intros ? [= <-]. Qed.
    Lemma fr_raise {A} e (Q : A → heap F → Prop) h : fr (raise e) Q h.
    Proof. apply fr_pure; [done|]. by intros ? [=]. Qed.
    Lemma fr_or_raise {A} e (o : option A) (Q : A → heap F → Prop) h : (∀ a, o = Some a → Q a h) → fr (or_raise e o) Q h.
    Proof. intros HQ. destruct o; [apply fr_ret; auto|apply fr_raise]. Qed.
    Lemma fr_lift {A} (o : res A) (Q : A → heap F → Prop) h : (∀ a, o = Ok a → Q a h) → fr (lift o) Q h.
    Proof. intros HQ. apply fr_pure; [done|]. intros a [= ->]. by apply HQ. Qed.
    Lemma fr_for_each {A} (f : A → H (F:=F) unit) l h : (∀ x h', x ∈ l → fr (f x) any h') → fr (for_each f l) any h.
    Proof.
      revert h. induction l as [|x l IH]; intros h Hf; simpl; [by apply fr_ret|].
      eapply fr_bindT; [apply Hf; by left|]. intros _ h'. apply IH. intros y h2 Hy. apply Hf. by right.
    Qed.

    Definition own (r : ref) : Prop := P r ∨ n ≤ r.
    Ltac leaf := intros HI Ho; intros HI' Hn; simpl; split_and!; [by apply HI|done|done| |done];
      intros r' Hr' HP; match type of Ho with own ?r0 => assert (r0 ≠ r') by (intros <-; destruct Ho; [done|lia]) end;
      split_and!; simpl; try reflexivity; rewrite lookup_insert_ne; [assumption|reflexivity].
    Lemma fr_geom r f h : (I h → I (upd_geom r f h).2) → own r → fr (upd_geom r f) any h. Proof. leaf. Qed.
    Lemma fr_pv r f h : (I h → I (upd_pv r f h).2) → own r → fr (upd_pv r f) any h. Proof. leaf. Qed.
    Lemma fr_lane r f h : (I h → I (upd_lane r f h).2) → own r → fr (upd_lane r f) any h. Proof. leaf. Qed.
    Lemma fr_sec r f h : (I h → I (upd_sec r f h).2) → own r → fr (upd_sec r f) any h. Proof. leaf. Qed.
    Lemma fr_lanes r f h : (I h → I (upd_lanes r f h).2) → own r → fr (upd_lanes r f) any h. Proof. leaf. Qed.
    Lemma fr_linker r f h : (I h → I (upd_linker r f h).2) → own r → fr (upd_linker r f) any h. Proof. leaf. Qed.
    Lemma fr_conn r f h : (I h → I (upd_conn r f h).2) → own r → fr (upd_conn r f) any h. Proof. leaf. Qed.
    Lemma fr_junc r f h : (I h → I (upd_junc r f h).2) → own r → fr (upd_junc r f) any h. Proof. leaf. Qed.
    Lemma fr_obj r f h : (I h → I (upd_obj r f h).2) → own r → fr (upd_obj r f) any h. Proof. leaf. Qed.
    Lemma fr_road r f h : (I h → I (upd_road r f h).2) → own r → fr (upd_road r f) any h. Proof. leaf. Qed.
    Lemma fr_odr r f h : (I h → I (upd_odr r f h).2) → own r → fr (upd_odr r f) any h. Proof. leaf. Qed.
    Lemma fr_ids f h : b = false → (I h → I (f h)) → (h_next (f h) = h_next h ∧ ∀ r, same_object h (f h) r) → fr (modify f) any h.
    Proof. intros Hb HI [H1 H2] HI' Hn. simpl. rewrite H1. split_and!; try done; [by apply HI|by rewrite Hb]. Qed.

    Ltac newl := intros HI HI' Hn; simpl; split_and!; [by apply HI|lia|done| |intros ? ? [= <- <-]; exact Hn];
      intros r' Hr' HP; split_and!; simpl; try reflexivity; rewrite lookup_insert_ne; [lia|reflexivity].
    Definition fresh (r : ref) : Prop := n ≤ r.
    Lemma fr_new_geom x h : (I h → I (new_geom x h).2) → fr (new_geom x) (λ r _, fresh r) h. Proof. newl. Qed.
    Lemma fr_new_pv x h : (I h → I (new_pv x h).2) → fr (new_pv x) (λ r _, fresh r) h. Proof. newl. Qed.
    Lemma fr_new_lane x h : (I h → I (new_lane x h).2) → fr (new_lane x) (λ r _, fresh r) h. Proof. newl. Qed.
    Lemma fr_new_sec x h : (I h → I (new_sec x h).2) → fr (new_sec x) (λ r _, fresh r) h. Proof. newl. Qed.
    Lemma fr_new_lanes x h : (I h → I (new_lanes x h).2) → fr (new_lanes x) (λ r _, fresh r) h. Proof. newl. Qed.
    Lemma fr_new_linker x h : (I h → I (new_linker x h).2) → fr (new_linker x) (λ r _, fresh r) h. Proof. newl. Qed.
    Lemma fr_new_conn x h : (I h → I (new_conn x h).2) → fr (new_conn x) (λ r _, fresh r) h. Proof. newl. Qed.
    Lemma fr_new_junc x h : (I h → I (new_junc x h).2) → fr (new_junc x) (λ r _, fresh r) h. Proof. newl. Qed.
    Lemma fr_new_obj x h : (I h → I (new_obj x h).2) → fr (new_obj x) (λ r _, fresh r) h. Proof. newl. Qed.
    Lemma fr_new_road x h : (I h → I (new_road x h).2) → fr (new_road x) (λ r _, fresh r) h. Proof. newl. Qed.
    Lemma fr_new_odr x h : (I h → I (new_odr x h).2) → fr (new_odr x) (λ r _, fresh r) h. Proof. newl. Qed.
  End Rules.

  Notation any := (λ _ _, True).

  (** *** laying out and lane links: the structure of the network stays *)
  Definition struct h0 h : Prop :=
    h_road h = h_road h0 ∧ h_odr h = h_odr h0 ∧ h_lanes h = h_lanes h0 ∧ h_sec h = h_sec h0 ∧
    ∀ r, pv_raw (h_pv h !!! r) = pv_raw (h_pv h0 !!! r).
  Lemma struct_refl h : struct h h.
  Proof. by split_and!. Qed.

  Section Struct.
    Context (h0 : heap F) (n : nat) (P : ref → Prop).
    Notation F_ m Q h := (fr true (struct h0) n P m Q h).
    Notation own := (own n P).
    Lemma st_geom r f h : own r → F_ (upd_geom r f) any h.
    Proof. intros. by apply fr_geom. Qed.
    Lemma st_lane r f h : own r → F_ (upd_lane r f) any h.
    Proof. intros. by apply fr_lane. Qed.
    Lemma st_pv r f h : own r → (∀ p, pv_raw (f p) = pv_raw p) → F_ (upd_pv r f) any h.
    Proof.
      intros Ho Hf. apply fr_pv; [|done]. intros (H1 & H2 & H3 & H4 & H5). split_and!; [done..|]. intros x. simpl.
      destruct (decide (r = x)) as [<-|Hne]; [rewrite ltm_insert Hf|rewrite ltm_insert_ne //]; apply H5.
    Qed.
    Lemma st_eval_end g x y hd h : own g → F_ (eval_end g x y hd) any h.
    Proof.
      intros Hg. apply fr_bgets. destruct (geom_end _ x y hd) as [r o]. eapply fr_bindT; [by apply st_geom|]. intros. by apply fr_lift.
    Qed.
    Lemma st_eval_start g x y hd h : own g → F_ (eval_start g x y hd) any h.
    Proof.
      intros Hg. apply fr_bgets. destruct (geom_start _ x y hd) as [r o]. eapply fr_bindT; [by apply st_geom|]. intros. by apply fr_lift.
    Qed.
    Lemma st_pgeom_init s x y hd g h : own g → F_ (pgeom_init s x y hd g) (λ ng _, pg_geom ng = g) h.
    Proof. intros. eapply fr_bindT; [by apply st_eval_end|]. intros. by apply fr_ret. Qed.
    Lemma st_set_start pv x y hd h : own pv → F_ (pv_set_start_point pv x y hd) any h.
    Proof. intros. by apply st_pv. Qed.
    Lemma st_forward pv gs : own pv → (∀ g, g ∈ gs → own g) → ∀ i h, F_ (adjust_forward pv i gs) any h.
    Proof.
      intros Hp. induction gs as [|g gs IH]; intros Hgs i h; simpl; [by apply fr_ret|].
      assert (Hg : own g) by (apply Hgs; by left).
      apply fr_bgets. eapply fr_bindT; [|intros _ h1].
      { destruct (decide _); [|by apply fr_ret]. eapply fr_bindT; [by apply fr_or_raise|]. intros. by apply st_pv. }
      apply fr_bgets. eapply fr_bind; [by apply st_pgeom_init|]. intros ng h2 Hng.
      eapply fr_bindT; [apply st_eval_end; by rewrite Hng|]. intros [[[x y] hd] l] h3.
      eapply fr_bindT; [by apply st_pv|]. intros _ h4. eapply fr_bindT; [by apply fr_or_raise|]. intros l' h5.
      eapply fr_bindT; [by apply st_pv|]. intros _ h6. eapply fr_bindT; [by apply st_pv|]. intros _ h7.
      apply IH. intros g' Hg'. apply Hgs. by right.
    Qed.
    Lemma st_backward pv gs : own pv → (∀ g, g ∈ gs → own g) → ∀ h, F_ (adjust_backward pv gs) any h.
    Proof.
      intros Hp. induction gs as [|g gs IH]; intros Hgs h; simpl; [by apply fr_ret|].
      assert (Hg : own g) by (apply Hgs; by left).
      apply fr_bgets. eapply fr_bind; [by apply st_pgeom_init|]. intros ng h2 Hng.
      eapply fr_bindT. { eapply fr_bindT; [apply st_eval_start; by rewrite Hng|]. intros [[[x y] hd] l] h3. by apply fr_ret. }
      intros [[[[x y] hd] l] ng'] h3. eapply fr_bindT; [by apply st_pv|]. intros _ h4. eapply fr_bindT; [by apply st_pv|]. intros _ h5.
      eapply fr_bindT; [apply IH; intros g' Hg'; apply Hgs; by right|]. intros. by apply fr_ret.
    Qed.
    Lemma st_assign pv ls : own pv → ∀ h, F_ (assign_s pv ls) any h.
    Proof.
      intros Hp. induction ls as [|l ls IH]; intros h; simpl; [by apply fr_ret|].
      eapply fr_bindT; [by apply st_pv|]. intros _ h1. eapply fr_bindT; [by apply st_pv|]. intros _ h2. apply IH.
    Qed.
    Lemma st_adjust pv bb h : own pv → (∀ g, g ∈ pv_raw (h_pv h0 !!! pv) → own g) → F_ (adjust_geometries pv bb) any h.
    Proof.
      intros Hp Hg. eapply fr_bindT; [|intros; by apply st_pv]. destruct bb; simpl.
      - eapply fr_bindT; [by apply st_pv|]. intros _ h1. apply fr_inv. intros (_ & _ & _ & _ & Hr). apply fr_bgets.
        eapply fr_bindT; [apply st_backward; [done|]; intros g; rewrite elem_of_rev Hr; apply Hg|]. intros ls h2.
        eapply fr_bindT; [by apply st_pv|]. intros _ h3. eapply fr_bindT; [by apply fr_or_raise|]. intros ls' h4.
        eapply fr_bindT; [by apply st_pv|]. intros _ h5. by apply st_assign.
      - eapply fr_bindT; [by apply st_pv|]. intros _ h1. apply fr_inv. intros (_ & _ & _ & _ & Hr). apply fr_bgets.
        eapply fr_bindT; [apply st_forward; [done|]; intros g; rewrite Hr; apply Hg|]. intros _ h2. by apply st_pv.
    Qed.

    (** placing *)
    Lemma st_awn_one d k k2 cp bb h : (∀ o, road_named h0 d k = Some o → own (rd_planview o) ∧ ∀ g, g ∈ pv_raw (view h0 o) → own g) →
      F_ (adjust_road_wrt_neighbour d k k2 cp bb) any h.
    Proof.
      intros Hcourse. apply fr_inv; intros HI. apply fr_bgets.
      eapply fr_bind; [apply (fr_or_raise _ _ _ _ _ _ (λ r h', road_named h0 d k = Some (h_road h' !!! r)))|].
      { destruct HI as (H1 & H2 & _). intros r Hr. unfold road_named. rewrite -H2 Hr /= H1. done. }
      intros mr h1 Hr. apply fr_bgets. destruct (Hcourse _ Hr) as [Hp Hg].
      eapply fr_bindT; [apply fr_pure; [destruct cp; [apply pure_planview_at|apply pure_raise]|done]|]. intros npv h2.
      eapply fr_bindT; [apply fr_pure; [apply pure_neighbour_pose|done]|]. intros q h3.
      destruct (if bb then _ else _) as [[x y] hd]. eapply fr_bindT; [by apply st_set_start|]. intros _ h4. by apply st_adjust.
    Qed.
    Lemma st_adjust_road_wrt d k k2 cp kind h : (∀ o, road_named h0 d (pystr k) = Some o → own (rd_planview o) ∧ ∀ g, g ∈ pv_raw (view h0 o) → own g) →
      F_ (adjust_road_wrt d k k2 cp kind) any h.
    Proof.
      intros Hc. unfold adjust_road_wrt. destruct (String.eqb kind _); [by apply st_awn_one|]. destruct (String.eqb kind _); [by apply st_awn_one|].
      apply fr_bgets. eapply fr_bindT; [by apply fr_or_raise|]. intros. by apply fr_ret.
    Qed.
    Section Place.
      Context (d : ref) (Hcourse : ∀ k o, road_named h0 d k = Some o → own (rd_planview o) ∧ ∀ g, g ∈ pv_raw (view h0 o) → own g).
      Lemma st_awn k k2 cp bb h : F_ (adjust_road_wrt_neighbour d k k2 cp bb) any h.
      Proof. apply st_awn_one. by apply Hcourse. Qed.
      Lemma st_other_succ k ty o h : F_ (place_other_succ d k ty o) any h.
      Proof.
        unfold place_other_succ. destruct o; [|by apply fr_ret]. destruct (bool_decide _); [by apply fr_ret|].
        apply fr_bgets. eapply fr_bindT; [apply fr_pure; [apply pure_lta|done]|]. intros [] h1; [by apply fr_ret|].
        eapply fr_bindT; [apply st_awn|]. intros. by apply fr_ret.
      Qed.
      Lemma st_other_pred k ty o h : F_ (place_other_pred d k ty o) any h.
      Proof.
        unfold place_other_pred. destruct o; [|by apply fr_ret]. destruct (bool_decide _); [by apply fr_ret|].
        apply fr_bgets. eapply fr_bindT; [apply fr_pure; [apply pure_lta|done]|]. intros [] h1; [by apply fr_ret|].
        eapply fr_bindT; [apply st_awn|]. intros. by apply fr_ret.
      Qed.
      Lemma st_sweep_road k h : F_ (sweep_road d k) any h.
      Proof.
        apply fr_bgets. eapply fr_bindT; [by apply fr_or_raise|]. intros r h1. apply fr_bgets, fr_bgets.
        destruct (pv_adjusted _); [by apply fr_ret|]. eapply fr_bindT; [apply fr_pure; [apply pure_link_ready|done]|]. intros [] h2.
        - destruct (rd_pred _); [|by apply fr_ret]. eapply fr_bindT; [apply st_awn|]. intros _ h3.
          eapply fr_bindT; [apply st_other_succ|]. intros. by apply fr_ret.
        - eapply fr_bindT; [apply fr_pure; [apply pure_link_ready|done]|]. intros [] h3; [|by apply fr_ret].
          destruct (rd_succ _); [|by apply fr_ret]. eapply fr_bindT; [apply st_awn|]. intros _ h4.
          eapply fr_bindT; [apply st_other_pred|]. intros. by apply fr_ret.
      Qed.
      Lemma st_sweep ks : ∀ h, F_ (sweep d ks) any h.
      Proof.
        induction ks as [|k ks IH]; intros h; simpl; [by apply fr_ret|]. eapply fr_bindT; [apply st_sweep_road|]. intros c h1.
        eapply fr_bindT; [apply IH|]. intros. by apply fr_ret.
      Qed.
      Lemma st_place_loop fuel : ∀ total h, F_ (place_loop fuel d total) any h.
      Proof.
        induction fuel as [|fuel IH]; intros total h; cbn [place_loop]; apply fr_bgets; destruct (decide _); try (by apply fr_ret); [apply fr_raise|].
        eapply fr_bindT; [apply st_sweep|]. intros c h1. destruct (decide _); [apply fr_raise|]. apply IH.
      Qed.
      Lemma st_planview_at k h h1 : struct h0 h → struct h0 h1 →
        F_ (planview_at (od_roads (h_odr h !!! d)) k) (λ pv h', own pv ∧ ∀ g, g ∈ pv_raw (h_pv h0 !!! pv) → own g) h1.
      Proof.
        intros HI HI1. apply fr_pure; [apply pure_planview_at|]. intros pv E. unfold planview_at, road_at, get_road in E.
        apply bind_ok in E as (x & h2 & E & E2). apply or_raise_ok in E as [E ->]. injection E2 as <-. destruct HI as (A1 & A2 & _). destruct HI1 as (B1 & B2 & _).
        assert (Hk : road_named h0 d k = Some (h_road h1 !!! x)) by (unfold road_named; by rewrite -A2 E /= B1).
        apply Hcourse in Hk as [Hp Hg]. done.
      Qed.
      Lemma st_place_fixed ks : ∀ h, F_ (place_fixed d ks) any h.
      Proof.
        induction ks as [|k ks IH]; intros h; simpl; [by apply fr_ret|]. apply fr_inv; intros HI. apply fr_bgets.
        eapply fr_bind; [by apply st_planview_at|]. intros pv h1 [Hp Hg]. apply fr_bgets. destruct (pv_fixed _); [|apply IH].
        eapply fr_bindT; [by apply st_adjust|]. intros _ h2. eapply fr_bindT; [apply IH|]. intros. by apply fr_ret.
      Qed.
      Lemma st_adjust_startpoints h : F_ (adjust_startpoints d) any h.
      Proof.
        apply fr_inv; intros HI. unfold adjust_startpoints, get_odr. apply fr_bgets. eapply fr_bindT; [apply st_place_fixed|].
        intros c h1. eapply fr_bindT; [|intros; apply st_place_loop].
        destruct c; [|by apply fr_ret]. eapply fr_bindT; [by apply fr_or_raise|]. intros k h2. apply fr_inv; intros HI2.
        eapply fr_bind; [by apply st_planview_at|]. intros pv h3 [Hp Hg]. eapply fr_bindT; [by apply st_adjust|]. intros. by apply fr_ret.
      Qed.
    End Place.

    (** lane links *)
    Lemma st_add_link l ty id h : own l → F_ (lane_add_link l ty id) any h.
    Proof. intros. eapply fr_bindT; [by apply fr_lift|]. intros. by apply st_lane. Qed.
    Definition owned_section (s : lanesection F) : Prop := (∀ l, l ∈ ls_left s → own l) ∧ (∀ l, l ∈ ls_right s → own l).
    Definition owned_road (o : road) : Prop := ∀ s, s ∈ h_lanes h0 !!! rd_lanes o → owned_section (h_sec h0 !!! s).
    Lemma st_section o i h : owned_road o → F_ (road_section o i) (λ s _, owned_section s) h.
    Proof.
      intros Ho. apply fr_inv; intros (_ & _ & HL & HS & _). apply fr_pure; [apply pure_road_section|].
      intros s E. unfold road_section, get_lanes, get_sec in E. rewrite bind_gets in E. apply bind_ok in E as (x & h1 & E & E2).
      injection E2 as <- <-. rewrite HS. apply Ho. rewrite -HL.
      destruct i; [|done]. apply or_raise_ok in E as [E _]. by eapply py_index_elem.
    Qed.
    Lemma st_id_times l s h : F_ (lane_id_times l s) any h.
    Proof. apply fr_bgets. eapply fr_bindT; [by apply fr_or_raise|]. intros. eapply fr_bindT; [by apply fr_or_raise|]. intros. by apply fr_ret. Qed.
    Lemma st_left s i h : owned_section s → F_ (or_raise IndexError (ls_left s !! i)) (λ l _, own l) h.
    Proof. intros [Hs _]. apply fr_or_raise. intros l Hl. by eapply Hs, elem_of_list_lookup_2. Qed.
    Lemma st_right s i h : owned_section s → F_ (or_raise IndexError (ls_right s !! i)) (λ l _, own l) h.
    Proof. intros [_ Hs]. apply fr_or_raise. intros l Hl. by eapply Hs, elem_of_list_lookup_2. Qed.
    Ltac sect := eapply fr_bind; [apply st_section; assumption|].
    Lemma st_links_connecting c r h : owned_road (h_road h0 !!! c) → owned_road (h_road h0 !!! r) → F_ (create_links_connecting_road c r) any h.
    Proof.
      intros Hc Hr. apply fr_inv; intros (HR & _). apply fr_bgets, fr_bgets. rewrite HR.
      set (C := h_road h0 !!! c) in *. set (R := h_road h0 !!! r) in *.
      eapply fr_bindT; [by apply fr_lift|]. intros [[lt sg] csec] h1. eapply fr_bindT; [by apply fr_lift|]. intros [[? ?] rsec] h2.
      destruct csec as [ci|]; [|by apply fr_ret]. sect. intros s h3 Hs. eapply fr_bindT; [|intros _ h4].
      - destruct (ls_left _) eqn:El; [by apply fr_ret|]. clear El. sect. intros s' h4 _. apply fr_for_each.
        intros i h5 _. sect. intros s1 h6 Hs1. eapply fr_bindT; [by apply fr_or_raise|]. intros rl h7.
        eapply fr_bindT; [apply st_id_times|]. intros k h8. sect. intros s2 h9 Hs2.
        eapply fr_bind; [by apply st_left|]. intros cl h10 Hcl. by apply st_add_link.
      - sect. intros s3 h5 Hs3. destruct (ls_right _) eqn:El; [by apply fr_ret|]. clear El. apply fr_for_each.
        intros i h6 _. sect. intros s1 h7 Hs1. eapply fr_bindT; [by apply fr_or_raise|]. intros rl h8.
        eapply fr_bindT; [apply st_id_times|]. intros k h9. sect. intros s2 h10 Hs2.
        eapply fr_bind; [by apply st_right|]. intros cl h11 Hcl. by apply st_add_link.
    Qed.
    Lemma st_links_roads p s h : owned_road (h_road h0 !!! p) → owned_road (h_road h0 !!! s) → F_ (create_links_roads p s) any h.
    Proof.
      intros Hc Hr. apply fr_inv; intros (HR & _). apply fr_bgets, fr_bgets. rewrite HR.
      set (C := h_road h0 !!! p) in *. set (R := h_road h0 !!! s) in *.
      eapply fr_bindT; [by apply fr_lift|]. intros [[lt sg] csec] h1. eapply fr_bindT; [by apply fr_lift|]. intros [[? ?] rsec] h2.
      sect. intros s1 h3 _. sect. intros s2 h4 _. eapply fr_bindT; [|intros _ h5].
      - destruct (bool_decide _); [|apply fr_raise]. apply fr_for_each. intros i h5 _. sect. intros s3 h6 Hs3.
        eapply fr_bind; [by apply st_left|]. intros pl h7 Hpl. eapply fr_bindT; [apply st_id_times|]. intros k h8.
        eapply fr_bindT; [by apply st_add_link|]. intros _ h9. sect. intros s4 h10 Hs4.
        eapply fr_bind; [by apply st_left|]. intros sl h11 Hsl. eapply fr_bindT; [by apply fr_or_raise|]. intros. by apply st_add_link.
      - sect. intros s3 h6 _. sect. intros s4 h7 _. destruct (bool_decide _); [|apply fr_raise]. apply fr_for_each. intros i h8 _.
        sect. intros s5 h9 Hs5. eapply fr_bind; [by apply st_right|]. intros pl h10 Hpl. apply fr_bgets.
        eapply fr_bindT; [by apply st_add_link|]. intros _ h11. sect. intros s6 h12 Hs6.
        eapply fr_bind; [by apply st_right|]. intros sl h13 Hsl. by apply st_add_link.
    Qed.
    Lemma st_create_lane_links r1 r2 h : owned_road (h_road h0 !!! r1) → owned_road (h_road h0 !!! r2) → F_ (create_lane_links r1 r2) any h.
    Proof.
      intros H1 H2. apply fr_bgets, fr_bgets.
      destruct (_ && _); [destruct (are_roads_consecutive _ _); [by apply st_links_roads|]; destruct (are_roads_consecutive _ _); [by apply st_links_roads|by apply fr_ret]|].
      destruct (negb _); by apply st_links_connecting.
    Qed.
    Lemma st_link_all d h : (∀ k x, dict_get (od_roads (h_odr h0 !!! d)) k = Some x → owned_road (h_road h0 !!! x)) →
      (∀ k o, road_named h0 d k = Some o → own (rd_planview o) ∧ ∀ g, g ∈ pv_raw (view h0 o) → own g) →
      F_ (adjust_roads_and_lanes d) any h.
    Proof.
      intros Ho Hc. eapply fr_bindT; [by apply st_adjust_startpoints|]. intros _ h1. apply fr_inv; intros (_ & HO & _). apply fr_bgets. rewrite HO.
      apply fr_for_each. intros [k1 k2] h2 _. simpl.
      eapply fr_bind; [apply (fr_or_raise _ _ _ _ _ _ (λ x _, owned_road (h_road h0 !!! x))); intros; by eapply Ho|]. intros r1 h3 Hr1.
      eapply fr_bind; [apply (fr_or_raise _ _ _ _ _ _ (λ x _, owned_road (h_road h0 !!! x))); intros; by eapply Ho|]. intros r2 h4 Hr2.
      by apply st_create_lane_links.
    Qed.
  End Struct.

  (** *** linkers: the pairs of a linker stay *)
  Definition pairs (k : list lanelink) : list (ref * ref) := map (λ p, (ll_pred p, ll_succ p)) k.
  Definition same_pairs h0 h : Prop := ∀ k, pairs (h_linker h !!! k) = pairs (h_linker h0 !!! k).
  Lemma pairs_alter k i : pairs (alter (λ p, p <| ll_used := true |>) i k) = pairs k.
  Proof.
    unfold pairs. apply list_eq. intros j. rewrite !list_lookup_fmap. destruct (decide (i = j)) as [->|Hne].
    - rewrite list_lookup_alter. by destruct (k !! j).
    - by rewrite list_lookup_alter_ne.
  Qed.
  Section Linkers.
    Context (h0 : heap F) (n : nat) (P : ref → Prop).
    Notation F_ m Q h := (fr true (same_pairs h0) n P m Q h).
    Notation own := (own n P).
    Lemma lk_use k i h : own k → (∀ l, lane_of_linker h0 k l → own l) → F_ (use_lanelink k i) any h.
    Proof.
      intros Hk Hl. apply fr_inv; intros HI. apply fr_bgets. destruct (_ !! i) as [p|] eqn:Ep; [|by apply fr_ret].
      destruct (ll_used p); [by apply fr_ret|].
      assert (Hp : own (ll_pred p) ∧ own (ll_succ p)).
      { apply elem_of_list_lookup_2 in Ep. apply (elem_of_list_fmap_1 (λ p, (ll_pred p, ll_succ p))) in Ep.
        change (map _ _) with (pairs (h_linker h !!! k)) in Ep.
        assert (E : (ll_pred p, ll_succ p) ∈ pairs (h_linker h0 !!! k)) by (rewrite -HI; exact Ep).
        apply elem_of_list_fmap in E as (p0 & [= E1 E2] & Hin). rewrite E1 E2. split; apply Hl; exists p0; auto. }
      destruct Hp as [Hp1 Hp2]. apply fr_bgets.
      eapply fr_bindT; [eapply fr_bindT; [by apply fr_lift|intros; by apply fr_lane]|]. intros _ h1. apply fr_bgets.
      eapply fr_bindT; [eapply fr_bindT; [by apply fr_lift|intros; by apply fr_lane]|]. intros _ h2.
      apply fr_linker; [|done]. intros HI' x. simpl. destruct (decide (k = x)) as [<-|Hne]; [rewrite ltm_insert pairs_alter|rewrite ltm_insert_ne //]; apply HI'.
    Qed.
    Lemma lk_add_lanesection ls sec ks h : own ls → (∀ k, k ∈ ks → own k ∧ ∀ l, lane_of_linker h0 k l → own l) →
      F_ (add_lanesection ls sec ks) any h.
    Proof.
      intros Hls Hks. eapply fr_bindT; [apply fr_for_each|intros; by apply fr_lanes].
      intros k h1 Hk. apply fr_bgets. apply fr_for_each. intros i h2 _. by apply lk_use; apply Hks.
    Qed.
  End Linkers.

  (** *** everything else *)
  Section Other.
    Context (n : nat) (P : ref → Prop).
    Notation F_ m Q h := (fr true (λ _, True) n P m Q h).
    Notation own := (own n P).
    Notation fresh := (fresh n).
    Lemma fresh_own r : fresh r → own r.
    Proof. by right. Qed.
    Hint Resolve fresh_own : core.
    Lemma ot_add_geometry pv g hd h : own pv → F_ (pv_add_geometry pv g hd) any h.
    Proof. intros. eapply fr_bindT; [by apply fr_pv|]. intros. by apply fr_pv. Qed.
    Lemma ot_left s l h : own s → own l → F_ (add_left_lane s l) any h.
    Proof.
      intros. apply fr_bgets. eapply fr_bindT; [by apply fr_lane|]. intros. eapply fr_bindT; [by apply fr_sec|]. intros. by apply fr_sec.
    Qed.
    Lemma ot_right s l h : own s → own l → F_ (add_right_lane s l) any h.
    Proof.
      intros. apply fr_bgets. eapply fr_bindT; [by apply fr_lane|]. intros. eapply fr_bindT; [by apply fr_sec|]. intros. by apply fr_sec.
    Qed.
    Lemma ot_section_ctor s c h : own c → F_ (lanesection_ctor s c) (λ r _, fresh r) h.
    Proof. intros. eapply fr_bindT; [by apply fr_lane|]. intros. by apply fr_new_sec. Qed.
    Lemma ot_lane_ctor ty a b c d s h : F_ (lane_ctor ty a b c d s) (λ r _, fresh r) h.
    Proof. by apply fr_new_lane. Qed.
    Lemma ot_mark l m h : own l → F_ (lane_add_roadmark l m) any h.
    Proof. intros. by apply fr_lane. Qed.
    Lemma ot_lanesection ls sec h : own ls → F_ (add_lanesection ls sec []) any h.
    Proof. intros. simpl. eapply fr_bindT; [by apply fr_ret|]. intros. by apply fr_lanes. Qed.
    Lemma ot_successor r et id cp off h : own r → F_ (add_successor r et id cp off) any h.
    Proof.
      intros. apply fr_bgets. destruct (rd_succ _); [apply fr_raise|]. eapply fr_bindT; [by apply fr_lift|]. intros. by apply fr_road.
    Qed.
    Lemma ot_predecessor r et id cp off h : own r → F_ (add_predecessor r et id cp off) any h.
    Proof.
      intros. apply fr_bgets. destruct (rd_pred _); [apply fr_raise|]. eapply fr_bindT; [by apply fr_lift|]. intros. by apply fr_road.
    Qed.
    Lemma ot_neighbor r et id d h : own r → F_ (add_neighbor r et id d) any h.
    Proof.
      intros. apply fr_bgets. destruct (decide _); [apply fr_raise|]. eapply fr_bindT; [by apply fr_lift|]. intros.
      eapply fr_bindT; [by apply fr_road|]. intros. by apply fr_road.
    Qed.
    Lemma ot_connection j c h : own j → own c → F_ (add_connection j c) any h.
    Proof.
      intros. apply fr_bgets. eapply fr_bindT; [by apply fr_conn|]. intros. eapply fr_bindT; [by apply fr_junc|]. intros. by apply fr_junc.
    Qed.
    Lemma ot_lanelink c i o h : own c → F_ (conn_add_lanelink c i o) any h.
    Proof. intros. by apply fr_conn. Qed.
    Lemma ot_standard_lane w m h : F_ (standard_lane w m) (λ r _, fresh r) h.
    Proof.
      eapply fr_bind; [apply ot_lane_ctor|]. intros l h1 Hl. eapply fr_bindT; [by apply ot_mark, fresh_own|]. intros. by apply fr_ret.
    Qed.
    Lemma ot_add_geometries pv gs h : own pv → F_ (add_geometries pv gs) any h.
    Proof.
      intros Hp. apply fr_for_each. intros g h1 _. eapply fr_bindT; [by apply ot_add_geometry|]. intros _ h2. apply fr_bgets.
      eapply fr_bindT; [by apply fr_or_raise|]. intros. by apply fr_ret.
    Qed.
    Lemma ot_side add sec c w h : (∀ l h', own l → F_ (add sec l) any h') → F_ (create_side add sec c w) any h.
    Proof.
      intros Ha. apply fr_for_each. intros i h1 _. eapply fr_bind; [apply ot_standard_lane|]. intros l h2 Hl. by apply Ha, fresh_own.
    Qed.
    Lemma ot_sides sec c w h : own sec → F_ (create_sides sec c w) any h.
    Proof.
      intros Hs. apply fr_for_each. intros i h1 _. eapply fr_bindT.
      - eapply fr_bind; [apply ot_standard_lane|]. intros l h2 Hl. apply ot_right; [done|by apply fresh_own].
      - intros _ h2. eapply fr_bind; [apply ot_standard_lane|]. intros l h3 Hl. apply ot_left; [done|by apply fresh_own].
    Qed.
    Lemma ot_create_road gs id l r ty m w h : F_ (create_road gs id l r ty m w) (λ r _, fresh r) h.
    Proof.
      eapply fr_bind; [by apply fr_new_pv|]. intros pv h1 Hpv.
      eapply fr_bindT; [by apply ot_add_geometries, fresh_own|]. intros _ h2.
      eapply fr_bind; [apply ot_lane_ctor|]. intros lc h3 Hlc. eapply fr_bindT; [by apply ot_mark, fresh_own|]. intros _ h4.
      eapply fr_bind; [by apply ot_section_ctor, fresh_own|]. intros sec h5 Hsec.
      eapply fr_bindT; [apply ot_side; intros; apply ot_left; [by apply fresh_own|done]|]. intros _ h6.
      eapply fr_bindT; [apply ot_side; intros; apply ot_right; [by apply fresh_own|done]|]. intros _ h7.
      eapply fr_bind; [by apply fr_new_lanes|]. intros ls h8 Hls.
      eapply fr_bindT; [by apply ot_lanesection, fresh_own|]. intros _ h9. by apply fr_new_road.
    Qed.
    Lemma ot_create_straight_road id l j c w h : F_ (create_straight_road id l j c w) (λ r _, fresh r) h.
    Proof.
      eapply fr_bind; [by apply fr_new_geom|]. intros g h1 Hg. eapply fr_bind; [by apply fr_new_pv|]. intros pv h2 Hpv.
      eapply fr_bindT; [by apply ot_add_geometry, fresh_own|]. intros _ h3. eapply fr_bind; [apply ot_standard_lane|]. intros lc h4 Hlc.
      eapply fr_bind; [by apply ot_section_ctor, fresh_own|]. intros sec h5 Hsec.
      eapply fr_bindT; [by apply ot_sides, fresh_own|]. intros _ h6. eapply fr_bind; [by apply fr_new_lanes|]. intros ls h8 Hls.
      eapply fr_bindT; [by apply ot_lanesection, fresh_own|]. intros _ h9. by apply fr_new_road.
    Qed.
    Lemma ot_create_cloth_arc_cloth c a ca id j cs k w h : F_ (create_cloth_arc_cloth c a ca id j cs k w) (λ r _, fresh r) h.
    Proof.
      eapply fr_bind; [by apply fr_new_pv|]. intros pv h1 Hpv. cbv zeta.
      eapply fr_bindT; [by apply fr_lift|]. intros g1 h2. eapply fr_bind; [by apply fr_new_geom|]. intros s1 h3 Hs1.
      eapply fr_bindT; [by apply fr_lift|]. intros g2 h4. eapply fr_bind; [by apply fr_new_geom|]. intros s2 h5 Hs2.
      eapply fr_bindT; [by apply fr_lift|]. intros g3 h6. eapply fr_bind; [by apply fr_new_geom|]. intros s3 h7 Hs3.
      eapply fr_bindT; [by apply ot_add_geometry, fresh_own|]. intros _ h8. eapply fr_bindT; [by apply ot_add_geometry, fresh_own|]. intros _ h9.
      eapply fr_bindT; [by apply ot_add_geometry, fresh_own|]. intros _ h10. eapply fr_bind; [apply ot_standard_lane|]. intros lc h11 Hlc.
      eapply fr_bind; [by apply ot_section_ctor, fresh_own|]. intros sec h12 Hsec.
      eapply fr_bindT; [by apply ot_sides, fresh_own|]. intros _ h13. eapply fr_bind; [by apply fr_new_lanes|]. intros ls h14 Hls.
      eapply fr_bindT; [by apply ot_lanesection, fresh_own|]. intros _ h15. by apply fr_new_road.
    Qed.
    Lemma ot_junction_road rs an r j sp ap ll cp i sn jj h : F_ (junction_road rs an r j sp ap ll cp i sn jj) any h.
    Proof.
      unfold junction_road.
      eapply fr_bindT; [by apply fr_or_raise|]. intros aj h1. eapply fr_bindT; [by apply fr_or_raise|]. intros ai h2. cbv zeta.
      eapply fr_bindT; [by apply fr_or_raise|]. intros ri h3. eapply fr_bindT; [by apply fr_or_raise|]. intros rj h4.
      eapply fr_bindT; [apply fr_pure; [apply pure_get_lanes_offset|done]|]. intros [c w] h5.
      eapply (fr_bind _ _ _ _ _ _ (λ r _, fresh r)).
      { destruct (fiszero _); [apply ot_create_straight_road|apply ot_create_cloth_arc_cloth]. }
      intros tmp h6 Ht. apply fr_bgets. eapply fr_bindT; [by apply ot_predecessor, fresh_own|]. intros _ h7.
      apply fr_bgets. eapply fr_bindT; [by apply ot_successor, fresh_own|]. intros. by apply fr_ret.
    Qed.
    Lemma ot_junction_inner rs an r j sp ap ll cp i js : ∀ sn h, F_ (junction_inner rs an r j sp ap ll cp i sn js) any h.
    Proof.
      induction js as [|jj js IH]; intros sn h; simpl; [by apply fr_ret|].
      eapply fr_bindT; [apply ot_junction_road|]. intros t h1. eapply fr_bindT; [apply IH|]. intros. by apply fr_ret.
    Qed.
    Lemma ot_junction_outer rs an r j sp ap ll iss : (∀ x, x ∈ rs → own x) → ∀ sn h, F_ (junction_outer rs an r j sp ap ll sn iss) any h.
    Proof.
      intros Hrs. induction iss as [|i iss IH]; intros sn h; simpl; [by apply fr_ret|].
      eapply fr_bind; [apply (fr_or_raise _ _ _ _ _ _ (λ r _, own r)); intros a Ha; by eapply Hrs, elem_of_list_lookup_2|].
      intros ri h1 Hri. eapply fr_bindT; [destruct (bool_decide _); [by apply ot_successor|by apply ot_predecessor]|].
      intros _ h2. eapply fr_bindT; [apply ot_junction_inner|]. intros row h3. eapply fr_bindT; [apply IH|]. intros. by apply fr_ret.
    Qed.
    Lemma ot_create_junction_roads rs an r j sp ap sn h : (∀ x, x ∈ rs → own x) → F_ (create_junction_roads rs an r j sp ap sn) any h.
    Proof.
      intros Hrs. eapply fr_bindT; [by apply fr_lift|]. intros ll h1. eapply fr_bindT; [by apply ot_junction_outer|]. intros js h2.
      eapply fr_bind; [apply (fr_or_raise _ _ _ _ _ _ (λ r _, own r)); intros a Ha; by apply Hrs, last_Some_elem_of|].
      intros rl h3 Hrl. eapply fr_bindT; [by apply ot_predecessor|]. intros. by apply fr_ret.
    Qed.
    Lemma ot_junction_links c k rl sg fo to h : own c → F_ (create_junction_links c k rl sg fo to) any h.
    Proof. intros Hc. apply fr_for_each. intros i h1 _. eapply fr_bindT; [by apply fr_or_raise|]. intros. by apply ot_lanelink. Qed.
    Lemma ot_junction_connection j rs jr k cp idx fo to h : own j → F_ (junction_connection j rs jr k cp idx fo to) any h.
    Proof.
      intros Hj. eapply fr_bind; [by apply fr_new_conn|]. intros c h1 Hc.
      eapply fr_bindT; [apply fr_pure; [apply pure_get_road_by_id|done]|]. intros rr h2. eapply fr_bindT; [by apply fr_or_raise|]. intros rr' h3.
      apply fr_bgets. eapply fr_bindT; [by apply fr_lift|]. intros [[? sg] ?] h4.
      eapply fr_bindT; [apply fr_pure; [apply pure_road_section|done]|]. intros s h5.
      eapply fr_bindT; [by apply ot_junction_links, fresh_own|]. intros _ h6.
      eapply fr_bindT; [by apply ot_junction_links, fresh_own|]. intros _ h7. apply ot_connection; [done|by apply fresh_own].
    Qed.
    Lemma ot_create_junction jrs id rs h : F_ (create_junction jrs id rs) any h.
    Proof.
      eapply fr_bind; [by apply fr_new_junc|]. intros j h1 Hj. eapply fr_bindT; [apply fr_for_each|intros; by apply fr_ret].
      intros r h2 _. apply fr_bgets. eapply fr_bindT; [by apply fr_or_raise|]. intros ks h3.
      eapply fr_bindT; [by apply ot_junction_connection, fresh_own|]. intros _ h4. eapply fr_bindT; [by apply fr_or_raise|]. intros kp h5.
      by apply ot_junction_connection, fresh_own.
    Qed.

    (** the calls that use the table of ids *)
    Notation G_ m Q h := (fr false (λ _, True) n P m Q h).
    Lemma ot_update_id r h : own r → G_ (update_id r) any h.
    Proof.
      intros Hr. unfold update_id. apply fr_bgets. cbv zeta. eapply fr_bindT.
      { apply fr_ids; [done|done|]. destruct (h_ids h !! _); [|]; (split; [reflexivity|intros; by split_and!]). }
      intros _ h1. apply fr_bgets. destruct (default _ _) as [used c]. eapply fr_bindT.
      - destruct (_ || _); [|by apply fr_ret]. eapply fr_bindT; [by apply fr_or_raise|]. intros x h2.
        eapply fr_bindT; [by apply fr_ids|]. intros. by apply fr_obj.
      - intros _ h2. apply fr_bgets. by apply fr_ids.
    Qed.
    Lemma ot_add_object r os h : own r → (∀ o, o ∈ os → own o) → G_ (add_object r os) any h.
    Proof. intros Hr Ho. eapply fr_bindT; [apply fr_for_each; intros; by apply ot_update_id, Ho|]. intros. by apply fr_road. Qed.
    Lemma ot_add_signal r os h : own r → (∀ o, o ∈ os → own o) → G_ (add_signal r os) any h.
    Proof. intros Hr Ho. eapply fr_bindT; [apply fr_for_each; intros; by apply ot_update_id, Ho|]. intros. by apply fr_road. Qed.
    Lemma pure_sum_widths ls : ∀ acc, Pure (sum_widths (F:=F) acc ls).
    Proof. induction ls as [|l ls IH]; intros acc; simpl; [apply pure_ret|]. apply pure_bind; [apply pure_gets|intros o; apply IH]. Qed.
    Notation freshes := (λ l _, ∀ e, e ∈ l → fresh e.2).
    Lemma ot_roadside_left b p s h : fr b (λ _, True) n P (roadside_left p s) freshes h.
    Proof.
      apply fr_bgets, fr_bgets. eapply fr_bind; [by apply fr_new_obj|]. intros o h1 Ho.
      eapply fr_bindT; [apply fr_pure; [apply pure_sum_widths|done]|]. intros. apply fr_ret. by intros e ->%elem_of_list_singleton.
    Qed.
    Lemma ot_roadside_right b p s h : fr b (λ _, True) n P (roadside_right p s) freshes h.
    Proof.
      apply fr_bgets, fr_bgets. eapply fr_bind; [by apply fr_new_obj|]. intros o h1 Ho.
      eapply fr_bindT; [apply fr_pure; [apply pure_sum_widths|done]|]. intros. apply fr_ret. by intros e ->%elem_of_list_singleton.
    Qed.
    Lemma fresh_nil (h : heap F) : ∀ e : F * Z * F * ref, e ∈ [] → fresh e.2.
    Proof. intros e He. by apply elem_of_nil in He. Qed.
    Lemma ot_roadside_entries b p side secs : ∀ h, fr b (λ _, True) n P (roadside_entries p side secs) freshes h.
    Proof.
      induction secs as [|s secs IH]; intros h; simpl; [apply fr_ret, fresh_nil, h|].
      eapply fr_bind. { destruct side; [apply ot_roadside_left|apply ot_roadside_left|apply fr_ret, fresh_nil, h]. }
      intros l h1 Hl. eapply fr_bind. { destruct side; [apply ot_roadside_right|apply fr_ret, fresh_nil, h|apply ot_roadside_right]. }
      intros r h2 Hr. eapply fr_bind; [apply IH|]. intros rest h3 Hrest. apply fr_ret.
      intros e. rewrite !elem_of_app. intros [?|[?|?]]; auto.
    Qed.
    Lemma ot_roadside_finish b pv d s t es h : (∀ e, e ∈ es → fresh e.2) → fr b (λ _, True) n P (for_each (roadside_finish pv d s t) es) any h.
    Proof.
      intros Hes. apply fr_for_each. intros [[[sx f] w] o] h2 Hin. assert (Ho : own o) by apply fresh_own, (Hes _ Hin).
      eapply fr_bindT; [by apply fr_obj|]. intros _ h3. apply fr_bgets, fr_bgets.
      eapply fr_bindT; [destruct (so_class _); [apply fr_raise|by apply fr_ret]|]. intros _ h4. by apply fr_obj.
    Qed.
    Lemma ot_add_object_roadside r p d s t side h : own r → G_ (add_object_roadside r p d s t side) any h.
    Proof.
      intros Hr. apply fr_bgets, fr_bgets. destruct (negb _); [apply fr_raise|]. apply fr_bgets.
      eapply fr_bind; [apply ot_roadside_entries|]. intros es h1 Hes. eapply fr_bindT; [by apply ot_roadside_finish|].
      intros _ h2. apply ot_add_object; [done|]. intros x (e & -> & He)%elem_of_list_fmap. by apply fresh_own, Hes.
    Qed.
  End Other.

  (** *** the calls *)
  Definition frame_of (o : op F) h : Prop :=
    h_next h ≤ h_next (step o h).2 ∧ (¬ gives_ids o → h_ids (step o h).2 = h_ids h) ∧
    ∀ r, r < h_next h → ¬ touches o h r → same_object h (step o h).2 r.
  Lemma frame_fr b (I : heap F → Prop) (m : H (F:=F) (retval F)) o h (Q : retval F → heap F → Prop) :
    (m h).2 = (step o h).2 → I h → (¬ gives_ids o → b = true) → fr b I (h_next h) (touches o h) m Q h → frame_of o h.
  Proof. intros E HI Hb Hf. destruct (Hf HI (le_n _)) as (_ & H1 & H2 & H3 & _). unfold frame_of. rewrite -E. split_and!; auto. Qed.
  Lemma fr_guarded b (I : heap F → Prop) n P g m Q h : fr b I n P m Q h → fr b I n P (guarded g m) Q h.
  Proof.
    intros Hm HI Hn. unfold guarded. destruct (g h); [by apply Hm|]. simpl. split_and!; [done|done|done|intros; apply same_refl|]. by intros ? ? [=].
  Qed.
  Lemma fr_as_ref b (I : heap F → Prop) n P m Q h : fr b I n P m Q h → fr b I n P (as_ref m) any h.
  Proof. intros. eapply fr_bind; [done|]. intros. by apply fr_ret. Qed.
  Lemma fr_as_refs b (I : heap F → Prop) n P m Q h : fr b I n P m Q h → fr b I n P (as_refs m) any h.
  Proof. intros. eapply fr_bind; [done|]. intros. by apply fr_ret. Qed.
  Lemma fr_as_unit b (I : heap F → Prop) n P m Q h : fr b I n P m Q h → fr b I n P (as_unit m) any h.
  Proof. intros. eapply fr_bind; [done|]. intros. by apply fr_ret. Qed.
  Lemma fr_as_pose b (I : heap F → Prop) n P m Q h : fr b I n P m Q h → fr b I n P (as_pose m) any h.
  Proof. intros. eapply fr_bind; [done|]. intros [[[x y] hd] l] h' _. by apply fr_ret. Qed.
  Ltac wrap := try apply fr_guarded;
    match goal with
    | |- fr _ _ _ _ (as_ref _) _ _ => eapply fr_as_ref
    | |- fr _ _ _ _ (as_refs _) _ _ => eapply fr_as_refs
    | |- fr _ _ _ _ (as_unit _) _ _ => eapply fr_as_unit
    | |- fr _ _ _ _ (as_pose _) _ _ => eapply fr_as_pose
    end.
  Ltac T := apply (frame_fr true (λ _, True) _ _ _ any eq_refl I (λ _, eq_refl)); simpl; wrap.
  Ltac G := apply (frame_fr false (λ _, True) _ _ _ any eq_refl I); [intros []; exact I|]; simpl; wrap.
  Ltac S h := apply (frame_fr true (struct h) _ _ _ any eq_refl (struct_refl h) (λ _, eq_refl)); simpl; wrap.
  Ltac own := left; simpl; auto.
  Theorem frame_step o h : frame_of o h.
  Proof.
    destruct o as [?|?????|???|??????????|????|????|???|???|????|??|??????|???|??|??|??|??| |ls sec ks| |????|????|???|??|??|r1 r2|
      ?????????????????|?????????????????|????????????????|??????|?????|?????|????|??|??|??????|?|??|??|d|d|?????|??|???????|?????|????????|???????|???].
    - T. by apply fr_new_geom.
    - T. eapply fr_bindT; [by apply fr_lift|]. intros. by apply fr_new_geom.
    - T. eapply fr_bindT; [by apply fr_lift|]. intros. by apply fr_new_geom.
    - T. eapply fr_bindT; [by apply fr_lift|]. intros. by apply fr_new_geom.
    - S h. apply st_eval_end. own.
    - S h. apply st_eval_start. own.
    - T. eapply fr_bindT; [by apply fr_lift|]. intros. by apply fr_new_pv.
    - T. apply ot_add_geometry. own.
    - S h. apply st_set_start. own.
    - S h. apply st_adjust; [own|]. intros g Hg. own.
    - T. apply ot_lane_ctor.
    - S h. apply st_add_link. own.
    - T. apply ot_mark. own.
    - T. apply ot_section_ctor. own.
    - T. apply ot_left; own.
    - T. apply ot_right; own.
    - T. by apply fr_new_lanes.
    - apply (frame_fr true (same_pairs h) _ _ _ any eq_refl (λ _, eq_refl) (λ _, eq_refl)); simpl; wrap.
      apply lk_add_lanesection; [own|]. intros k Hk. split; [own|]. intros l Hl. left. right. right. eauto.
    - T. by apply fr_new_linker.
    - T. apply fr_linker; [done|own].
    - T. by apply fr_new_conn.
    - T. apply ot_lanelink. own.
    - T. by apply fr_new_junc.
    - T. apply ot_connection; own.
    - S h. apply st_create_lane_links; intros s Hs; split; intros l Hl; left; [left|left|right|right]; exists s; auto.
    - T. by apply fr_new_obj.
    - T. by apply fr_new_obj.
    - T. apply fr_bgets. destruct (so_class _); [apply fr_raise|]. apply fr_obj; [done|own].
    - T. by apply fr_new_road.
    - T. apply ot_successor. own.
    - T. apply ot_predecessor. own.
    - T. apply ot_neighbor. own.
    - G. apply ot_add_object; [own|]. intros x Hx. own.
    - G. apply ot_add_signal; [own|]. intros x Hx. own.
    - G. apply ot_add_object_roadside. own.
    - T. by apply fr_new_odr.
    - T. apply fr_bgets. apply fr_odr; [done|own].
    - T. apply fr_odr; [done|own].
    - S h. apply st_adjust_startpoints. intros k o Hk. split; [left; exists k, o; auto|]. intros g Hg. left. exists k, o. auto.
    - S h. apply st_link_all.
      + intros k x Hx s Hs. split; intros l Hl; left; right; exists k, x; (split; [done|]); exists s; auto.
      + intros k o Hk. split; [left; left; exists k, o; auto|]. intros g Hg. left. left. exists k, o. auto.
    - S h. apply st_adjust_road_wrt. intros o Ho. split; [left; exists o; auto|]. intros g Hg. left. exists o. auto.
    - T. apply ot_standard_lane.
    - T. apply ot_create_road.
    - T. apply ot_create_straight_road.
    - T. apply ot_create_cloth_arc_cloth.
    - T. apply ot_create_junction_roads. intros x Hx. own.
    - T. apply ot_create_junction.
  Qed.
End Frame.
