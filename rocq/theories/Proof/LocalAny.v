(** What a constructing call reads (C64) *)
From Coq Require Import ssreflect.
From Verif.Model Require Import Api.
From Verif.Spec Require Import SpecChain SpecState SpecNetwork SpecFrame SpecLocal.
From Verif.Proof Require Import Monad DictFacts PlanViewFacts NetFrame Reach Steps Frame Local.
Local Open Scope general_if_scope.

Section LocalAny.
  Context {F : Type} `{!Num F}.
  Implicit Types (h : heap F).

  (** the two states agree on [P], which has all addresses that are not in use yet, on the next address and on the used ids *)
  Definition both (P : ref → Prop) h1 h2 : Prop :=
    agree P h1 h2 ∧ h_next h1 = h_next h2 ∧ h_ids h1 = h_ids h2 ∧ ∀ r, h_next h1 ≤ r → P r.

  Section Rules.
    Context (I : heap F → Prop) (P : ref → Prop).
    Definition al {A} (m : H (F:=F) A) (Q : A → Prop) h1 h2 : Prop :=
      I h1 → both P h1 h2 → I (m h1).2 ∧ both P (m h1).2 (m h2).2 ∧ (m h1).1 = (m h2).1 ∧ ∀ a, (m h1).1 = Ok a → Q a.
    Notation any := (λ _, True).
    Lemma al_bind {A B} (m : H (F:=F) A) (k : A → H (F:=F) B) R Q h1 h2 :
      al m R h1 h2 → (∀ a h1' h2', R a → al (k a) Q h1' h2') → al (bind m k) Q h1 h2.
    Proof.
      intros Hm Hk HI HA. destruct (Hm HI HA) as (I1 & A1 & E1 & Q1). unfold bind.
      destruct (m h1) as [[a|e] h1'], (m h2) as [[a'|e'] h2']; simpl in *; try discriminate; [|split_and!; try done; congruence].
      injection E1 as <-. apply (Hk a h1' h2' (Q1 _ eq_refl) I1 A1).
    Qed.
    Lemma al_bindT {A B} (m : H (F:=F) A) (k : A → H (F:=F) B) Q h1 h2 :
      al m any h1 h2 → (∀ a h1' h2', al (k a) Q h1' h2') → al (bind m k) Q h1 h2.
    Proof. intros Hm Hk. eapply al_bind; [exact Hm|]. intros. apply Hk. Qed.
    Lemma al_weaken {A} (m : H (F:=F) A) (Q Q' : A → Prop) h1 h2 : (∀ a, Q a → Q' a) → al m Q h1 h2 → al m Q' h1 h2.
    Proof. intros Hq Hm HI HA. destruct (Hm HI HA) as (I1 & A1 & E1 & Q1). split_and!; auto. Qed.
    Lemma al_bgets {A B} (f : heap F → A) (k : A → H (F:=F) B) Q h1 h2 :
      (I h1 → agree P h1 h2 → f h1 = f h2) → (I h1 → al (k (f h1)) Q h1 h2) → al (bind (gets f) k) Q h1 h2.
    Proof. intros Hf Hk HI HA. unfold bind, gets. rewrite -(Hf HI (proj1 HA)). by apply Hk. Qed.
    Lemma al_gets {A} (f : heap F → A) (Q : A → Prop) h1 h2 :
      (I h1 → agree P h1 h2 → f h1 = f h2) → (I h1 → Q (f h1)) → al (gets f) Q h1 h2.
    Proof. intros Hf HQ HI HA. unfold gets. simpl. split_and!; [done|done|by rewrite -(Hf HI (proj1 HA))|]. intros a [= <-]. by apply HQ. Qed.
    Lemma al_ret {A} (a : A) (Q : A → Prop) h1 h2 : Q a → al (ret a) Q h1 h2.
    Proof. intros HQ HI HA. split_and!; try done. by intros ? [= <-]. Qed.
    Lemma al_raise {A} e (Q : A → Prop) h1 h2 : al (raise e) Q h1 h2.
    Proof. intros HI HA. by split_and!. Qed.
    Lemma al_or_raise {A} e (o : option A) (Q : A → Prop) h1 h2 : (∀ a, o = Some a → Q a) → al (or_raise e o) Q h1 h2.
    Proof. intros HQ. destruct o; [apply al_ret; auto|apply al_raise]. Qed.
    Lemma al_lift {A} (o : res A) (Q : A → Prop) h1 h2 : (∀ a, o = Ok a → Q a) → al (lift o) Q h1 h2.
    Proof. intros HQ HI HA. by split_and!. Qed.
    Lemma al_for_each {A} (f : A → H (F:=F) unit) l h1 h2 : (∀ x h1' h2', x ∈ l → al (f x) any h1' h2') → al (for_each f l) any h1 h2.
    Proof.
      revert h1 h2. induction l as [|x l IH]; intros h1 h2 Hf; simpl; [by apply al_ret|].
      eapply al_bindT; [apply Hf; by left|]. intros _ h1' h2'. apply IH. intros y h3 h4 Hy. apply Hf. by right.
    Qed.
    (* a rule of [rl] that leaves the ids and the next address alone *)
    Lemma al_rl {A} (m : H (F:=F) A) (Q : A → Prop) h1 h2 : (∀ h, h_next (m h).2 = h_next h ∧ h_ids (m h).2 = h_ids h) → rl I P m Q h1 h2 → al m Q h1 h2.
    Proof.
      intros Hn Hm HI (HA & N & Is & Hf). destruct (Hm HI HA) as (I1 & A1 & _ & E1 & Q1). destruct (Hn h1) as [N1 J1]. destruct (Hn h2) as [N2 J2].
      split_and!; [done| |done|done]. split_and!; [done|congruence|congruence|]. by rewrite N1.
    Qed.
    Lemma al_upd_pv r f h1 h2 : (I h1 → I (upd_pv r f h1).2) → P r → al (upd_pv r f) any h1 h2. Proof. intros. apply al_rl; [done|by apply rl_pv]. Qed.
    Lemma al_upd_lane r f h1 h2 : (I h1 → I (upd_lane r f h1).2) → P r → al (upd_lane r f) any h1 h2. Proof. intros. apply al_rl; [done|by apply rl_lane]. Qed.
    Lemma al_upd_sec r f h1 h2 : (I h1 → I (upd_sec r f h1).2) → P r → al (upd_sec r f) any h1 h2. Proof. intros. apply al_rl; [done|by apply rl_sec]. Qed.
    Lemma al_upd_lanes r f h1 h2 : (I h1 → I (upd_lanes r f h1).2) → P r → al (upd_lanes r f) any h1 h2. Proof. intros. apply al_rl; [done|by apply rl_lanes]. Qed.
    Lemma al_upd_conn r f h1 h2 : (I h1 → I (upd_conn r f h1).2) → P r → al (upd_conn r f) any h1 h2. Proof. intros. apply al_rl; [done|by apply rl_conn]. Qed.
    Lemma al_upd_junc r f h1 h2 : (I h1 → I (upd_junc r f h1).2) → P r → al (upd_junc r f) any h1 h2. Proof. intros. apply al_rl; [done|by apply rl_junc]. Qed.
    Lemma al_upd_obj r f h1 h2 : (I h1 → I (upd_obj r f h1).2) → P r → al (upd_obj r f) any h1 h2. Proof. intros. apply al_rl; [done|by apply rl_obj]. Qed.
    Lemma al_upd_road r f h1 h2 : (I h1 → I (upd_road r f h1).2) → P r → al (upd_road r f) any h1 h2. Proof. intros. apply al_rl; [done|by apply rl_road]. Qed.

    (* allocation: the same address, which is in [P] *)
    Ltac new_ := intros HI HQ HI' (HA & N & Is & Hf); simpl; split_and!; [by apply HI| |by rewrite N|intros a [= <-]; split; [by apply Hf|by apply HQ]];
      split_and!; [|simpl; by rewrite N|done|simpl; intros; apply Hf; lia];
      intros r' Hr'; pose proof (HA r' Hr') as (?&?&?&?&?&?&?&?&?&?&?); split_and!; simpl; try assumption;
      rewrite N; match goal with |- <[?r:=_]> _ !! _ = _ => destruct (decide (r = r')) as [<-|] end;
      [by rewrite !lookup_insert|by rewrite !lookup_insert_ne].
    Lemma al_new_geom x (Q : ref → Prop) h1 h2 : (I h1 → I (new_geom x h1).2) → (I h1 → Q (h_next h1)) → al (new_geom x) (λ a, P a ∧ Q a) h1 h2. Proof. new_. Qed.
    Lemma al_new_pv x (Q : ref → Prop) h1 h2 : (I h1 → I (new_pv x h1).2) → (I h1 → Q (h_next h1)) → al (new_pv x) (λ a, P a ∧ Q a) h1 h2. Proof. new_. Qed.
    Lemma al_new_lane x (Q : ref → Prop) h1 h2 : (I h1 → I (new_lane x h1).2) → (I h1 → Q (h_next h1)) → al (new_lane x) (λ a, P a ∧ Q a) h1 h2. Proof. new_. Qed.
    Lemma al_new_sec x (Q : ref → Prop) h1 h2 : (I h1 → I (new_sec x h1).2) → (I h1 → Q (h_next h1)) → al (new_sec x) (λ a, P a ∧ Q a) h1 h2. Proof. new_. Qed.
    Lemma al_new_lanes x (Q : ref → Prop) h1 h2 : (I h1 → I (new_lanes x h1).2) → (I h1 → Q (h_next h1)) → al (new_lanes x) (λ a, P a ∧ Q a) h1 h2. Proof. new_. Qed.
    Lemma al_new_linker x (Q : ref → Prop) h1 h2 : (I h1 → I (new_linker x h1).2) → (I h1 → Q (h_next h1)) → al (new_linker x) (λ a, P a ∧ Q a) h1 h2. Proof. new_. Qed.
    Lemma al_new_conn x (Q : ref → Prop) h1 h2 : (I h1 → I (new_conn x h1).2) → (I h1 → Q (h_next h1)) → al (new_conn x) (λ a, P a ∧ Q a) h1 h2. Proof. new_. Qed.
    Lemma al_new_junc x (Q : ref → Prop) h1 h2 : (I h1 → I (new_junc x h1).2) → (I h1 → Q (h_next h1)) → al (new_junc x) (λ a, P a ∧ Q a) h1 h2. Proof. new_. Qed.
    Lemma al_new_obj x (Q : ref → Prop) h1 h2 : (I h1 → I (new_obj x h1).2) → (I h1 → Q (h_next h1)) → al (new_obj x) (λ a, P a ∧ Q a) h1 h2. Proof. new_. Qed.
    Lemma al_new_road x (Q : ref → Prop) h1 h2 : (I h1 → I (new_road x h1).2) → (I h1 → Q (h_next h1)) → al (new_road x) (λ a, P a ∧ Q a) h1 h2. Proof. new_. Qed.
    Lemma al_new_odr x (Q : ref → Prop) h1 h2 : (I h1 → I (new_odr x h1).2) → (I h1 → Q (h_next h1)) → al (new_odr x) (λ a, P a ∧ Q a) h1 h2. Proof. new_. Qed.

    (* ids *)
    Lemma al_ids (f : heap F → heap F) h1 h2 : (I h1 → I (f h1)) → (∀ h, ∃ x, f h = h <| h_ids := x |>) → (∀ h h', h_ids h = h_ids h' → h_ids (f h) = h_ids (f h')) →
      al (modify f) any h1 h2.
    Proof.
      intros HI Hf Hg HI' (HA & N & Is & Hn). unfold modify. simpl. split_and!; [by apply HI| |done|done]. pose proof (Hg _ _ Is) as E.
      destruct (Hf h1) as [x1 E1]. destruct (Hf h2) as [x2 E2]. rewrite E1 E2 in E |- *. simpl in E. subst x2. by split_and!.
    Qed.
    Lemma al_update_id r h1 h2 : (∀ h x, I h → I (h <| h_ids := x |>)) → (∀ h f, I h → I (upd_obj r f h).2) → P r → al (update_id r) any h1 h2.
    Proof.
      intros HI HO Hr. apply al_bgets; [intros _; by apply a_obj|intros _]. set (o := h_obj h1 !!! r). set (cls := sclass_name (so_class o)). clearbody o cls.
      eapply al_bindT; [apply al_ids|intros _ h3 h4].
      { intros Hi. destruct (h_ids h1 !! cls); [done|by apply HI]. }
      { intros h. destruct (h_ids h !! cls) as [|]; [|by eexists]. exists (h_ids h). by destruct h. }
      { intros h h' E. rewrite -E. by destruct (h_ids h !! cls); simpl; rewrite ?E. }
      intros HI' (HA & N & Is & Hn). revert HI'. generalize (conj HA (conj N (conj Is Hn))). intros B HI'. revert HI' B. clear HA N Hn.
      change (al (let! t := gets (λ h, default ([], 0%N) (h_ids h !! cls)) in let '(used, counter) := t in
        (if bool_decide (so_id o = None) || bool_decide (pystr_opt (so_id o) ∈ used) then
           let! n := or_raise OutOfFuel (free_id (S (length used)) used counter) in
           modify (λ h, h <| h_ids := <[cls := (used, n)]> (h_ids h) |>) ;;
           upd_obj r (λ o, o <| so_id := Some (PStr (pretty n)) |>)
         else ret tt) ;;
        let! o := get_obj r in
        modify (λ h, h <| h_ids := alter (λ t, (t.1 ++ [pystr_opt (so_id o)], t.2)) cls (h_ids h) |>)) any h3 h4).
      apply al_bgets; [intros _ _; by rewrite Is|intros _]. clear Is. destruct (default _ _) as [used counter]. eapply al_bindT; [|intros _ h5 h6].
      - destruct (_ || _); [|by apply al_ret]. eapply al_bindT; [by apply al_or_raise|]. intros n h5 h6.
        eapply al_bindT; [|intros _ h7 h8; apply al_upd_obj; [apply HO|done]]. apply al_ids; [apply HI|intros h; by eexists|intros h h' E; simpl; by rewrite E].
      - apply al_bgets; [intros _; by apply a_obj|intros _]. apply al_ids; [apply HI|intros h; by eexists|intros h h' E; simpl; by rewrite E].
    Qed.
  End Rules.
  Notation any := (λ _, True).
  Lemma al_guarded (I : heap F → Prop) P g m Q h1 h2 : (agree P h1 h2 → g h1 = g h2) → (g h1 = true → al I P m Q h1 h2) → al I P (guarded g m) Q h1 h2.
  Proof.
    intros Hg Hm HI HB. unfold guarded. rewrite -(Hg (proj1 HB)). destruct (g h1) eqn:E; [by apply Hm|]. simpl. by split_and!.
  Qed.
  Lemma al_as_unit (I : heap F → Prop) P m Q h1 h2 : al I P m Q h1 h2 → al I P (as_unit m) any h1 h2.
  Proof. intros. eapply al_bind; [done|]. intros. by apply al_ret. Qed.
  Lemma al_as_ref (I : heap F → Prop) P m Q h1 h2 : al I P m Q h1 h2 → al I P (as_ref m) any h1 h2.
  Proof. intros. eapply al_bind; [done|]. intros. by apply al_ret. Qed.
  Lemma al_as_refs (I : heap F → Prop) P m Q h1 h2 : al I P m Q h1 h2 → al I P (as_refs m) any h1 h2.
  Proof. intros. eapply al_bind; [done|]. intros. by apply al_ret. Qed.

  (** *** what is newer than [h0] *)
  Section Fresh.
    Context (h0 : heap F) (P : ref → Prop).
    Definition older h : Prop := h_next h0 ≤ h_next h ∧ ∀ r, r < h_next h0 →
      rd_lanes (h_road h !!! r) = rd_lanes (h_road h0 !!! r) ∧ h_lanes h !!! r = h_lanes h0 !!! r ∧ h_sec h !!! r = h_sec h0 !!! r.
    Definition fresh (r : ref) : Prop := P r ∧ h_next h0 ≤ r.
    Notation A_ m Q h1 h2 := (al older P m Q h1 h2).
    Lemma older_refl : older h0.
    Proof. by split_and!. Qed.
    Ltac keep_new := intros (Hn & Ho); split; [simpl; lia|]; let r := fresh "x" in let Hr := fresh "Hx" in intros r Hr; simpl; destruct (Ho r Hr) as (H1 & H2 & H3);
      split_and!; first [assumption|rewrite ltm_insert_ne; first [lia|assumption]].
    Ltac nw L := eapply al_weaken; [|apply (L _ _ _ (λ a, h_next h0 ≤ a)); [keep_new|by intros [? _]]]; auto.
    Lemma f_new_geom x h1 h2 : A_ (new_geom x) fresh h1 h2. Proof. nw al_new_geom. Qed.
    Lemma f_new_pv x h1 h2 : A_ (new_pv x) fresh h1 h2. Proof. nw al_new_pv. Qed.
    Lemma f_new_lane x h1 h2 : A_ (new_lane x) fresh h1 h2. Proof. nw al_new_lane. Qed.
    Lemma f_new_sec x h1 h2 : A_ (new_sec x) fresh h1 h2. Proof. nw al_new_sec. Qed.
    Lemma f_new_lanes x h1 h2 : A_ (new_lanes x) fresh h1 h2. Proof. nw al_new_lanes. Qed.
    Lemma f_new_road x h1 h2 : A_ (new_road x) fresh h1 h2. Proof. nw al_new_road. Qed.
    Lemma f_upd_pv r f h1 h2 : P r → A_ (upd_pv r f) any h1 h2.
    Proof. intros. by apply al_upd_pv. Qed.
    Lemma f_upd_lane r f h1 h2 : P r → A_ (upd_lane r f) any h1 h2.
    Proof. intros. by apply al_upd_lane. Qed.
    Lemma f_upd_sec r f h1 h2 : fresh r → A_ (upd_sec r f) any h1 h2.
    Proof. intros [Hr Hf]. apply al_upd_sec; [|done]. keep_new. Qed.
    Lemma f_upd_lanes r f h1 h2 : fresh r → A_ (upd_lanes r f) any h1 h2.
    Proof. intros [Hr Hf]. apply al_upd_lanes; [|done]. keep_new. Qed.
    Lemma f_upd_road r f h1 h2 : P r → (∀ o, rd_lanes (f o) = rd_lanes o) → A_ (upd_road r f) any h1 h2.
    Proof.
      intros Hr Hf. apply al_upd_road; [|done]. intros (Hn & Ho). split; [done|]. intros x Hx. destruct (Ho x Hx) as (H1 & H2 & H3). split_and!; [|done|done].
      simpl. destruct (decide (r = x)) as [<-|Hne]; [rewrite ltm_insert Hf|rewrite ltm_insert_ne //]; apply H1.
    Qed.
    Lemma f_lane_a a h1 h2 : A_ (lane_a a) fresh h1 h2.
    Proof. apply f_new_lane. Qed.
    Lemma f_standard_lane a m h1 h2 : A_ (standard_lane a m) fresh h1 h2.
    Proof. eapply al_bind; [apply f_lane_a|]. intros l h3 h4 Hl. eapply al_bindT; [apply f_upd_lane, Hl|]. intros. by apply al_ret. Qed.
    Lemma f_lanesection s c h1 h2 : P c → A_ (lanesection_ctor s c) fresh h1 h2.
    Proof. intros. eapply al_bindT; [by apply f_upd_lane|]. intros. apply f_new_sec. Qed.
    Lemma f_add_left s l h1 h2 : fresh s → P l → A_ (add_left_lane s l) any h1 h2.
    Proof.
      intros Hs Hl. apply al_bgets; [intros _; apply a_sec, Hs|intros _]. eapply al_bindT; [by apply f_upd_lane|]. intros.
      eapply al_bindT; [by apply f_upd_sec|]. intros. by apply f_upd_sec.
    Qed.
    Lemma f_add_right s l h1 h2 : fresh s → P l → A_ (add_right_lane s l) any h1 h2.
    Proof.
      intros Hs Hl. apply al_bgets; [intros _; apply a_sec, Hs|intros _]. eapply al_bindT; [by apply f_upd_lane|]. intros.
      eapply al_bindT; [by apply f_upd_sec|]. intros. by apply f_upd_sec.
    Qed.
    Lemma f_add_geometry pv g hd h1 h2 : P pv → A_ (pv_add_geometry pv g hd) any h1 h2.
    Proof. intros. eapply al_bindT; [by apply f_upd_pv|]. intros. by apply f_upd_pv. Qed.
    Lemma f_add_geometries pv gs h1 h2 : P pv → (∀ g, g ∈ gs → P g) → A_ (add_geometries pv gs) any h1 h2.
    Proof.
      intros Hp Hg. apply al_for_each. intros g h3 h4 Hin. eapply al_bindT; [by apply f_add_geometry|]. intros _ h5 h6.
      apply al_bgets; [intros _; apply a_geom, Hg, Hin|intros _]. eapply al_bindT; [by apply al_or_raise|]. intros. by apply al_ret.
    Qed.
    Lemma f_create_side add s n w h1 h2 : fresh s → (∀ l h3 h4, P l → A_ (add s l) any h3 h4) → A_ (create_side add s n w) any h1 h2.
    Proof. intros Hs Ha. apply al_for_each. intros i h3 h4 _. eapply al_bind; [apply f_standard_lane|]. intros l h5 h6 [Hl _]. by apply Ha. Qed.
    Lemma f_create_sides s n w h1 h2 : fresh s → A_ (create_sides s n w) any h1 h2.
    Proof.
      intros Hs. apply al_for_each. intros i h3 h4 _. eapply al_bindT.
      - eapply al_bind; [apply f_standard_lane|]. intros l h5 h6 [Hl _]. by apply f_add_right.
      - intros _ h5 h6. eapply al_bind; [apply f_standard_lane|]. intros l h7 h8 [Hl _]. by apply f_add_left.
    Qed.
    Lemma f_add_lanesection ls s h1 h2 : fresh ls → A_ (add_lanesection ls s []) any h1 h2.
    Proof. intros. eapply al_bindT; [by apply al_ret|]. intros. by apply f_upd_lanes. Qed.
    Lemma f_create_road gs id l r ty m w h1 h2 : (∀ g, g ∈ gs → P g) → A_ (create_road gs id l r ty m w) fresh h1 h2.
    Proof.
      intros Hg. eapply al_bind; [apply f_new_pv|]. intros pv h3 h4 [Hp _]. eapply al_bindT; [by apply f_add_geometries|]. intros _ h5 h6.
      eapply al_bind; [apply f_lane_a|]. intros lc h7 h8 [Hl _]. eapply al_bindT; [by apply f_upd_lane|]. intros _ h9 h10.
      eapply al_bind; [by apply f_lanesection|]. intros s h11 h12 Hs.
      eapply al_bindT; [apply f_create_side; [done|]; intros; by apply f_add_left|]. intros _ h13 h14.
      eapply al_bindT; [apply f_create_side; [done|]; intros; by apply f_add_right|]. intros _ h15 h16.
      eapply al_bind; [apply f_new_lanes|]. intros ls h17 h18 Hls. eapply al_bindT; [by apply f_add_lanesection|]. intros _ h19 h20. apply f_new_road.
    Qed.
    Lemma f_straight id l j n w h1 h2 : A_ (create_straight_road id l j n w) fresh h1 h2.
    Proof.
      eapply al_bind; [apply f_new_geom|]. intros g ? ? [Hg _]. eapply al_bind; [apply f_new_pv|]. intros pv h3 h4 [Hp _].
      eapply al_bindT; [by apply f_add_geometry|]. intros _ h5 h6.
      eapply al_bind; [apply f_standard_lane|]. intros lc h7 h8 [Hl _].
      eapply al_bind; [by apply f_lanesection|]. intros s h11 h12 Hs. eapply al_bindT; [by apply f_create_sides|]. intros _ h13 h14.
      eapply al_bind; [apply f_new_lanes|]. intros ls h17 h18 Hls. eapply al_bindT; [by apply f_add_lanesection|]. intros _ h19 h20. apply f_new_road.
    Qed.
    Lemma f_cloth c a ca id j cs n w h1 h2 : A_ (create_cloth_arc_cloth c a ca id j cs n w) fresh h1 h2.
    Proof.
      eapply al_bind; [apply f_new_pv|]. intros pv h3 h4 [Hp _].
      do 3 (eapply al_bindT; [by apply al_lift|]; intros ? ? ?; eapply al_bind; [apply f_new_geom|]; intros ? ? ? _).
      do 3 (eapply al_bindT; [by apply f_add_geometry|]; intros _ ? ?).
      eapply al_bind; [apply f_standard_lane|]. intros lc h7 h8 [Hl _].
      eapply al_bind; [by apply f_lanesection|]. intros s h11 h12 Hs. eapply al_bindT; [by apply f_create_sides|]. intros _ h13 h14.
      eapply al_bind; [apply f_new_lanes|]. intros ls h17 h18 Hls. eapply al_bindT; [by apply f_add_lanesection|]. intros _ h19 h20. apply f_new_road.
    Qed.

    (** *** create_junction_roads: the given roads are older *)
    Context (rs : list ref).
    Context (Hrs : ∀ x, x ∈ rs → P x ∧ x < h_next h0 ∧ P (rd_lanes (h_road h0 !!! x)) ∧ rd_lanes (h_road h0 !!! x) < h_next h0 ∧
      ∀ s, s ∈ h_lanes h0 !!! rd_lanes (h_road h0 !!! x) → P s ∧ s < h_next h0 ∧ ∀ l, l ∈ ls_left (h_sec h0 !!! s) → P l).
    Lemma f_section x o i h1 h2 : x ∈ rs → rd_lanes o = rd_lanes (h_road h0 !!! x) → A_ (road_section o i) (λ s, ∀ l, l ∈ ls_left s → P l) h1 h2.
    Proof.
      intros Hx Eo. destruct (Hrs x Hx) as (Px & Lx & Pl & Ll & Hs). unfold road_section. rewrite Eo.
      apply al_bgets; [intros _; by apply a_lanes|intros (_ & Ho)]. destruct (Ho _ Ll) as (_ & E & _). rewrite E.
      eapply (al_bind _ _ _ _ (λ s, s ∈ h_lanes h0 !!! rd_lanes (h_road h0 !!! x))).
      - destruct i; [|apply al_raise]. apply al_or_raise. intros s Hin. by eapply py_index_elem.
      - intros s h3 h4 Hin. destruct (Hs s Hin) as (Ps & Ls & Hl). apply al_gets; [intros _; by apply a_sec|]. intros (_ & Ho'). destruct (Ho' _ Ls) as (_ & _ & E'). by rewrite E'.
    Qed.
    Lemma f_get_road x {B} (k : road → H (F:=F) B) Q h1 h2 : x ∈ rs →
      (∀ o, rd_lanes o = rd_lanes (h_road h0 !!! x) → A_ (k o) Q h1 h2) → A_ (bind (get_road x) k) Q h1 h2.
    Proof. intros Hx Hk. destruct (Hrs x Hx) as (Px & Lx & _). apply al_bgets; [intros _; by apply a_road|intros (_ & Ho)]. apply Hk. by apply Ho. Qed.
    Lemma f_lanes_offset x y cp h1 h2 : x ∈ rs → y ∈ rs → A_ (get_lanes_offset x y cp) any h1 h2.
    Proof.
      intros Hx Hy. apply (f_get_road x); [done|]. intros o1 E1. apply (f_get_road y); [done|]. intros o2 E2.
      eapply al_bind; [by apply (f_section x)|]. intros s1 h3 h4 Hs1. eapply al_bind; [by apply (f_section y)|]. intros s2 h5 h6 _.
      destruct (_ && _); [|apply al_raise]. eapply (al_bind _ _ _ _ P); [|intros l h7 h8 Hl].
      - apply al_or_raise. intros l Hl. apply Hs1. destruct (ls_left s1); [done|]. injection Hl as ->. by left.
      - apply al_bgets; [intros _; by apply a_lane|intros _]. by apply al_ret.
    Qed.
    Lemma f_add_successor r et id cp off h1 h2 : P r → A_ (add_successor r et id cp off) any h1 h2.
    Proof.
      intros Hr. apply al_bgets; [intros _; by apply a_road|intros _]. destruct (rd_succ _); [apply al_raise|].
      eapply al_bindT; [by apply al_lift|]. intros. by apply f_upd_road.
    Qed.
    Lemma f_add_predecessor r et id cp off h1 h2 : P r → A_ (add_predecessor r et id cp off) any h1 h2.
    Proof.
      intros Hr. apply al_bgets; [intros _; by apply a_road|intros _]. destruct (rd_pred _); [apply al_raise|].
      eapply al_bindT; [by apply al_lift|]. intros. by apply f_upd_road.
    Qed.
    Lemma f_nth i h1 h2 : A_ (or_raise IndexError (rs !! i)) (.∈ rs) h1 h2.
    Proof. apply al_or_raise. intros x Hx. by eapply elem_of_list_lookup_2. Qed.
    Lemma f_junction_road an r j sp ap ll cp i n k h1 h2 : A_ (junction_road rs an r j sp ap ll cp i n k) any h1 h2.
    Proof.
      eapply al_bindT; [by apply al_or_raise|]. intros aj ? ?. eapply al_bindT; [by apply al_or_raise|]. intros ai ? ?.
      eapply al_bind; [apply f_nth|]. intros ri ? ? Hi. eapply al_bind; [apply f_nth|]. intros rj ? ? Hj.
      eapply al_bindT; [by apply f_lanes_offset|]. intros [nl lo] ? ?.
      eapply (al_bind _ _ _ _ fresh); [destruct (fiszero _); [apply f_straight|apply f_cloth]|]. intros tmp ? ? [Ht _].
      apply (f_get_road ri); [done|]. intros oi _. eapply al_bindT; [by apply f_add_predecessor|]. intros _ ? ?.
      apply (f_get_road rj); [done|]. intros oj _. eapply al_bindT; [by apply f_add_successor|]. intros _ ? ?. by apply al_ret.
    Qed.
    Lemma f_inner an r j sp ap ll cp i n ks h1 h2 : A_ (junction_inner rs an r j sp ap ll cp i n ks) any h1 h2.
    Proof.
      revert n h1 h2. induction ks as [|k ks IH]; intros n h1 h2; simpl; [by apply al_ret|].
      eapply al_bindT; [apply f_junction_road|]. intros. eapply al_bindT; [apply IH|]. intros. by apply al_ret.
    Qed.
    Lemma f_outer an r j sp ap ll n ks h1 h2 : A_ (junction_outer rs an r j sp ap ll n ks) any h1 h2.
    Proof.
      revert n h1 h2. induction ks as [|k ks IH]; intros n h1 h2; simpl; [by apply al_ret|].
      eapply al_bind; [apply f_nth|]. intros ri ? ? Hi. destruct (Hrs ri Hi) as [Pr _].
      eapply al_bindT; [destruct (bool_decide _); [by apply f_add_successor|by apply f_add_predecessor]|]. intros _ ? ?.
      eapply al_bindT; [apply f_inner|]. intros. eapply al_bindT; [apply IH|]. intros. by apply al_ret.
    Qed.
    Lemma f_junction_roads an r j sp ap n h1 h2 : A_ (create_junction_roads rs an r j sp ap n) any h1 h2.
    Proof.
      eapply al_bindT; [by apply al_lift|]. intros ll ? ?. eapply al_bindT; [apply f_outer|]. intros js ? ?.
      eapply (al_bind _ _ _ _ (.∈ rs)); [apply al_or_raise; intros x Hx; by apply last_Some_elem_of|]. intros x ? ? Hx.
      eapply al_bindT; [by apply f_add_predecessor, Hrs|]. intros. by apply al_ret.
    Qed.
  End Fresh.

  (** *** add_object_roadside *)
  Section Roadside.
    Context (h0 : heap F) (P : ref → Prop).
    Definition same_sections h : Prop := h_lanes h = h_lanes h0 ∧ h_sec h = h_sec h0.
    Notation A_ m Q h1 h2 := (al same_sections P m Q h1 h2).
    Lemma s_update_id r h1 h2 : P r → A_ (update_id r) any h1 h2.
    Proof. intros Hr. by apply al_update_id. Qed.
    Lemma s_add_object r os h1 h2 : P r → (∀ o, o ∈ os → P o) → A_ (add_object r os) any h1 h2.
    Proof. intros Hr Hos. eapply al_bindT; [apply al_for_each; intros; by apply s_update_id, Hos|]. intros. by apply al_upd_road. Qed.
    Lemma s_sum_widths acc ls h1 h2 : (∀ l, l ∈ ls → P l) → A_ (sum_widths acc ls) any h1 h2.
    Proof.
      revert acc. induction ls as [|l ls IH]; intros acc Hl; simpl; [by apply al_ret|].
      apply al_bgets; [intros _; apply a_lane, Hl; by left|intros _]. apply IH. intros l' H'. apply Hl. by right.
    Qed.
    Context (proto : ref) (Hproto : P proto).
    Definition entries_in (es : list (F * Z * F * ref)) : Prop := ∀ e, e ∈ es → P e.2.
    Definition sec_ok (s : ref) : Prop := P s ∧ (∀ l, l ∈ ls_left (h_sec h0 !!! s) → P l) ∧ (∀ l, l ∈ ls_right (h_sec h0 !!! s) → P l).
    Lemma s_left s h1 h2 : sec_ok s → A_ (roadside_left proto s) entries_in h1 h2.
    Proof.
      intros (Ps & Hl & Hr). apply al_bgets; [intros _; by apply a_sec|intros [_ E]]. rewrite E.
      apply al_bgets; [intros _; by apply a_obj|intros _]. eapply al_bind; [by apply (al_new_obj _ _ _ any)|]. intros o ? ? [Ho _].
      eapply al_bindT; [by apply s_sum_widths|]. intros w ? ?. apply al_ret. by intros e ->%elem_of_list_singleton.
    Qed.
    Lemma s_right s h1 h2 : sec_ok s → A_ (roadside_right proto s) entries_in h1 h2.
    Proof.
      intros (Ps & Hl & Hr). apply al_bgets; [intros _; by apply a_sec|intros [_ E]]. rewrite E.
      apply al_bgets; [intros _; by apply a_obj|intros _]. eapply al_bind; [by apply (al_new_obj _ _ _ any)|]. intros o ? ? [Ho _].
      eapply al_bindT; [by apply s_sum_widths|]. intros w ? ?. apply al_ret. by intros e ->%elem_of_list_singleton.
    Qed.
    Lemma s_entries side secs h1 h2 : (∀ s, s ∈ secs → sec_ok s) → A_ (roadside_entries proto side secs) entries_in h1 h2.
    Proof.
      revert h1 h2. induction secs as [|s secs IH]; intros h1 h2 Hs; simpl; [by apply al_ret; intros ? ?%elem_of_nil|].
      assert (H0 : entries_in []) by (by intros ? ?%elem_of_nil). assert (Hok : sec_ok s) by (apply Hs; by left).
      eapply (al_bind _ _ _ _ entries_in); [destruct side; first [by apply al_ret|by apply s_left]|]. intros l ? ? Hl.
      eapply (al_bind _ _ _ _ entries_in); [destruct side; first [by apply al_ret|by apply s_right]|]. intros r ? ? Hr.
      eapply al_bind; [apply IH; intros s' Hs'; apply Hs; by right|]. intros rest ? ? Hrest. apply al_ret.
      intros e. rewrite !elem_of_app. intros [?|[?|?]]; auto.
    Qed.
    Lemma s_finish pv dist so to e h1 h2 : P pv → P e.2 → A_ (roadside_finish pv dist so to e) any h1 h2.
    Proof.
      destruct e as [[[s f] w] o]. simpl. intros Hp Ho. eapply al_bindT; [by apply al_upd_obj|]. intros _ ? ?.
      apply al_bgets; [intros _; by apply a_pv|intros _]. apply al_bgets; [intros _; by apply a_obj|intros _].
      eapply al_bindT; [destruct (so_class _); [apply al_raise|by apply al_ret]|]. intros _ ? ?. by apply al_upd_obj.
    Qed.
  End Roadside.
  Lemma s_roadside h0 (P : ref → Prop) r proto dist so to side h1 h2 : P proto → (∀ x, road_part h0 r x → P x) → h_road h1 !!! r = h_road h0 !!! r →
    al (same_sections h0) P (add_object_roadside r proto dist so to side) any h1 h2.
  Proof.
    intros Hp Hr E. assert (P0 : P r) by (apply Hr; by left). apply al_bgets; [intros _; by apply a_road|intros _]. rewrite E.
    assert (P1 : P (rd_planview (h_road h0 !!! r))) by (apply Hr; right; by left).
    apply al_bgets; [intros _; by apply a_pv|intros _]. destruct (negb _); [apply al_raise|].
    apply al_bgets; [intros _; apply a_lanes, Hr; do 4 right; by left|intros [E1 _]]. rewrite E1.
    eapply al_bind; [apply s_entries; [done|]|].
    - intros s Hs. split_and!; [|intros l Hl..]; apply Hr; do 5 right; left; exists s; auto.
    - intros es h3 h4 Hes. eapply al_bindT.
      + apply al_for_each. intros e h5 h6 He. apply s_finish; [done|by apply Hes].
      + intros _ h5 h6. apply s_add_object; [done|]. intros o (e & -> & He)%elem_of_list_fmap. by apply Hes.
  Qed.

  (** *** create_junction *)
  Section Junction.
    Context (h0 : heap F) (P : ref → Prop).
    Definition same_roads h : Prop := h_road h = h_road h0 ∧ h_lanes h = h_lanes h0 ∧ h_sec h = h_sec h0.
    Notation A_ m Q h1 h2 := (al same_roads P m Q h1 h2).
    Lemma j_by_id rs id h1 h2 : (∀ x, x ∈ rs → P x) → A_ (get_road_by_id rs id) (λ o, ∀ x, o = Some x → P x) h1 h2.
    Proof.
      revert h1 h2. induction rs as [|x rs IH]; intros h1 h2 Hr; simpl; [by apply al_ret|].
      assert (Px : P x) by (apply Hr; by left). apply al_bgets; [intros _; by apply a_road|intros _].
      destruct (bool_decide _); [apply al_ret; by intros ? [= <-]|]. apply IH. intros y Hy. apply Hr. by right.
    Qed.
    Lemma j_links c n rl sg a b h1 h2 : P c → A_ (create_junction_links c n rl sg a b) any h1 h2.
    Proof. intros Hc. apply al_for_each. intros i ? ? _. eapply al_bindT; [by apply al_or_raise|]. intros. by apply al_upd_conn. Qed.
    Lemma j_add_connection j c h1 h2 : P j → P c → A_ (add_connection j c) any h1 h2.
    Proof.
      intros Hj Hc. apply al_bgets; [intros _; by apply a_junc|intros _]. eapply al_bindT; [by apply al_upd_conn|]. intros.
      eapply al_bindT; [by apply al_upd_junc|]. intros. by apply al_upd_junc.
    Qed.
    Lemma j_connection j rs o k cp idx a b h1 h2 : P j → (∀ x, x ∈ rs → P x) → P (rd_lanes o) → (∀ s, s ∈ h_lanes h0 !!! rd_lanes o → P s) →
      A_ (junction_connection j rs o k cp idx a b) any h1 h2.
    Proof.
      intros Hj Hr Hl Hs. eapply al_bind; [by apply (al_new_conn _ _ _ any)|]. intros c ? ? [Hc _].
      eapply al_bind; [by apply j_by_id|]. intros rr ? ? Hrr. eapply (al_bind _ _ _ _ P); [by apply al_or_raise|]. intros x ? ? Hx.
      apply al_bgets; [intros _; by apply a_road|intros _]. eapply al_bindT; [by apply al_lift|]. intros [[? sg] ?] ? ?.
      eapply al_bindT.
      - apply al_bgets; [intros _; by apply a_lanes|intros (_ & E & _)]. rewrite E.
        eapply (al_bind _ _ _ _ P); [apply al_or_raise; intros s Hin; eapply Hs, py_index_elem, Hin|]. intros s ? ? Ps.
        apply al_gets; [intros _; by apply a_sec|done].
      - intros s ? ?. do 2 (eapply al_bindT; [by apply j_links|]; intros _ ? ?). by apply j_add_connection.
    Qed.
    Lemma j_create jrs id rs h1 h2 : (∀ x r, x ∈ jrs ∨ x ∈ rs → road_part h0 x r → P r) → A_ (create_junction jrs id rs) any h1 h2.
    Proof.
      intros HP. eapply al_bind; [by apply (al_new_junc _ _ _ any)|]. intros j ? ? [Hj _].
      assert (Hrs : ∀ x, x ∈ rs → P x) by (intros x Hx; apply (HP x x); [by right|by left]).
      eapply al_bindT; [|intros; by apply al_ret]. apply al_for_each. intros r h3 h4 Hr.
      assert (Pr : P r) by (apply (HP r r); [by left|by left]).
      apply al_bgets; [intros _; by apply a_road|intros (E & _)]. rewrite E. set (o := h_road h0 !!! r).
      assert (Hl : P (rd_lanes o)) by (apply (HP r); [by left|do 4 right; by left]).
      assert (Hs : ∀ s, s ∈ h_lanes h0 !!! rd_lanes o → P s) by (intros s Hs; apply (HP r); [by left|do 5 right; left; exists s; auto]).
      eapply al_bindT; [by apply al_or_raise|]. intros ks ? ?. eapply al_bindT; [by apply j_connection|]. intros _ ? ?.
      eapply al_bindT; [by apply al_or_raise|]. intros kp ? ?. by apply j_connection.
    Qed.
  End Junction.

  (** *** the calls *)
  Definition any_at (P : ref → Prop) (o : op F) h1 h2 : Prop := (step o h1).1 = (step o h2).1 ∧ both P (step o h1).2 (step o h2).2.
  Lemma any_al P (I : heap F → Prop) (m : H (F:=F) (retval F)) o h1 h2 Q : m = step o → I h1 → both P h1 h2 → al I P m Q h1 h2 → any_at P o h1 h2.
  Proof. intros -> HI HB Hf. destruct (Hf HI HB) as (_ & H1 & H2 & _). done. Qed.
  Lemma all_have_true {V} (f : heap F → gmap nat V) rs h x : all_have f rs h = true → x ∈ rs → is_Some (f h !! x).
  Proof. unfold all_have, has. rewrite forallb_forall. intros H Hx. by apply elem_of_list_In, H, bool_decide_eq_true in Hx. Qed.
  Lemma roads_old h (P : ref → Prop) rs : no_dangling h → all_have h_road rs h = true → (∀ x r, x ∈ rs → road_part h x r → P r) →
    ∀ x, x ∈ rs → P x ∧ x < h_next h ∧ P (rd_lanes (h_road h !!! x)) ∧ rd_lanes (h_road h !!! x) < h_next h ∧
      ∀ s, s ∈ h_lanes h !!! rd_lanes (h_road h !!! x) → P s ∧ s < h_next h ∧ ∀ l, l ∈ ls_left (h_sec h !!! s) → P l.
  Proof.
    intros ND Hh HP x Hx. pose proof (all_have_true _ _ _ _ Hh Hx) as Ex.
    assert (El : exists_in h_lanes h (rd_lanes (h_road h !!! x))) by (by apply nd_road_lanes).
    assert (L : ∀ V (f : heap F → gmap nat V) Q y, stored f h Q → exists_in f h y → y < h_next h).
    { intros V f Q y S [v Hv]. by destruct (S _ _ Hv). }
    split_and!; [apply (HP x); [done|by left]|eapply L; [apply nd_road, ND|done]|apply (HP x); [done|do 4 right; by left]|eapply L; [apply nd_lanes, ND|done]|].
    intros s Hs. split_and!; [apply (HP x); [done|do 5 right; left; exists s; auto]| |intros l Hl; apply (HP x); [done|do 5 right; left; exists s; auto]].
    eapply L; [apply nd_sec, ND|]. by eapply nd_lanes_sec.
  Qed.

  Ltac T := eapply (any_al _ (λ _, True) _ _ _ _ any eq_refl I); [assumption|]; simpl.
  Ltac S h := eapply (any_al _ (older h) _ _ _ _ any eq_refl (older_refl h)); [assumption|]; simpl.
  Ltac N L := first [eapply al_as_ref; apply (L _ _ _ any); done|eapply al_as_ref; (eapply al_bindT; [by apply al_lift|]); intros; apply (L _ _ _ any); done].
  Theorem any_step (P : ref → Prop) o h1 h2 : no_dangling h1 → ¬ in_place o → (∀ r, uses o h1 r → P r) → both P h1 h2 → any_at P o h1 h2.
  Proof.
    intros ND Ho HP HB.
    destruct o as [?|?????|???|??????????|????|????|???|???|????|??|??????|???|??|??|??|??| |ls sec ks| |????|????|???|??|??|r1 r2|
      ?????????????????|?????????????????|????????????????|??????|?????|?????|????|??|??|??????|?|??|??|d|d|?????|??|???????|?????|????????|???????|???];
      try (exfalso; by apply Ho).
    - T. N al_new_geom.
    - T. N al_new_geom.
    - T. N al_new_geom.
    - T. N al_new_geom.
    - T. N al_new_pv.
    - T. N al_new_lane.
    - S h1. apply al_guarded; [intros X; apply has_eq, X, HP; done|intros _]. eapply al_as_ref. apply f_lanesection. by apply HP.
    - T. N al_new_lanes.
    - T. N al_new_linker.
    - T. N al_new_conn.
    - T. N al_new_junc.
    - T. N al_new_obj.
    - T. N al_new_obj.
    - T. apply al_guarded; [|intros _; N al_new_road].
      intros X. apply f_equal2; apply has_eq, X, HP; [by left|by right].
    - T. apply al_guarded; [intros X; apply f_equal2; [apply has_eq, X, HP; by left|apply all_have_eq; intros x Hx; apply X, HP; by right]|intros _].
      eapply al_as_unit. eapply al_bindT; [apply al_for_each; intros x ? ? Hx; apply al_update_id; [done|done|apply HP; by right]|]. intros. apply al_upd_road; [done|apply HP; by left].
    - T. apply al_guarded; [intros X; apply f_equal2; [apply has_eq, X, HP; by left|apply all_have_eq; intros x Hx; apply X, HP; by right]|intros _].
      eapply al_as_unit. eapply al_bindT; [apply al_for_each; intros x ? ? Hx; apply al_update_id; [done|done|apply HP; by right]|]. intros. apply al_upd_road; [done|apply HP; by left].
    - eapply (any_al _ (same_sections h1) _ _ _ _ any eq_refl (conj eq_refl eq_refl)); [assumption|]; simpl.
      apply al_guarded; [|intros _].
      + intros X. apply f_equal2; apply has_eq, X, HP; [left; by left|by right].
      + eapply al_as_unit. apply s_roadside; [apply HP; by right|intros x Hx; apply HP; by left|done].
    - T. N al_new_odr.
    - S h1. eapply al_as_ref. apply f_standard_lane.
    - S h1. apply al_guarded; [intros X; apply all_have_eq; intros g Hg; apply X, HP, Hg|intros _]. eapply al_as_ref. apply f_create_road. intros g Hg. by apply HP.
    - S h1. eapply al_as_ref. apply f_straight.
    - S h1. eapply al_as_ref. apply f_cloth.
    - S h1. apply al_guarded.
      + intros X. apply all_have_eq. intros x Hx. apply X, HP. exists x. split; [done|by left].
      + intros Hh. eapply al_as_refs. apply f_junction_roads. apply roads_old; [done|done|]. intros x y Hx Hy. apply HP. by exists x.
    - eapply (any_al _ (same_roads h1) _ _ _ _ any eq_refl (conj eq_refl (conj eq_refl eq_refl))); [assumption|]; simpl.
      apply al_guarded; [|intros _].
      + intros X. apply f_equal2; apply all_have_eq; intros x Hx; apply X, HP; exists x; (split; [auto|by left]).
      + eapply al_as_ref. apply j_create. intros x r Hx Hr. apply HP. by exists x.
  Qed.
End LocalAny.
