(** * C64: calls on different objects do not interfere, in any schedule *)
From Coq Require Import ssreflect.
From Verif.Model Require Import Api.
From Verif.Inst Require Import Quarter.
From Verif.Spec Require Import SpecState SpecNetwork SpecFrame SpecLocal.
From Verif.Proof Require Import Monad DictFacts NetFrame Reach Steps History Invariants Frame Local.
From Verif.Properties Require Import PFrame.
Local Open Scope general_if_scope.
Local Open Scope nat_scope.

Section Locals.
  Context {F : Type} `{!Num F}.
  Implicit Types (h : heap F).

  (** what a call returns, and what it makes of the objects it works on, depends on these objects only; [X] may be larger *)
  Theorem C64_local (X : ref → Prop) o h1 h2 : in_place o → (∀ r, works_on o h1 r → X r) → (∀ r, X r → same_object h1 h2 r) →
    (step o h1).1 = (step o h2).1 ∧ ∀ r, X r → same_object (step o h1).2 (step o h2).2 r.
  Proof. intros Ho HX HA. destruct (local_step X o h1 h2 Ho HX HA) as (H1 & _ & H3). done. Qed.

  Lemma touches_works_on o h r : in_place o → touches o h r → works_on o h r.
  Proof.
    destruct o; try done; simpl; intros _ Ht; try tauto.
    - destruct Ht as [(s & Hs & Hl)|(s & Hs & Hl)]; [left|right]; do 5 right; left; exists s; tauto.
    - by apply course_part.
    - destruct Ht; [by apply course_part|by apply lane_part].
    - destruct Ht as (o & Ho & H). right. left. unfold road_named in Ho. destruct (dict_get _ _) as [x|] eqn:E; [|done]. simpl in Ho. injection Ho as <-.
      apply dict_get_elem in E. exists x. split; [done|]. unfold road_part. tauto.
  Qed.
  (* what a call works on is read off these objects *)
  Lemma works_on_same o h h' r : in_place o → (∀ r, works_on o h r → same_object h h' r) → works_on o h' r → works_on o h r.
  Proof.
    destruct o; try done; simpl; intros _ S Hw; try exact Hw.
    - rewrite (same_ltm (h_pv h) (h_pv h')) in Hw; [by apply S; left|done].
    - destruct Hw as [Hw|[Hw|[Hw|(k & Hk & Hl)]]]; auto. do 3 right. exists k. split; [done|]. unfold lane_of_linker in *.
      rewrite (same_ltm (h_linker h) (h_linker h')) in Hl; [by apply S; auto|done].
    - destruct Hw as [Hw|Hw]; [left|right]; (eapply (same_road_part h h'); [|exact Hw]); intros x Hx; apply S; auto.
    - by eapply (same_network_part h h').
    - by eapply (same_network_part h h').
    - assert (E : h_odr h' !!! d = h_odr h !!! d) by (apply same_ltm; apply S; auto).
      unfold named_part in *. rewrite E in Hw. destruct Hw as [Hw|[(x & Hx & Hw)|(x & Hx & Hw)]]; [auto|right; left|do 2 right];
        exists x; (split; [done|]); (eapply (same_road_part h h'); [|exact Hw]); intros y Hy; apply S; eauto.
  Qed.
  Lemma in_place_next o h : in_place o → h_next (step o h).2 = h_next h.
  Proof. intros Ho. destruct (local_step (λ _, True) o h h Ho) as (_ & H & _); [done|intros r _; apply same_refl|done]. Qed.
  Lemma in_place_ids o h : in_place o → h_ids (step o h).2 = h_ids h.
  Proof. intros Ho. apply C57_ids. destruct o; simpl in *; tauto. Qed.
  (* beyond the last address there is nothing *)
  Lemma beyond_same h1 h2 r : reachable h1 → reachable h2 → h_next h1 = h_next h2 → h_next h1 ≤ r → same_object h1 h2 r.
  Proof.
    intros R1 R2 En Hr.
    assert (N : ∀ h, reachable h → h_next h ≤ r → ¬ existing h r) by (intros h Rh Hle He; pose proof (existing_lt _ _ Rh He); lia).
    pose proof (N h1 R1 Hr) as N1. pose proof (N h2 R2) as N2. rewrite -En in N2. specialize (N2 Hr). unfold existing in *.
    assert (L : ∀ V (m : gmap nat V), ¬ is_Some (m !! r) → m !! r = None) by (intros V m; apply eq_None_not_Some).
    unfold same_object. repeat split; (etrans; [apply L|symmetry; apply L]); clear -N1 N2; tauto.
  Qed.
  Lemma in_place_frame o h r : reachable h → in_place o → ¬ works_on o h r → same_object h (step o h).2 r.
  Proof.
    intros Rh Ho Hw. destruct (decide (r < h_next h)).
    - destruct (frame_step o h) as (_ & _ & H). apply H; [done|]. intros Ht. by apply Hw, touches_works_on.
    - apply beyond_same; [done|by apply reachable_step|by rewrite in_place_next|lia].
  Qed.
  Lemma stays_in_cons X h o ops : stays_in X h (o :: ops) → in_place o ∧ (∀ r, works_on o h r → X r) ∧ stays_in X (step o h).2 ops.
  Proof.
    intros H. destruct (H [] o ops eq_refl) as [H1 H2]. split_and!; [done|done|]. intros pre o' post ->.
    exact (H (o :: pre) o' post eq_refl).
  Qed.
  Lemma same_sym h1 h2 r : same_object h1 h2 r → same_object h2 h1 r.
  Proof. intros (A1&A2&A3&A4&A5&A6&A7&A8&A9&A10&A11). unfold same_object. split_and!; symmetry; assumption. Qed.

  (* the schedule's state [h] looks like [ha] to the first script and like [hb] to the second *)
  Lemma schedule_step (X Y : ref → Prop) o h ha hb : (∀ r, X r → ¬ Y r) → reachable h → in_place o → (∀ r, works_on o ha r → X r) →
    agree X ha h → agree Y hb h → 
    (step o ha).1 = (step o h).1 ∧ agree X (step o ha).2 (step o h).2 ∧ agree Y hb (step o h).2.
  Proof.
    intros Hxy Rh Ho Hw Aa Ab. destruct (local_step X o ha h Ho Hw Aa) as (E & _ & Aa'). split_and!; [done|done|].
    intros r Hr. eapply same_trans; [by apply Ab|]. apply in_place_frame; [done|done|]. intros Hwr.
    apply (Hxy r); [|done]. apply Hw. apply (works_on_same o ha h r Ho); [|done]. intros r' Hr'. by apply Aa, Hw.
  Qed.
  Lemma schedule_sim (X Y : ref → Prop) a b s : (∀ r, X r → ¬ Y r) → interleaving a b s → ∀ h ha hb, reachable h →
    agree X ha h → agree Y hb h → stays_in X ha a → stays_in Y hb b →
    agree X (run ha a) (run h s) ∧ agree Y (run hb b) (run h s) ∧ interleaving (trace ha a) (trace hb b) (trace h s) ∧
    h_next (run h s) = h_next h ∧ h_ids (run h s) = h_ids h.
  Proof.
    intros Hxy. induction 1 as [|x a b s Hi IH|x a b s Hi IH]; intros h ha hb Rh Aa Ab Sa Sb.
    - split_and!; [done|done|constructor|done|done].
    - apply stays_in_cons in Sa as (Ho & Hw & Sa). destruct (schedule_step X Y x h ha hb Hxy Rh Ho Hw Aa Ab) as (E & Aa' & Ab').
      destruct (IH _ _ _ (reachable_step x h Rh) Aa' Ab' Sa Sb) as (H1 & H2 & H3 & H4 & H5).
      rewrite in_place_next in H4; [done|]. rewrite in_place_ids in H5; [done|]. split_and!; try done. simpl. rewrite E. by constructor.
    - apply stays_in_cons in Sb as (Ho & Hw & Sb).
      destruct (schedule_step Y X x h hb ha (λ r HY HX, Hxy r HX HY) Rh Ho Hw Ab Aa) as (E & Ab' & Aa').
      destruct (IH _ _ _ (reachable_step x h Rh) Aa' Ab' Sa Sb) as (H1 & H2 & H3 & H4 & H5).
      rewrite in_place_next in H4; [done|]. rewrite in_place_ids in H5; [done|]. split_and!; try done. simpl. rewrite E. by constructor.
  Qed.

  (** two scripts on different objects: in every schedule each call returns (or raises) what it does when its script runs alone, ... *)
  Theorem C64_outcomes (X Y : ref → Prop) a b s h : reachable h → (∀ r, X r → ¬ Y r) → stays_in X h a → stays_in Y h b → interleaving a b s →
    interleaving (trace h a) (trace h b) (trace h s).
  Proof. intros Rh Hxy Sa Sb Hi. by apply (schedule_sim X Y a b s Hxy Hi h h h Rh (λ r _, same_refl h r) (λ r _, same_refl h r) Sa Sb). Qed.
  (** ... the objects of each script end up as if it had run alone, ... *)
  Theorem C64_objects (X Y : ref → Prop) a b s h : reachable h → (∀ r, X r → ¬ Y r) → stays_in X h a → stays_in Y h b → interleaving a b s →
    (∀ r, X r → same_object (run h a) (run h s) r) ∧ (∀ r, Y r → same_object (run h b) (run h s) r).
  Proof.
    intros Rh Hxy Sa Sb Hi. 
    destruct (schedule_sim X Y a b s Hxy Hi h h h Rh (λ r _, same_refl h r) (λ r _, same_refl h r) Sa Sb) as (H1 & H2 & _). done.
  Qed.
  Lemma same_heap h1 h2 : h_next h1 = h_next h2 → h_ids h1 = h_ids h2 → (∀ r, same_object h1 h2 r) → h1 = h2.
  Proof.
    destruct h1, h2. simpl. intros -> -> S. f_equal; apply map_eq; intros r; symmetry; apply (S r).
  Qed.
  (** ... and all schedules, in particular running one script after the other, lead to the same state *)
  Theorem C64_schedules (X : ref → Prop) `{!∀ r, Decision (X r)} a b s s' h : reachable h → stays_in X h a → stays_in (λ r, ¬ X r) h b →
    interleaving a b s → interleaving a b s' → run h s = run h s'.
  Proof.
    intros Rh Sa Sb Hs Hs'. pose proof (λ r, same_refl h r) as Rf.
    destruct (schedule_sim X (λ r, ¬ X r) a b s (λ r HX HY, HY HX) Hs h h h Rh (λ r _, Rf r) (λ r _, Rf r) Sa Sb) as (A1 & B1 & _ & N1 & I1).
    destruct (schedule_sim X (λ r, ¬ X r) a b s' (λ r HX HY, HY HX) Hs' h h h Rh (λ r _, Rf r) (λ r _, Rf r) Sa Sb) as (A2 & B2 & _ & N2 & I2).
    apply same_heap; [congruence|congruence|]. intros r. destruct (decide (X r)).
    - eapply same_trans; [apply same_sym; by apply A1|by apply A2].
    - eapply same_trans; [apply same_sym; by apply B1|by apply B2].
  Qed.

  (* membership in what a call works on can be decided *)
  Lemma exists_list_dec {A} (P : A → Prop) (l : list A) : (∀ x, Decision (P x)) → Decision (∃ x, x ∈ l ∧ P x).
  Proof.
    intros D. destruct (decide (Exists P l)) as [E|E]; [left|right].
    - apply Exists_exists in E as (x & H1 & H2). eauto.
    - intros (x & H1 & H2). apply E, Exists_exists. eauto.
  Qed.
  Lemma road_part_dec h x r : Decision (road_part h x r).
  Proof.
    unfold road_part. repeat (apply or_dec; [apply _ || (apply exists_list_dec; intros; apply _)|]); apply _.
  Qed.
  Lemma network_part_dec h d r : Decision (network_part h d r).
  Proof.
    assert (D : Decision (∃ kx : string * ref, kx ∈ od_roads (h_odr h !!! d) ∧ road_part h kx.2 r)) by (apply exists_list_dec; intros; apply road_part_dec).
    assert (D2 : Decision (∃ k x, (k, x) ∈ od_roads (h_odr h !!! d) ∧ road_part h x r)).
    { destruct D as [E|E]; [left; destruct E as ([k x] & ? & ?); eauto|right; intros (k & x & ? & ?); apply E; exists (k, x); auto]. }
    unfold network_part. apply or_dec; [apply _|]. apply or_dec; [exact D2|]. apply exists_list_dec. intros. apply _.
  Qed.
  Lemma named_part_dec h d k r : Decision (named_part h d k r).
  Proof.
    assert (D : Decision (∃ kx : string * ref, kx ∈ od_roads (h_odr h !!! d) ∧ kx.1 = k ∧ road_part h kx.2 r)).
    { apply exists_list_dec. intros. apply and_dec; [apply _|apply road_part_dec]. }
    unfold named_part. destruct D as [E|E]; [left; destruct E as ([k' x] & ? & Hk & ?); simpl in *; subst; eauto|right; intros (x & ? & ?); apply E; exists (k, x); auto].
  Qed.
  Lemma works_on_dec o h r : Decision (works_on o h r).
  Proof.
    destruct o; simpl; try apply _; try apply network_part_dec.
    - repeat (apply or_dec; [apply _|]). apply exists_list_dec. intros k. apply exists_list_dec. intros. apply _.
    - apply or_dec; apply road_part_dec.
    - apply or_dec; [apply _|]. apply or_dec; apply named_part_dec.
  Qed.

  Lemma stays_in_one (X : ref → Prop) h o : in_place o → (∀ r, works_on o h r → X r) → stays_in X h [o].
  Proof. intros Ho Hw pre o' post E. destruct pre as [|? [|? ?]]; [|discriminate E..]. injection E as <- _. done. Qed.
  (** two calls that work on different objects commute: same state, same results *)
  Theorem C64_commute o1 o2 h : reachable h → in_place o1 → in_place o2 → (∀ r, works_on o1 h r → ¬ works_on o2 h r) →
    run h [o1; o2] = run h [o2; o1] ∧ (step o2 (step o1 h).2).1 = (step o2 h).1 ∧ (step o1 (step o2 h).2).1 = (step o1 h).1.
  Proof.
    intros Rh H1 H2 Hd. pose proof (works_on_dec o1 h) as D.
    pose proof (stays_in_one (works_on o1 h) h o1 H1 (λ r X, X)) as S1.
    pose proof (stays_in_one (λ r, ¬ works_on o1 h r) h o2 H2 (λ r X Y, Hd r Y X)) as S2.
    assert (I12 : interleaving [o1] [o2] [o1; o2]) by repeat constructor. assert (I21 : interleaving [o1] [o2] [o2; o1]) by repeat constructor.
    split; [by eapply (C64_schedules (works_on o1 h))|]. pose proof (λ r, same_refl h r) as Rf.
    split.
    - symmetry. apply (schedule_step (λ r, ¬ works_on o1 h r) (works_on o1 h) o2 (step o1 h).2 h (step o1 h).2); [done|by apply reachable_step|done| | |intros r _; apply same_refl].
      + intros r X Y. by apply (Hd r).
      + intros r Hr. by apply in_place_frame.
    - symmetry. apply (schedule_step (λ r, ¬ works_on o2 h r) (works_on o2 h) o1 (step o2 h).2 h (step o2 h).2); [done|by apply reachable_step|done| | |intros r _; apply same_refl].
      + intros r X Y. by apply (Hd r).
      + intros r Hr. by apply in_place_frame.
  Qed.
  (** two networks without common parts can be adjusted in either order *)
  Theorem C64_networks d1 d2 o1 o2 h : reachable h → (∀ r, network_part h d1 r → ¬ network_part h d2 r) →
    o1 = OpAdjustStartpoints d1 ∨ o1 = OpAdjustRoadsAndLanes d1 → o2 = OpAdjustStartpoints d2 ∨ o2 = OpAdjustRoadsAndLanes d2 →
    run h [o1; o2] = run h [o2; o1] ∧ (step o2 (step o1 h).2).1 = (step o2 h).1 ∧ (step o1 (step o2 h).2).1 = (step o1 h).1.
  Proof. intros Rh Hd [->| ->] [->| ->]; by apply C64_commute. Qed.
End Locals.

Section Examples.
  Local Existing Instance QNum.
  (* OpenDrives 24 and 25 of PFrame *)
  Example C64_example_hypotheses : let h := run heap_init nets in reachable h ∧ (∀ r, network_part h 24 r → ¬ network_part h 25 r) ∧
    (step (OpAdjustRoadsAndLanes 24) h).1 = Ok RNone ∧ (step (OpAdjustRoadsAndLanes 25) h).1 = Ok RNone ∧
    pv_adjusted (h_pv h !!! 1) = false ∧ pv_adjusted (h_pv (run h [OpAdjustRoadsAndLanes 25; OpAdjustRoadsAndLanes 24]) !!! 1) = true.
  Proof.
    intros h. split; [by eexists|]. split; [apply apart; vm_compute; reflexivity|]. split_and!; vm_compute; reflexivity.
  Qed.
  (* two scripts of two calls each: move the planview 1 of the first network and place it; link the road 23 of the second and place that *)
  Definition script_a : list (op Z) := [OpSetStartPoint 1 4%Z 8%Z 1%Z; OpAdjustRoadsAndLanes 24].
  Definition script_b : list (op Z) := [OpAddNeighbor 23 (Some et_road) (PInt 9) (Some dir_same); OpAdjustStartpoints 25].
  Definition mine (r : ref) : Prop := r ∈ [0; 1; 2; 3; 4; 5; 6; 7; 8; 9; 10; 11; 12; 13; 14; 15; 24].
  Lemma two_calls (X : ref → Prop) h o1 o2 : in_place o1 → in_place o2 → (∀ r, works_on o1 h r → X r) → (∀ r, works_on o2 (step o1 h).2 r → X r) → stays_in X h [o1; o2].
  Proof.
    intros P1 P2 H1 H2 pre o post E. destruct pre as [|a [|b [|? ?]]]; [| |discriminate E..].
    - injection E as <- _. done.
    - injection E as <- <- _. done.
  Qed.
  Lemma parts_in (X : ref → Prop) h d : Forall X (network_parts h d) → ∀ r, network_part h d r → X r.
  Proof. intros H r Hr. apply network_parts_listed in Hr. rewrite Forall_forall in H. by apply H. Qed.
  Example C64_schedules_example : let h := run heap_init nets in
    stays_in mine h script_a ∧ stays_in (λ r, ¬ mine r) h script_b ∧
    interleaving script_a script_b [OpSetStartPoint 1 4%Z 8%Z 1%Z; OpAddNeighbor 23 (Some et_road) (PInt 9) (Some dir_same); OpAdjustStartpoints 25; OpAdjustRoadsAndLanes 24].
  Proof.
    intros h.
    assert (A : ∀ r, network_part (step (OpSetStartPoint 1 4%Z 8%Z 1%Z) h).2 24 r → mine r).
    { apply parts_in. unfold mine. apply (bool_decide_unpack _). vm_compute. exact I. }
    assert (B : ∀ r, network_part (step (OpAddNeighbor 23 (Some et_road) (PInt 9) (Some dir_same)) h).2 25 r → ¬ mine r).
    { apply parts_in. unfold mine. apply (bool_decide_unpack _). vm_compute. exact I. }
    clearbody h. split; [|split].
    - apply two_calls; [exact I|exact I| |exact A]. intros r ->. unfold mine. apply (bool_decide_unpack _). vm_compute. exact I.
    - apply two_calls; [exact I|exact I| |exact B]. intros r ->. unfold mine. apply (bool_decide_unpack _). vm_compute. exact I.
    - repeat constructor.
  Qed.
End Examples.

Print Assumptions C64_local.
Print Assumptions C64_outcomes.
Print Assumptions C64_objects.
Print Assumptions C64_schedules.
Print Assumptions C64_commute.
Print Assumptions C64_networks.
