(** Layouts: poses up to full turns *)
From Coq Require Import Reals Lra ssreflect.
From Coquelicot Require Import Coquelicot.
From Verif.Model Require Import OpenDrive.
From Verif.Inst Require Import Real.
From Verif.Spec Require Import SpecLayout.
From Verif.Proof Require Import DrivesFacts PlanViewReal PlanViewFacts.
Local Unset SsrOldRewriteGoalsOrder.
Local Open Scope general_if_scope.
Local Open Scope R_scope.

Lemma dict_get_perm {V} (m m' : dict V) k : m ≡ₚ m' → NoDup (map fst m) → dict_get m k = dict_get m' k.
Proof.
  induction 1 as [|[k1 v1] m m' Hp IH|[k1 v1] [k2 v2] m|m1 m2 m3 H1 IH1 H2 IH2]; intros Hn; [done|..].
  - simpl. destruct (String.eqb_spec k k1); [done|]. apply IH. simpl in Hn. by apply NoDup_cons in Hn as [_ Hn].
  - simpl in *. apply NoDup_cons in Hn as [Hn _]. destruct (String.eqb_spec k k1) as [E1|E1], (String.eqb_spec k k2) as [E2|E2]; try done. subst. destruct Hn. apply elem_of_list_here.
  - rewrite IH1 // IH2 //. by rewrite -H1.
Qed.
Lemma cos_turns t (n : Z) : cos (t + 2 * IZR n * PI) = cos t.
Proof.
  destruct (Z_le_gt_dec 0 n) as [Hn|Hn].
  - rewrite -(Z2Nat.id n Hn) -INR_IZR_INZ. apply cos_period.
  - set (u := t + _). replace t with (u + 2 * INR (Z.to_nat (- n)) * PI); [by rewrite cos_period|]. unfold u.
    rewrite INR_IZR_INZ Z2Nat.id; [lia|]. rewrite opp_IZR. ring.
Qed.
Lemma sin_turns t (n : Z) : sin (t + 2 * IZR n * PI) = sin t.
Proof.
  destruct (Z_le_gt_dec 0 n) as [Hn|Hn].
  - rewrite -(Z2Nat.id n Hn) -INR_IZR_INZ. apply sin_period.
  - set (u := t + _). replace t with (u + 2 * INR (Z.to_nat (- n)) * PI); [by rewrite sin_period|]. unfold u.
    rewrite INR_IZR_INZ Z2Nat.id; [lia|]. rewrite opp_IZR. ring.
Qed.

Lemma same_refl p : same_pose p p.
Proof. split; [done|]. exists 0%Z. ring. Qed.
Lemma same_sym p q : same_pose p q → same_pose q p.
Proof. intros [E [n Hn]]. split; [done|]. exists (- n)%Z. rewrite Hn opp_IZR. ring. Qed.
Lemma same_trans p q r : same_pose p q → same_pose q r → same_pose p r.
Proof. intros [E [n Hn]] [E' [m Hm]]. split; [by rewrite E|]. exists (n + m)%Z. rewrite Hm Hn plus_IZR. ring. Qed.
Lemma same_turned p q : same_pose p q → same_pose (turned p) (turned q).
Proof. destruct p as [[x y] t], q as [[x' y'] t']. intros [E [n Hn]]. simpl in *. split; [done|]. exists n. simpl. rewrite Hn. ring. Qed.
Lemma turned_twice p : same_pose p (turned (turned p)).
Proof. destruct p as [[x y] t]. split; [done|]. exists 1%Z. simpl. ring. Qed.
Lemma same_unturned p q : same_pose (turned p) (turned q) → same_pose p q.
Proof.
  destruct p as [[x y] t], q as [[x' y'] t']. intros [E [n Hn]]. simpl in *. split; [done|]. exists n. simpl. lra.
Qed.
Lemma same_to_left n p q : same_pose p q → same_pose (to_left n p) (to_left n q).
Proof.
  destruct p as [[x y] t], q as [[x' y'] t']. intros [E [m Hm]]. simpl in *. injection E as <- <-. rewrite Hm. split; [|by exists m]. simpl.
  by rewrite cos_turns sin_turns.
Qed.

(** driving is determined by either end *)
Lemma drives_same k L p q p' q' : drives k L p q → drives k L p' q' → same_pose p p' ∨ same_pose q q' → same_pose p p' ∧ same_pose q q'.
Proof.
  intros (X & Y & T & H0 & H1 & Hd) (X' & Y' & T' & H0' & H1' & Hd') Hs.
  assert (HT : ∀ u v, T' u - T u = T' v - T v).
  { intros u v. apply (zero_derive_const (fun u => T' u - T u)) => w.
    have := is_derive_minus _ _ _ _ _ (proj2 (proj2 (Hd' w))) (proj2 (proj2 (Hd w))). by rewrite /Hierarchy.minus plus_opp_r. }
  assert (Hn : ∃ n : Z, ∀ u, T' u = T u + 2 * IZR n * PI).
  { destruct Hs as [[_ [n Hn]]|[_ [n Hn]]]; exists n; intros u.
    - rewrite -H0 -H0' /= in Hn. pose proof (HT u 0). lra.
    - rewrite -H1 -H1' /= in Hn. pose proof (HT u L). lra. }
  destruct Hn as [n Hn].
  assert (HX : ∀ u v, X' u - X u = X' v - X v).
  { intros u v. apply (zero_derive_const (fun u => X' u - X u)) => w.
    have := is_derive_minus _ _ _ _ _ (proj1 (Hd' w)) (proj1 (Hd w)). by rewrite Hn cos_turns /Hierarchy.minus plus_opp_r. }
  assert (HY : ∀ u v, Y' u - Y u = Y' v - Y v).
  { intros u v. apply (zero_derive_const (fun u => Y' u - Y u)) => w.
    have := is_derive_minus _ _ _ _ _ (proj1 (proj2 (Hd' w))) (proj1 (proj2 (Hd w))). by rewrite Hn sin_turns /Hierarchy.minus plus_opp_r. }
  assert (HE : ∀ u, X u = X' u ∧ Y u = Y' u).
  { destruct Hs as [[E _]|[E _]]; intros u.
    - rewrite -H0 -H0' /= in E. injection E as E1 E2. pose proof (HX u 0). pose proof (HY u 0). split; lra.
    - rewrite -H1 -H1' /= in E. injection E as E1 E2. pose proof (HX u L). pose proof (HY u L). split; lra. }
  rewrite -H0 -H1 -H0' -H1'. split; (split; [simpl|exists n; apply Hn]); [by destruct (HE 0) as [-> ->]|by destruct (HE L) as [-> ->]].
Qed.

Lemma along_same_start geo gs p q p' q' : along geo p gs q → along geo p' gs q' → same_pose p p' → same_pose q q'.
Proof.
  intros H. revert p' q'. induction H as [p|p g gs q e Hd Ha IH]; intros p' q' H' Hs; inversion H' as [|? ? ? q1 ? Hd' Ha']; subst; [done|].
  apply (IH q1 q' Ha'). apply (drives_same _ _ p q p' q1 Hd Hd'). by left.
Qed.
Lemma along_same_end geo gs p q p' q' : along geo p gs q → along geo p' gs q' → same_pose q q' → same_pose p p'.
Proof.
  intros H. revert p' q'. induction H as [p|p g gs q e Hd Ha IH]; intros p' q' H' Hs; inversion H' as [|? ? ? q1 ? Hd' Ha']; subst; [done|].
  apply (drives_same _ _ p q p' q1 Hd Hd'). right. exact (IH q1 q' Ha' Hs).
Qed.
Lemma along_snoc geo p gs q g e : along geo p gs q → drives (record_curvature (geo g) (nominal_length (geo g))) (nominal_length (geo g)) q e → along geo p (gs ++ [g]) e.
Proof. induction 1; simpl; intros; econstructor; eauto. constructor. Qed.

Section Put.
  Context (rstr : R → string).
  Local Instance rn : Num R := RNum rstr.

  Lemma chain_along geo i p s gs rs e t : (∀ g, g ∈ gs → nondegenerate (geo g)) → chain geo [] i p s gs rs e t → along geo p gs e.
  Proof.
    intros Hn H. remember [] as over eqn:Eo. induction H as [|i x y h hd s g gs l0 q0 q l rs e t Hh Hr Ha Hc IH]; [constructor|]. subst over.
    simpl in Hh. injection Hh as <-. destruct (reports_end_again_drives rstr _ _ _ _ (Hn g (elem_of_list_here _ _)) Ha) as [_ Hd].
    econstructor; [exact Hd|]. apply IH. intros g' Hg'. apply Hn. by apply elem_of_list_further.
  Qed.
  Lemma back_chain_along geo p gs rs ls e : (∀ g, g ∈ gs → nondegenerate (geo g)) → back_chain geo p gs rs ls e → along geo (turned e) (rev gs) (turned p).
  Proof.
    intros Hn H. induction H as [|p g gs q l r rs ls e Hr _ _ _ _ _ Hb IH]; [constructor|].
    destruct (reports_start_again_drives rstr _ _ _ _ (Hn g (elem_of_list_here _ _)) Hr) as [_ Hd]. simpl. eapply along_snoc; [|exact Hd].
    apply IH. intros g' Hg'. apply Hn. by apply elem_of_list_further.
  Qed.
  Lemma beside_left n q : beside n q = to_left n q.
  Proof. destruct q as [[x y] t]. unfold beside. cbn. rewrite opp_IZR. f_equal; f_equal; ring. Qed.
  Lemma turn_turned (q : rpose) : turn q = turned q.
  Proof. by destruct q as [[??]?]. Qed.

  Definition placed_as (p' : planview R) (P : rpose * rpose) : Prop :=
    ∃ ps pe, pv_start p' = Some ps ∧ pv_end p' = Some pe ∧ same_pose P.1 ps ∧ same_pose P.2 pe.

  Lemma forward_placed (h : heap R) p p' q P : pv_over p = [] → (∀ g, g ∈ pv_raw p → nondegenerate (h_geom h !!! g)) →
    along (λ g, h_geom h !!! g) P.1 (pv_raw p) P.2 → put_forward h p p' q → same_pose P.1 q → placed_as p' P.
  Proof.
    intros Ho Hn Ha (_ & Hs & e & Hc & He & _) Hq. rewrite Ho in Hc. apply chain_along in Hc; [|done]. exists q, e. split; [done|]. split; [done|]. split; [done|].
    by eapply along_same_start.
  Qed.
  Lemma backward_placed (h : heap R) p p' q P : (∀ g, g ∈ pv_raw p → nondegenerate (h_geom h !!! g)) →
    along (λ g, h_geom h !!! g) P.1 (pv_raw p) P.2 → put_backward h p p' q → same_pose P.2 (turned q) → placed_as p' P.
  Proof.
    intros Hn Ha (_ & He & rs & ls & e & Hb & _ & _ & Hs & _) Hq. apply back_chain_along in Hb; [|intros g Hg; apply Hn; apply elem_of_list_In, in_rev, elem_of_list_In; exact Hg].
    rewrite rev_involutive in Hb. rewrite turn_turned in He. rewrite turn_turned in Hs. exists (turned e), (turned q). split; [done|]. split; [done|]. split; [|done].
    by eapply along_same_end.
  Qed.
  Lemma offered_same p' k (P : layout) c q : placed_as p' (P k) → offered p' c = Some q → same_pose (outward P k c) q.
  Proof.
    intros (ps & pe & Hs & He & H1 & H2). destruct c; simpl.
    - rewrite Hs /=. intros [= <-]. rewrite turn_turned. by apply same_turned.
    - rewrite He. by intros [= <-].
  Qed.
  (** one attached road *)
  Lemma attached_placed (h : heap R) (P : layout) k o c k2 c2 p' p2 q : pv_over (view h o) = [] → (∀ g, g ∈ pv_raw (view h o) → nondegenerate (h_geom h !!! g)) →
    along (λ g, h_geom h !!! g) (P k).1 (pv_raw (view h o)) (P k).2 → meets P k o c k2 c2 → placed_as p2 (P k2) → offered p2 c2 = Some q →
    put_at h o p' (bool_decide (c = cp_start)) q → placed_as p' (P k).
  Proof.
    intros Ho Hn Ha Hm H2 Hof Hput. pose proof (offered_same _ _ _ _ _ H2 Hof) as Hq. unfold meets in Hm.
    assert (Hs : same_pose (turned (outward P k c)) (to_left (lane_shift o c) q)).
    { eapply same_trans; [exact Hm|]. by apply same_to_left. }
    destruct c; simpl in Hput, Hs.
    - rewrite beside_left in Hput. eapply forward_placed; [done|done|done|exact Hput|]. eapply same_trans; [apply turned_twice|exact Hs].
    - rewrite beside_left in Hput. eapply backward_placed; [done|done|exact Hput|]. eapply same_trans; [apply turned_twice|]. by apply same_turned.
  Qed.
End Put.
