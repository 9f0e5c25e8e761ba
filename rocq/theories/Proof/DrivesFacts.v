(** Facts about [drives]: it determines the end pose, composes and can be reversed. *)
From Coq Require Import Reals Lra ssreflect.
From Coquelicot Require Import Coquelicot.
From Verif.Spec Require Import SpecGeometry.
Open Scope R_scope.

Lemma zero_derive_const (f : R -> R) a b : (forall u, is_derive f u 0) -> f a = f b.
Proof.
  move=> Hf.
  destruct (Req_dec a b) as [->|Hab]; [done|].
  destruct (MVT_gen f a b (fun _ => 0)) as [c [_ Hc]].
  - move=> x _. apply Hf.
  - move=> x _. apply continuity_pt_filterlim.
    apply: ex_derive_continuous. by exists 0.
  - lra.
Qed.

Lemma same_derive (f g : R -> R) (d : R -> R) :
  (forall u, is_derive f u (d u)) -> (forall u, is_derive g u (d u)) -> f 0 = g 0 -> forall u, f u = g u.
Proof.
  move=> Hf Hg H0 u.
  have H : f u - g u = f 0 - g 0.
  { apply (zero_derive_const (fun u => f u - g u)) => v.
    have := is_derive_minus _ _ _ _ _ (Hf v) (Hg v).
    by rewrite /minus plus_opp_r. }
  lra.
Qed.

(** The end pose is determined by the start pose, the curvature and the distance. *)
Lemma drives_unique k L p q q' : drives k L p q -> drives k L p q' -> q = q'.
Proof.
  intros (X & Y & T & H0 & H1 & Hd) (X' & Y' & T' & H0' & H1' & Hd').
  rewrite -H0' in H0. injection H0 => HT HY HX.
  have ET : forall u, T u = T' u.
  { apply (same_derive T T' k) => // u; [apply Hd|apply Hd']. }
  have EX : forall u, X u = X' u.
  { apply (same_derive X X' (fun u => cos (T u))) => // u; [apply Hd|].
    rewrite ET. apply Hd'. }
  have EY : forall u, Y u = Y' u.
  { apply (same_derive Y Y' (fun u => sin (T u))) => // u; [apply Hd|].
    rewrite ET. apply Hd'. }
  by rewrite -H1 -H1' EX EY ET.
Qed.

Lemma drives_ext k k' L p q : (forall u, k u = k' u) -> drives k L p q -> drives k' L p q.
Proof.
  intros E (X & Y & T & H0 & H1 & Hd). exists X, Y, T. split; [done|split; [done|]] => u.
  rewrite -E. apply Hd.
Qed.

(** Driving back: turn around, drive the same distance with the mirrored curvature, arrive at the turned start. *)
Lemma drives_reverse k L p q :
  drives k L p q -> drives (fun u => - k (L - u)) L (turned q) (turned p).
Proof.
  intros (X & Y & T & H0 & H1 & Hd).
  exists (fun u => X (L - u)), (fun u => Y (L - u)), (fun u => T (L - u) + PI).
  rewrite -H0 -H1 /=.
  split; [by rewrite Rminus_0_r|]. split; [by rewrite (Rminus_eq_0 L)|].
  move=> u. split; [|split].
  - rewrite neg_cos.
    have H := is_derive_comp X (fun u => L - u) u (cos (T (L - u))) (-1) (proj1 (Hd _)).
    have E : - cos (T (L - u)) = scal (-1) (cos (T (L - u))) by rewrite /scal /= /mult /=; ring.
    rewrite E. apply H. auto_derive; [done|ring].
  - rewrite neg_sin.
    have H := is_derive_comp Y (fun u => L - u) u (sin (T (L - u))) (-1) (proj1 (proj2 (Hd _))).
    have E : - sin (T (L - u)) = scal (-1) (sin (T (L - u))) by rewrite /scal /= /mult /=; ring.
    rewrite E. apply H. auto_derive; [done|ring].
  - have H := is_derive_comp T (fun u => L - u) u (k (L - u)) (-1) (proj2 (proj2 (Hd _))).
    have E : - k (L - u) = plus (scal (-1) (k (L - u))) 0 by rewrite /plus /scal /= /mult /=; ring.
    rewrite E. apply: is_derive_plus.
    + apply H. auto_derive; [done|ring].
    + apply: is_derive_const.
Qed.

(** The end pose as integrals *)
Lemma drives_integral k L x y h q (theta : R -> R) :
  drives k L (x, y, h) q -> theta 0 = h -> (forall u, is_derive theta u (k u)) ->
  q = (x + RInt (fun u => cos (theta u)) 0 L, y + RInt (fun u => sin (theta u)) 0 L, theta L).
Proof.
  intros (X & Y & T & H0 & <- & Hd) Ht Hk.
  injection H0 => ET EY EX.
  have HT : forall u, T u = theta u.
  { apply (same_derive T theta k); [move=> u; apply Hd|done|by rewrite ET Ht]. }
  have Hct : forall u, continuous theta u.
  { move=> u. apply (ex_derive_continuous theta). eexists. apply Hk. }
  have -> : RInt (fun u => cos (theta u)) 0 L = X L - X 0.
  { apply is_RInt_unique. apply (is_RInt_derive X).
    - move=> u _. rewrite -HT. apply Hd.
    - move=> u _. apply continuous_comp; [apply Hct|]. apply continuous_cos. }
  have -> : RInt (fun u => sin (theta u)) 0 L = Y L - Y 0.
  { apply is_RInt_unique. apply (is_RInt_derive Y).
    - move=> u _. rewrite -HT. apply Hd.
    - move=> u _. apply continuous_comp; [apply Hct|]. apply continuous_sin. }
  rewrite -EX -EY HT. f_equal; [f_equal; lra].
Qed.
