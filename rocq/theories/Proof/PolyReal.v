(** ParamPoly3 over exact reals; arctan2 *)
From Coq Require Import Reals Lra ssreflect.
From Coquelicot Require Import Coquelicot.
From Verif.Model Require Import Geometry.
From Verif.Inst Require Import Real.
From Verif.Spec Require Import SpecPlanView SpecChain.
From Coq Require Import Rsqrt_def R_sqrt.
Open Scope R_scope.
Local Open Scope general_if_scope.

Lemma cos_atan_pos t : 0 < cos (atan t).
Proof. apply cos_gt_0; have := atan_bound t; lra. Qed.

Lemma sin_atan_cos t : sin (atan t) = t * cos (atan t).
Proof.
  have Hc := cos_atan_pos t. have E := tan_atan t. rewrite /tan in E.
  rewrite -{2}E. field. lra.
Qed.

Lemma cos_atan_sqrt t : cos (atan t) * sqrt (1 + t²) = 1.
Proof.
  have Hc := cos_atan_pos t.
  have H1 : (cos (atan t))² * (1 + t²) = 1.
  { have := sin2_cos2 (atan t). rewrite sin_atan_cos /Rsqr. lra. }
  have Hp : 0 <= 1 + t² by have := Rle_0_sqr t; lra.
  rewrite -(sqrt_Rsqr (cos (atan t))); last lra.
  rewrite -sqrt_mult //; last apply Rle_0_sqr.
  by rewrite H1 sqrt_1.
Qed.

Lemma atan2_polar y x :
  sqrt (x² + y²) * cos (atan2R y x) = x ∧ sqrt (x² + y²) * sin (atan2R y x) = y.
Proof.
  have Hscale : forall x y, 0 < x -> sqrt (x² + y²) * cos (atan (y / x)) = x ∧ sqrt (x² + y²) * sin (atan (y / x)) = y.
  { clear. move=> x y Hx.
    have E : sqrt (x² + y²) = x * sqrt (1 + (y / x)²).
    { rewrite -{2}(sqrt_Rsqr x); last lra. rewrite -sqrt_mult; [|apply Rle_0_sqr|have := Rle_0_sqr (y / x); lra].
      f_equal. rewrite /Rsqr. field. lra. }
    have Hc := cos_atan_sqrt (y / x).
    rewrite sin_atan_cos E. split.
    - have -> : x * sqrt (1 + (y / x)²) * cos (atan (y / x)) = x * (cos (atan (y / x)) * sqrt (1 + (y / x)²)) by ring.
      rewrite Hc. ring.
    - have -> : x * sqrt (1 + (y / x)²) * (y / x * cos (atan (y / x))) =
               x * (y / x) * (cos (atan (y / x)) * sqrt (1 + (y / x)²)) by ring.
      rewrite Hc. field. lra. }
  rewrite /atan2R. case: Rlt_dec => Hx; [by apply Hscale|].
  case: Rlt_dec => Hx2.
  - have [Hc Hs] := Hscale (- x) (- y) ltac:(lra).
    have E1 : - y / - x = y / x by field; lra.
    rewrite E1 -!Rsqr_neg in Hc, Hs.
    case: Rle_dec => Hy.
    + rewrite neg_cos neg_sin. lra.
    + rewrite cos_minus sin_minus cos_PI sin_PI. lra.
  - have -> : x = 0 by lra. rewrite Rsqr_0 Rplus_0_l.
    case: Rlt_dec => Hy; [|case: Rlt_dec => Hy2].
    + rewrite sqrt_Rsqr; last lra. rewrite cos_PI2 sin_PI2. lra.
    + rewrite Rsqr_neg sqrt_Rsqr; last lra. rewrite cos_neg sin_neg cos_PI2 sin_PI2. lra.
    + have -> : y = 0 by lra. rewrite Rsqr_0 sqrt_0. lra.
Qed.

Lemma atan2_range y x : - PI < atan2R y x <= PI.
Proof.
  have HPI := PI_RGT_0.
  rewrite /atan2R. case: Rlt_dec => Hx; [have := atan_bound (y / x); lra|].
  case: Rlt_dec => Hx2; [|case: Rlt_dec; [lra|case: Rlt_dec; lra]].
  have Hb := atan_bound (y / x).
  case: Rle_dec => Hy.
  - suff : atan (y / x) <= 0 by lra.
    rewrite -atan_0. destruct (Req_dec y 0) as [->|Hy0]; [rewrite /Rdiv Rmult_0_l; lra|].
    apply Rlt_le, atan_increasing. rewrite /Rdiv. have Hi := Rinv_lt_0_compat _ Hx2.
    have : 0 < y * - / x by apply Rmult_lt_0_compat; lra. lra.
  - suff : 0 < atan (y / x) by lra.
    rewrite -atan_0. apply atan_increasing. rewrite /Rdiv. have Hi := Rinv_lt_0_compat _ Hx2.
    have : 0 < - y * - / x by apply Rmult_lt_0_compat; lra. lra.
Qed.

Section Poly.
  Context (rstr : R -> string).
  Local Instance rn : Num R := RNum rstr.

  Lemma poly3_derive a b c d p : is_derive (poly3 a b c d) p (poly3' b c d p).
  Proof. rewrite /poly3 /poly3' /=. auto_derive; [done|]. ring. Qed.

  Lemma integrand_speed bu cu du bv cv dv p :
    poly_integrand bu cu du bv cv dv p = sqrt ((poly3' bu cu du p)² + (poly3' bv cv dv p)²).
  Proof.
    rewrite /poly_integrand /poly3' /fpow /fabs /=.
    f_equal. rewrite !Rmult_1_r -!Rabs_mult !Rabs_right; try (apply Rle_ge, Rle_0_sqr).
    rewrite /Rsqr. f_equal; f_equal; ring.
  Qed.
End Poly.
