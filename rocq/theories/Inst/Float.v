(** * IEEE 754 double precision arithmetic

    Python's float operations +, -, *, /, abs, unary minus, comparison and np.sqrt are those of IEEE 754 binary64 with
    rounding to nearest even (Flocq's [Bplus] etc.).  The functions of the C and scipy libraries, ** and str are not specified by IEEE 754: they
    are a parameter.  It models no file of /repo. *)
From Flocq Require Import Core BinarySingleNaN.
From Verif.Model Require Import Api.

Definition float64 : Type := binary_float 53 1024.
#[global] Instance prec64 : Prec_gt_0 53 := eq_refl.
#[global] Instance emax64 : Prec_lt_emax 53 1024 := eq_refl.

(** the library functions *)
Record libm := {
  lm_pow : float64 → nat → float64;
  lm_cos : float64 → float64;
  lm_sin : float64 → float64;
  lm_atan2 : float64 → float64 → float64;
  lm_fresnelS : float64 → float64;
  lm_fresnelC : float64 → float64;
  lm_quad : (float64 → float64) → float64 → float64 → float64;
  lm_str : float64 → string
}.

(** the double nearest to m * 2^e *)
Definition b64 (m e : Z) : float64 := binary_normalize 53 1024 prec64 emax64 mode_NE m e false.
Definition b64_zero : float64 := B754_zero false.
(** np.maximum: a NaN if one argument is a NaN *)
Definition b64_max (x y : float64) : float64 := if is_nan x then x else if is_nan y then y else if Bltb x y then y else x.
(** np.sign *)
Definition b64_sign (x : float64) : float64 := if is_nan x then x else if Bltb x b64_zero then b64 (-1) 0 else if Bltb b64_zero x then b64 1 0 else b64_zero.

Definition FloatNum (L : libm) : Num float64 := {|
  fofZ z := b64 z 0; fadd := Bplus mode_NE; fsub := Bminus mode_NE; fmul := Bmult mode_NE; fdiv := Bdiv mode_NE; fneg := Bopp;
  fpow := lm_pow L; fabs := Babs; fsqrt := Bsqrt mode_NE; fcos := lm_cos L; fsin := lm_sin L;
  fatan2 := lm_atan2 L; fpi := b64 884279719003555 (-48); fmax := b64_max; fsign := b64_sign;
  ffresnelS := lm_fresnelS L; ffresnelC := lm_fresnelC L; fquad := lm_quad L;
  fiszero x := Beqb x b64_zero; fltb := Bltb; fdec m e := Bdiv mode_NE (b64 m 0) (b64 (10 ^ Z.of_nat e) 0); fstr := lm_str L
|}.
