(** * The instance of [Num] with exact real arithmetic

    Everything is what the mathematical definition of the numpy / scipy function says:
    scipy.special.fresnel(z) = (∫₀ᶻ sin(πt²/2) dt, ∫₀ᶻ cos(πt²/2) dt); scipy.integrate.quad is the integral.
    [rstr] is the (unspecified) text form of a number. It models no file of /repo. *)
From Coq Require Import Reals Lra String.
From Coquelicot Require Import Coquelicot.
From Verif.Model Require Import Num.

Open Scope R_scope.

(** np.arctan2(y, x) *)
Definition atan2R (y x : R) : R :=
  if Rlt_dec 0 x then atan (y / x)
  else if Rlt_dec x 0 then (if Rle_dec 0 y then atan (y / x) + PI else atan (y / x) - PI)
  else if Rlt_dec 0 y then PI / 2
  else if Rlt_dec y 0 then - (PI / 2)
  else 0.

(** np.sign *)
Definition signR (x : R) : R := if Rlt_dec 0 x then 1 else if Rlt_dec x 0 then -1 else 0.

Definition fresnelS (z : R) : R := RInt (fun t => sin (PI / 2 * t ^ 2)) 0 z.
Definition fresnelC (z : R) : R := RInt (fun t => cos (PI / 2 * t ^ 2)) 0 z.

Definition RNum (rstr : R -> string) : Num R := {|
  fofZ := IZR; fadd := Rplus; fsub := Rminus; fmul := Rmult; fdiv := Rdiv; fneg := Ropp;
  fpow := pow; fabs := Rabs; fsqrt := sqrt; fcos := cos; fsin := sin; fatan2 := atan2R; fpi := PI;
  fmax := Rmax; fsign := signR; ffresnelS := fresnelS; ffresnelC := fresnelC;
  fquad f a b := RInt f a b;
  fiszero x := if Req_EM_T x 0 then true else false;
  fltb x y := if Rlt_dec x y then true else false;
  fdec m e := IZR m / 10 ^ e;
  fstr := rstr
|}.
