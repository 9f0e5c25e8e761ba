(** * An executable instance of [Num]: integers, with angles counted in quarter turns

    Only used to run the model by computation in examples and refutation witnesses (with Lines it is exact
    plane geometry on the integer grid).  It models no file of /repo. *)
From Verif.Model Require Import Api.

Definition qcos (h : Z) : Z := (match h mod 4 with 0 => 1 | 2 => -1 | _ => 0 end)%Z.
Definition qsin (h : Z) : Z := (match h mod 4 with 1 => 1 | 3 => -1 | _ => 0 end)%Z.

#[global] Instance QNum : Num Z := {|
  fofZ z := z; fadd := Z.add; fsub := Z.sub; fmul := Z.mul; fdiv := Z.div; fneg := Z.opp;
  fpow x n := (x ^ Z.of_nat n)%Z; fabs := Z.abs; fsqrt := Z.sqrt; fcos := qcos; fsin := qsin;
  fatan2 y x := 0%Z; fpi := 2%Z; fmax := Z.max; fsign := Z.sgn;
  ffresnelS z := 0%Z; ffresnelC z := z; fquad f a b := (f a * (b - a))%Z;
  fiszero x := (x =? 0)%Z; fltb := Z.ltb; fdec m e := m; fstr z := pretty z
|}.
