(** * Abstract arithmetic

    The numbers of pyodrx are Python ints/floats and numpy scalars.  [Num F] lists the operations the code
    applies to them (Python operators, numpy, scipy) with NO laws, so a theorem proved for every
    [Num F] holds whatever the arithmetic does, in particular for IEEE doubles.  The geometric
    theorems use the instance of exact reals (RealNum.v). *)
From Verif.Model Require Import Py.

Class Num (F : Type) := {
  fofZ : Z → F;                  (* integer literals *)
  fadd : F → F → F;              (* + *)
  fsub : F → F → F;              (* - *)
  fmul : F → F → F;              (* * *)
  fdiv : F → F → F;              (* / ; where Python itself would raise ZeroDivisionError the model tests first *)
  fneg : F → F;                  (* unary - *)
  fpow : F → nat → F;            (* ** with a literal exponent *)
  fabs : F → F;                  (* abs, np.abs *)
  fsqrt : F → F;                 (* np.sqrt *)
  fcos : F → F;                  (* np.cos *)
  fsin : F → F;                  (* np.sin *)
  fatan2 : F → F → F;            (* np.arctan2 *)
  fpi : F;                       (* np.pi *)
  fmax : F → F → F;              (* np.maximum *)
  fsign : F → F;                 (* np.sign *)
  ffresnelS : F → F;             (* scipy.special.fresnel(z)[0] *)
  ffresnelC : F → F;             (* scipy.special.fresnel(z)[1] *)
  fquad : (F → F) → F → F → F;   (* scipy.integrate.quad(f,a,b)[0] *)
  fiszero : F → bool;            (* x == 0, equivalently: not x *)
  fltb : F → F → bool;           (* < *)
  fdec : Z → nat → F;            (* a decimal literal: fdec m e is m * 10^-e *)
  fstr : F → string              (* str(x) *)
}.

Section Num.
  Context {F : Type} `{!Num F}.
  (** truthiness of a number *)
  Definition ftruthy (x : F) : bool := negb (fiszero x).
  (** truthiness of a number or None *)
  Definition ftruthy_opt (o : option F) : bool :=
    match o with Some x => ftruthy x | None => false end.
  (** [str(x)] of a number or None *)
  Definition fstr_opt (o : option F) : string :=
    match o with Some x => fstr x | None => "None" end.
  (** [x or default] for a number or None *)
  Definition f_or (o : option F) (d : F) : F :=
    match o with Some x => if ftruthy x then x else d | None => d end.
  #[global] Instance Num_inhabited : Inhabited F := populate (fofZ 0).
End Num.
