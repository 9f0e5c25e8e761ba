(** * Vocabulary for properties of floating-point results *)
From Coq Require Import Reals.
From Flocq Require Import Core BinarySingleNaN.
From Verif.Model Require Import Api.
From Verif.Inst Require Import Float.
From Verif.Spec Require Import SpecChain.

(** Python's [x <= y] on floats (false if one is a NaN) *)
Definition le64 (x y : float64) : Prop := Bleb x y = true.
(** a float that is 0 or more, possibly infinite, not a NaN *)
Definition nonneg64 (x : float64) : Prop := le64 b64_zero x.
(** the real number that a finite float stands for *)
Definition real (x : float64) : R := B2R x.
(** half a unit in the last place of 1: the relative rounding error *)
Definition unit_roundoff : R := / 2 ^ 53.
(** exact sum *)
Definition sum_real (ls : list float64) : R := fold_right (λ l t, real l + t)%R 0%R ls.

Section Chain.
  Context {F : Type} `{!Num F}.
  (** [l] is a length that [g] reports, forwards or backwards, at some time *)
  Definition reported_length (g : geom F) (l : F) : Prop :=
    ∃ p q, reports_end g p q (Some l) ∨ ∃ g', evolves g g' ∧ (geom_start g' p.1.1 p.1.2 p.2).1 = Ok (q, Some l).
  (** the distances reached after each of the lengths but the last *)
  Fixpoint distances (s : F) (ls : list F) : list F :=
    match ls with [] => [] | l :: ls' => s :: distances (fadd s l) ls' end.
End Chain.

(** primitives with arguments that make sense: lengths that are 0 or more, an angle that is not a NaN, a finite curvature that is not 0 *)
Definition is_zero64 (x : float64) : bool := Beqb x b64_zero.
Definition sensible (L : libm) (g : geom float64) : Prop :=
  match g with
  | GLine l => nonneg64 l
  | GSpiral _ _ length => ∀ l, length = Some l → nonneg64 l
  | GArc c length angle => is_finite c = true ∧ is_zero64 c = false ∧ (∀ l, length = Some l → nonneg64 l) ∧ ∀ a, angle = Some a → is_nan a = false
  | GPoly _ bu cu du _ bv cv dv prange length =>
    if String.eqb prange "normalized" then nonneg64 (lm_quad L (@poly_integrand float64 (FloatNum L) bu cu du bv cv dv) b64_zero (b64 1 0))
    else ∀ l, length = Some l → nonneg64 l
  end.
