(** * What it means to drive along a plane curve (OpenDRIVE's definition of line / spiral / arc)

    Mathematics only: no definition of the model is used. *)
From Coq Require Import Reals.
From Coquelicot Require Import Coquelicot.
Open Scope R_scope.

(** A pose: x, y, heading *)
Definition rpose : Type := R * R * R.

(** [drives kappa L p q]: a vehicle that starts at pose [p] and drives the distance [L] at unit speed, with curvature
    [kappa u] at distance [u], arrives at pose [q] *)
Definition drives (kappa : R -> R) (L : R) (p q : rpose) : Prop :=
  exists X Y T : R -> R,
    (X 0, Y 0, T 0) = p /\ (X L, Y L, T L) = q /\
    forall u, is_derive X u (cos (T u)) /\ is_derive Y u (sin (T u)) /\ is_derive T u (kappa u).

(** the curvature profiles of the three OpenDRIVE records *)
Definition line_curvature : R -> R := fun _ => 0.
Definition arc_curvature (k : R) : R -> R := fun _ => k.
Definition spiral_curvature (k0 k1 L : R) : R -> R := fun u => k0 + (k1 - k0) * u / L.

(** the same pose, looking backwards *)
Definition turned (p : rpose) : rpose := let '(x, y, h) := p in (x, y, h + PI).
