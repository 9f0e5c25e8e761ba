(** * Specification of geometry records *)
From Coq Require Import Reals.
From Verif.Model Require Import Geometry.
From Verif.Spec Require Export SpecGeometry.
Open Scope R_scope.

(** The curvature that OpenDRIVE prescribes for a geometry record of length [L] holding primitive [g] (only the
    attributes that are exported are used). ParamPoly3 is not given by a curvature. *)
Definition record_curvature (g : geom R) (L : R) : R -> R :=
  match g with
  | GLine _ => line_curvature
  | GSpiral cs ce _ => spiral_curvature cs ce L
  | GArc c _ _ => arc_curvature c
  | GPoly _ _ _ _ _ _ _ _ _ _ => line_curvature
  end.

(** Lines, and spirals and arcs that are not degenerate: curvature not 0 for an arc, length (or angle) given and not 0. *)
Definition nondegenerate (g : geom R) : Prop :=
  match g with
  | GLine _ => True
  | GSpiral _ _ (Some l) => l <> 0
  | GSpiral _ _ None => False
  | GArc c (Some l) _ => c <> 0 /\ l <> 0
  | GArc c None (Some a) => c <> 0 /\ a <> 0
  | GArc c None None => False
  | GPoly _ _ _ _ _ _ _ _ _ _ => False
  end.

(** The length of a primitive: as given, or angle times radius for an arc given by its angle *)
Definition nominal_length (g : geom R) : R :=
  match g with
  | GLine l => l
  | GSpiral _ _ (Some l) => l
  | GSpiral _ _ None => 0
  | GArc _ (Some l) _ => Rabs l
  | GArc c None (Some a) => Rabs (a / c)
  | GArc _ None None => 0
  | GPoly _ _ _ _ _ _ _ _ _ _ => 0
  end.

(** Two primitives the user cannot tell apart in the exported file *)
Definition same_shape (g g' : geom R) : Prop :=
  match g, g' with
  | GLine l, GLine l' => l = l'
  | GSpiral cs ce l, GSpiral cs' ce' l' => cs = cs' /\ ce = ce' /\ l = l'
  | GArc c _ _, GArc c' _ _ => c = c' /\ nominal_length g = nominal_length g'
  | GPoly a b c d e f i j p _, GPoly a' b' c' d' e' f' i' j' p' _ =>
    a = a' /\ b = b' /\ c = c' /\ d = d' /\ e = e' /\ f = f' /\ i = i' /\ j = j' /\ p = p'
  | _, _ => False
  end.

(** [consistent geo p rs q]: evaluated by the OpenDRIVE definition, the records [rs] lead from pose [p] to pose [q]
    without a gap: each record starts exactly where the one before it ends. *)
Inductive consistent (geo : ref → geom R) : rpose → list (pgeom R) → rpose → Prop :=
| cons_nil p : consistent geo p [] p
| cons_step r rs L q e :
    pg_length r = Some L →
    drives (record_curvature (geo (pg_geom r)) L) L (pg_x r, pg_y r, pg_h r) q →
    consistent geo q rs e →
    consistent geo (pg_x r, pg_y r, pg_h r) (r :: rs) e.

(** [stationed s rs t]: the s values start at [s] and each is the one before plus the length of that record; [t]
    is the distance after the last record. *)
Inductive stationed : R → list (pgeom R) → R → Prop :=
| st_nil s : stationed s [] s
| st_step s r rs L t :
    pg_s r = Some s → pg_length r = Some L → stationed (s + L) rs t → stationed s (r :: rs) t.

(** sum of a list of reals *)
Fixpoint sumR (l : list R) : R := match l with [] => 0 | x :: l' => x + sumR l' end.
