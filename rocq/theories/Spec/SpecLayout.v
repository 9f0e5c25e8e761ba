(** * Layouts of a road network in the plane (exact arithmetic) *)
From Coq Require Import Reals.
From Verif.Model Require Import OpenDrive.
From Verif.Inst Require Import Real.
From Verif.Spec Require Export SpecNetwork SpecPlanView.
Local Open Scope R_scope.

(** the same position and direction: the headings differ by full turns *)
Definition same_pose (p q : rpose) : Prop := p.1 = q.1 ∧ ∃ n : Z, q.2 = p.2 + 2 * IZR n * PI.

(** driving along the primitives [gs], one after the other, leads from [p] to [q] *)
Inductive along (geo : ref → geom R) : rpose → list ref → rpose → Prop :=
| along_nil p : along geo p [] p
| along_cons p g gs q e :
    drives (record_curvature (geo g) (nominal_length (geo g))) (nominal_length (geo g)) p q → along geo q gs e → along geo p (g :: gs) e.

(** a layout: where each road starts and ends *)
Definition layout : Type := string → rpose * rpose.
(** the pose at an end of a road, looking out of the road *)
Definition outward (P : layout) (k : string) (c : ContactPoint) : rpose :=
  match c with cp_start => turned (P k).1 | cp_end => (P k).2 end.
(** [n] lanes of width 3 to the left *)
Definition to_left (n : Z) (q : rpose) : rpose := let '(x, y, t) := q in (x - 3 * IZR n * sin t, y + 3 * IZR n * cos t, t).
(** the lane offset of a road at its end [c], as seen when looking into the road *)
Definition lane_shift (o : road) (c : ContactPoint) : Z := match c with cp_start => rd_off_pred o | cp_end => - rd_off_suc o end.
(** the road [k] continues, with its end [c] and shifted by its lane offset, the road [k2] at the end [c2] of that *)
Definition meets (P : layout) (k : string) (o : road) (c : ContactPoint) (k2 : string) (c2 : ContactPoint) : Prop :=
  same_pose (turned (outward P k c)) (to_left (lane_shift o c) (outward P k2 c2)).
(** the link of a road at its end [c] *)
Definition link_at (o : road) (c : ContactPoint) : option link := match c with cp_start => rd_pred o | cp_end => rd_succ o end.

Section Fits.
  Context (rstr : R → string).
  Local Instance rn : Num R := RNum rstr.
  (** [fits h d P]: the layout [P] has every road in its shape, the roots where they are told to be, and all links fit: the roads linked as
      predecessor or successor; and, since the code places such roads, the roads named by a connecting road, each as it continues the connecting road *)
  Record fits (h : heap R) (d : ref) (P : layout) : Prop := {
    fit_course : ∀ k o, road_named h d k = Some o → along (λ g, h_geom h !!! g) (P k).1 (pv_raw (view h o)) (P k).2;
    fit_root : ∀ k o, road_named h d k = Some o → root h d k →
      same_pose (P k).1 (pv_x (view h o), pv_y (view h o), pv_h (view h o));
    fit_link : ∀ k o c L c2, road_named h d k = Some o → link_at o c = Some L → lk_etype L ≠ Some et_junction → lk_contact L = Some c2 →
      meets P k o c (pystr (lk_id L)) c2;
    fit_conn : ∀ k o k2 o2 c2 L, road_named h d k = Some o → road_named h d k2 = Some o2 → rd_type o2 ≠ (-1)%Z →
      link_at o2 c2 = Some L → pystr (lk_id L) = k → meets P k o (if bool_decide (lk_contact L = Some cp_start) then cp_start else cp_end) k2 c2
  }.
End Fits.
