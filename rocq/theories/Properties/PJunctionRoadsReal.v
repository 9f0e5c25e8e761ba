(** * C32 over exact reals: the conditions on the numbers, and the length of the straight connecting roads *)
From Coq Require Import Reals Lra ssreflect.
From Coquelicot Require Import Coquelicot.
From Verif.Model Require Import Api.
From Verif.Inst Require Import Real.
From Verif.Spec Require Import SpecGeometry SpecState SpecLanes SpecGenerate SpecJunctionRoads.
From Verif.Proof Require Import DrivesFacts GeomReal.
From Verif.Properties Require Import PJunctionRoads.
Local Open Scope general_if_scope.
Local Open Scope R_scope.

Section RealJunction.
  Context (rstr : R -> string).
  Local Instance rnj : Num R := RNum rstr.

  (** with a non-zero radius and spiral part the arithmetic never fails; the line is 2 (X0 + r + Y0) long, where (X, Y) is the end of the
      clothoid from (0, 0) of length 2 |a r| whose curvature goes from 1e-9 to 1/r, and X0, Y0 are its offsets from the circle *)
  Theorem C32_line_length r sp : r ≠ 0 → sp ≠ 0 → let a := PI / 2 * sp in ∃ X Y T,
    drives (spiral_curvature (1 / 1000000000) (1 / r) (2 * Rabs (a * r))) (2 * Rabs (a * r)) (0, 0, 0) (X, Y, T) ∧
    junction_linelength r sp = Ok (2 * (X - r * sin a + r + (Y - r * (1 - cos a)))) ∧
    fiszero (fdiv (fofZ 1) r) = false ∧ fiszero (fneg (fdiv (fofZ 1) r)) = false.
  Proof.
    intros Hr Hsp a. pose proof PI_RGT_0. assert (Ha : a ≠ 0). { unfold a. apply Rmult_integral_contrapositive_currified; [lra|done]. }
    assert (HL : 2 * Rabs (a * r) ≠ 0). { assert (Rabs (a * r) ≠ 0); [|lra]. apply Rabs_no_R0. by apply Rmult_integral_contrapositive_currified. }
    assert (H1r : 1 / r ≠ 0). { unfold Rdiv. rewrite Rmult_1_l. by apply Rinv_neq_0_compat. }
    pose (L := 2 * Rabs (a * r)). pose (g := 1 * (1 / r - 1 / 1000000000) / L).
    pose proof (euler_calc_drives rstr g (1 / 1000000000) L 0 0 0) as D. change (rn rstr) with rnj in D.
    destruct (euler_calc g L 0 0 (1 / 1000000000) 0) as [[X Y] T] eqn:E.
    exists X, Y, T. split.
    { fold L. revert D. apply drives_ext. intros u. unfold spiral_curvature, g. field. fold L in HL. auto. }
    split_and!.
    - unfold junction_linelength. change (fiszero r) with (if Req_EM_T r 0 then true else false). destruct (Req_EM_T r 0) as [|_]; [done|].
      unfold euler_create. change (fmul (fofZ 2) (fabs (fmul (fmul (fdiv fpi (fofZ 2)) sp) r))) with L.
      change (fiszero L) with (if Req_EM_T L 0 then true else false). destruct (Req_EM_T L 0) as [|_]; [done|]. cbn [rbind].
      change (fdiv (fmul (fofZ 1) (fsub (fdiv (fofZ 1) r) STD_START_CLOTH)) L) with g.
      change (euler_calc g L (fofZ 0) (fofZ 0) STD_START_CLOTH (fofZ 0)) with (euler_calc g L 0 0 (1 / 1000000000) 0). by rewrite E.
    - cbn. destruct (Req_EM_T (1 / r) 0); done.
    - cbn. destruct (Req_EM_T (- (1 / r)) 0); [lra|done].
  Qed.

  Corollary C32_real h roads angles r junction sp ap num l rr : reachable h → NoDup roads → (2 ≤ length roads ≤ length angles)%nat →
    Forall (exists_in h_road h) roads → (∀ x, x ∈ roads → ends_with_lanes h l rr (h_road h !!! x)) → (1 ≤ l)%nat →
    (∀ i x, roads !! i = Some x → (if bool_decide (i = 0%nat) then rd_succ (h_road h !!! x) else rd_pred (h_road h !!! x)) = None) →
    r ≠ 0 → sp ≠ 0 →
    ∃ js h', step (OpCreateJunctionRoads roads angles r junction sp ap num) h = (Ok (RRefs js), h') ∧ length js = length (pairs (length roads)).
  Proof.
    intros. destruct (C32_line_length r sp) as (X & Y & T & _ & E & Z1 & Z2); [done..|].
    destruct (C32_create_junction_roads h roads angles r junction sp ap num l rr _ ltac:(done) ltac:(done) ltac:(done) ltac:(done) ltac:(done) ltac:(done) ltac:(done) E Z1 Z2) as (js & h' & Es & _ & _ & El & _).
    by exists js, h'.
  Qed.
End RealJunction.
Print Assumptions C32_line_length.
