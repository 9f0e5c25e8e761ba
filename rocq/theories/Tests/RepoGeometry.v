(** * The tests of /repo/tests/test_geometry.py whose expected values are exact, over the real numbers

    Not properties but checks of the model.  A test compares to a relative error of 1e-6; here the values are equal.  The tests of spirals with a curvature
    that changes compare with decimal approximations and are not repeated, except for the headings. *)
From Coq Require Import Reals Lra ssreflect.
From Coquelicot Require Import Coquelicot.
From Verif.Model Require Import Geometry.
From Verif.Inst Require Import Real.
From Verif.Spec Require Import SpecGeometry SpecPlanView.
From Verif.Proof Require Import DrivesFacts Clothoid GeomReal.
Local Open Scope string_scope.
Open Scope R_scope.
Local Open Scope general_if_scope.

Section Tests.
  Context (rstr : R -> string).
  Local Instance real_numbers : Num R := rn rstr.
  Let get_end_data (g : geom R) (x y h : R) := (geom_end g x y h).1.

  (** the end point of an arc in closed form *)
  Lemma drives_arc_closed c l x y h : c <> 0 ->
    drives (arc_curvature c) l (x, y, h) (x + (sin (h + c * l) - sin h) / c, y - (cos (h + c * l) - cos h) / c, h + c * l).
  Proof.
    move=> Hc. exists (fun u => x + (sin (h + c * u) - sin h) / c), (fun u => y - (cos (h + c * u) - cos h) / c), (fun u => h + c * u).
    split; [|split; [done|]].
    - rewrite Rmult_0_r Rplus_0_r. by f_equal; f_equal; field.
    - move=> u. rewrite /arc_curvature. split_and!; auto_derive; try done; field; done.
  Qed.
  Lemma arc_by_length c l x y h : c <> 0 -> 0 < l ->
    get_end_data (GArc c (Some l) None) x y h = Ok ((x + (sin (h + c * l) - sin h) / c, y - (cos (h + c * l) - cos h) / c, h + c * l), Some l).
  Proof.
    move=> Hc Hl. case: (arc_eval_length rstr c l None x y h Hc) => [|p [E D]]; [lra|]. rewrite /get_end_data /geom_end E /=. have -> : Rabs l = l by (apply Rabs_pos_eq; lra).
    by rewrite (drives_unique _ _ _ _ _ D (drives_arc_closed c l x y h Hc)).
  Qed.
  Lemma arc_by_angle c a x y h : c <> 0 -> a <> 0 ->
    get_end_data (GArc c None (Some a)) x y h = Ok ((x + (sin (h + a) - sin h) / c, y - (cos (h + a) - cos h) / c, h + a), Some (Rabs (a / c))).
  Proof.
    move=> Hc Ha. case: (arc_eval_angle rstr c a x y h Hc Ha) => p [E D]. rewrite /get_end_data /geom_end E /=.
    rewrite (drives_unique _ _ _ _ _ D (drives_arc_closed c (a / c) x y h Hc)). have -> : c * (a / c) = a by field. done.
  Qed.

  Lemma pi_nonzero : PI <> 0. Proof. have := PI_RGT_0. lra. Qed.
  Lemma cos_neg_PI : cos (- PI) = -1. Proof. by rewrite cos_neg cos_PI. Qed.
  Lemma sin_neg_PI : sin (- PI) = 0. Proof. rewrite sin_neg sin_PI. lra. Qed.
  Lemma cos_neg_PI2 : cos (- PI / 2) = 0. Proof. have -> : - PI / 2 = - (PI / 2) by lra. by rewrite cos_neg cos_PI2. Qed.
  Lemma sin_neg_PI2 : sin (- PI / 2) = -1. Proof. have -> : - PI / 2 = - (PI / 2) by lra. by rewrite sin_neg sin_PI2. Qed.
  Lemma value (x y h l x' y' h' l' : R) : x = x' -> y = y' -> h = h' -> l = l' -> Ok (A:=R * R * R * option R) ((x, y, h), Some l) = Ok ((x', y', h'), Some l').
  Proof. by move=> -> -> -> ->. Qed.
  (** [angles]: write the heading at the end as a multiple of PI/2, and compute *)
  Local Ltac trig := rewrite ?cos_neg_PI ?sin_neg_PI ?cos_neg_PI2 ?sin_neg_PI2 ?cos_PI2 ?sin_PI2 ?cos_PI ?sin_PI ?cos_0 ?sin_0.
  Local Ltac heading e v := (have -> : e = v by lra).

  (** test_geometry.py:13-30 *)
  Lemma line_ends l x y h : get_end_data (mk_line l) x y h = Ok ((l * cos h + x, l * sin h + y, h), Some l).
  Proof. done. Qed.
  Example test_line_calc :
    get_end_data (mk_line 1) 0 0 0 = Ok ((1, 0, 0), Some 1) /\ get_end_data (mk_line 1) 0 0 (PI / 2) = Ok ((0, 1, PI / 2), Some 1) /\
    get_end_data (mk_line 1) 1 1 0 = Ok ((2, 1, 0), Some 1) /\ get_end_data (mk_line 1) 1 1 (PI / 4) = Ok ((1 + 1 / R_sqrt.sqrt 2, 1 + 1 / R_sqrt.sqrt 2, PI / 4), Some 1).
  Proof. rewrite !line_ends cos_PI4 sin_PI4. trig. split_and!; apply value; lra. Qed.

  (** test_geometry.py:46-64: data curvstart, curvend, length, x, y, h; the curvatures are 0 *)
  Lemma straight_spiral x y h : get_end_data (GSpiral 0 0 (Some 10)) x y h = Ok ((10 * cos h + x, 10 * sin h + y, h), Some 10).
  Proof.
    case: (spiral_end rstr 0 0 10 x y h) => [|p [E D]]; [lra|]. rewrite /get_end_data /geom_end E /=.
    have D' : drives (spiral_curvature 0 0 10) 10 (x, y, h) (10 * cos h + x, 10 * sin h + y, h).
    { apply: (drives_ext line_curvature); [move=> u; rewrite /line_curvature /spiral_curvature; field|]. apply drives_line. }
    by rewrite (drives_unique _ _ _ _ _ D D').
  Qed.
  Example test_spiral_zero_curv :
    get_end_data (GSpiral 0 0 (Some 10)) 0 0 0 = Ok ((10, 0, 0), Some 10) /\ get_end_data (GSpiral 0 0 (Some 10)) 10 0 0 = Ok ((20, 0, 0), Some 10) /\
    get_end_data (GSpiral 0 0 (Some 10)) 0 10 0 = Ok ((10, 10, 0), Some 10) /\ get_end_data (GSpiral 0 0 (Some 10)) 0 0 (PI / 2) = Ok ((0, 10, PI / 2), Some 10) /\
    get_end_data (GSpiral 0 0 (Some 10)) 0 0 (- PI / 2) = Ok ((0, -10, - PI / 2), Some 10).
  Proof. rewrite !straight_spiral. trig. split_and!; apply value; lra. Qed.
  (** test_geometry.py:66-122, the headings: data curvstart, curvend, length, h and the expected heading *)
  Lemma spiral_heading k0 k1 l x y h : l <> 0 -> exists x' y', get_end_data (GSpiral k0 k1 (Some l)) x y h = Ok ((x', y', h + (k0 + k1) * l / 2), Some l).
  Proof.
    move=> Hl. rewrite /get_end_data /geom_end /spiral_eval /euler_create iszero_false //. cbn [rbind fst].
    have T : (euler_calc (1 * (k1 - k0) / l) l x y k0 h).2 = h + (k0 + k1) * l / 2 by (rewrite /euler_calc /=; field).
    case E : (euler_calc _ _ _ _ _ _) => [[x' y'] t]. exists x', y'. rewrite /euler_calc /= in T. move: E T. rewrite /euler_calc /=. by move=> [_ _ <-] ->.
  Qed.
  Example test_spiral_headings :
    List.Forall (fun '(k0, k1, l, h, h') => exists x y, get_end_data (GSpiral k0 k1 (Some l)) 0 0 h = Ok ((x, y, h'), Some l))
      [(0, 0.05, 10, 0, 0.25); (0, -0.05, 10, 0, -0.25); (0, 0.08, 20, 0, 0.8); (0, -0.08, 20, 0, -0.8); (0, 0.05, 10, PI / 2, 0.25 + PI / 2);
       (0, 0.05, 10, - PI / 2, - PI / 2 + 0.25); (0.05, 0, 10, 0, 0.25); (-0.05, 0, 10, 0, -0.25); (0.05, 0, 20, 0, 0.5); (-0.05, 0, 20, 0, -0.5);
       (-0.05, 0.05, 10, 0, 0.0); (0.05, -0.05, 10, 0, 0.0)].
  Proof.
    assert (S : forall k0 k1 l h h', l <> 0 -> h' = h + (k0 + k1) * l / 2 -> exists x y, get_end_data (GSpiral k0 k1 (Some l)) 0 0 h = Ok ((x, y, h'), Some l)).
    { move=> k0 k1 l h h' Hl ->. by apply spiral_heading. }
    repeat (apply List.Forall_cons; [apply S; lra|]). apply List.Forall_nil.
  Qed.

  (** test_geometry.py:134-153: data length, x, y, h, curvature.  [np.pi, 0,0,0,1/2] expects [0,4,np.pi] for the length 2*np.pi. *)
  Example test_arc_calc_length :
    get_end_data (GArc 1 (Some PI) None) 0 0 0 = Ok ((0, 2, PI), Some PI) /\ get_end_data (GArc (1 / 2) (Some (2 * PI)) None) 0 0 0 = Ok ((0, 4, PI), Some (2 * PI)) /\
    get_end_data (GArc (-1) (Some PI) None) 0 0 0 = Ok ((0, -2, - PI), Some PI) /\ get_end_data (GArc 1 (Some (PI / 2)) None) 0 0 0 = Ok ((1, 1, PI / 2), Some (PI / 2)) /\
    get_end_data (GArc 1 (Some (PI / 2)) None) 1 1 0 = Ok ((2, 2, PI / 2), Some (PI / 2)) /\
    get_end_data (GArc 1 (Some (PI / 2)) None) 0 0 (- PI / 2) = Ok ((1, -1, 0), Some (PI / 2)) /\
    get_end_data (GArc (-1) (Some (PI / 2)) None) 0 0 (- PI / 2) = Ok ((-1, -1, - PI), Some (PI / 2)).
  Proof.
    have P := PI_RGT_0. rewrite !arc_by_length; try lra.
    heading (0 + 1 * PI) PI. heading (0 + 1 / 2 * (2 * PI)) PI. heading (0 + -1 * PI) (- PI). heading (0 + 1 * (PI / 2)) (PI / 2).
    heading (- PI / 2 + 1 * (PI / 2)) 0. heading (- PI / 2 + -1 * (PI / 2)) (- PI). trig. split_and!; apply value; lra.
  Qed.

  (** test_geometry.py:156-174: data angle, x, y, h, curvature *)
  Example test_arc_calc_angle :
    get_end_data (GArc 1 None (Some PI)) 0 0 0 = Ok ((0, 2, PI), Some PI) /\ get_end_data (GArc (1 / 2) None (Some PI)) 0 0 0 = Ok ((0, 4, PI), Some (PI * 2)) /\
    get_end_data (GArc 1 None (Some (PI / 2))) 1 1 0 = Ok ((2, 2, PI / 2), Some (PI / 2)) /\ get_end_data (GArc (-1) None (Some (- PI))) 0 0 0 = Ok ((0, -2, - PI), Some PI) /\
    get_end_data (GArc (-0.5) None (Some (- PI))) 0 0 0 = Ok ((0, -4, - PI), Some (2 * PI)) /\
    get_end_data (GArc (-1) None (Some (- PI / 2))) 0 0 0 = Ok ((1, -1, - PI / 2), Some (PI / 2)) /\ get_end_data (GArc (-1) None (Some (- PI))) 1 0 0 = Ok ((1, -2, - PI), Some PI) /\
    get_end_data (GArc (-1) None (Some (- PI))) 0 1 0 = Ok ((0, -1, - PI), Some PI) /\ get_end_data (GArc (-1) None (Some (- PI))) 0 0 PI = Ok ((0, 2, 0), Some PI).
  Proof.
    have P := PI_RGT_0. rewrite !arc_by_angle; try lra. rewrite !Rplus_0_l. heading (PI + - PI) 0. trig.
    have A1 : Rabs (PI / 1) = PI by (rewrite Rabs_pos_eq; lra). have A2 : Rabs (PI / (1 / 2)) = PI * 2 by (rewrite Rabs_pos_eq; lra).
    have A3 : Rabs (PI / 2 / 1) = PI / 2 by (rewrite Rabs_pos_eq; lra). have A4 : Rabs (- PI / -1) = PI by (rewrite Rabs_pos_eq; lra).
    have A5 : Rabs (- PI / -0.5) = 2 * PI by (rewrite Rabs_pos_eq; lra). have A6 : Rabs (- PI / 2 / -1) = PI / 2 by (rewrite Rabs_pos_eq; lra).
    rewrite A1 A2 A3 A4 A5 A6. split_and!; apply value; lra.
  Qed.

  (** test_geometry.py:181-194 (test_arc_calc): ParamPoly3(0,1,0,0,0,1,0,0,'arcLength',1) from (0, 0, 0) *)
  Example test_poly_calc : match mk_poly 0 1 0 0 0 1 0 0 "arcLength" (Some 1) with
    | Ok g => get_end_data g 0 0 0 = Ok ((1, 1, PI / 4), Some 1)
    | Err _ => False
    end.
  Proof.
    rewrite /mk_poly /get_end_data /=. apply value; rewrite ?cos_0 ?sin_0 /atan2R; try lra.
    case: Rlt_dec => [_|]; [|lra]. rewrite -atan_1 Rplus_0_l. f_equal. field.
  Qed.
End Tests.
