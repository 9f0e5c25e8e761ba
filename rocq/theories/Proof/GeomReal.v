(** The primitives over exact reals *)
From Coq Require Import Reals Lra ssreflect.
From Coquelicot Require Import Coquelicot.
From Verif.Model Require Import Geometry.
From Verif.Inst Require Import Real.
From Verif.Spec Require Import SpecPlanView.
From Verif.Proof Require Import DrivesFacts Clothoid.
Open Scope R_scope.
Local Open Scope general_if_scope.

  Lemma same_shape_refl g : same_shape g g.
  Proof. by destruct g. Qed.

  Lemma same_shape_trans g1 g2 g3 : same_shape g1 g2 → same_shape g2 g3 → same_shape g1 g3.
  Proof.
    destruct g1, g2, g3; simpl; try done; try naive_solver congruence.
  Qed.

  Lemma same_shape_length g g' : same_shape g g' → nominal_length g = nominal_length g'.
  Proof.
    destruct g, g'; simpl; try done.
    - intros (-> & -> & ->). done.
    - intros [_ H]. exact H.
  Qed.

  Lemma same_shape_curvature g g' L : same_shape g g' → record_curvature g L = record_curvature g' L.
  Proof. destruct g, g'; simpl; try done; naive_solver. Qed.

Section GeomReal.
  Context (rstr : R -> string).
  Local Instance rn : Num R := RNum rstr.

  Lemma iszero_false (x : R) : x <> 0 -> fiszero x = false.
  Proof. rewrite /fiszero /=. by case: Req_EM_T. Qed.
  Lemma iszero_true (x : R) : x = 0 -> fiszero x = true.
  Proof. rewrite /fiszero /=. by case: Req_EM_T. Qed.
  Lemma truthy_true (x : R) : x <> 0 -> ftruthy x = true.
  Proof. move=> H. by rewrite /ftruthy iszero_false. Qed.
  Lemma truthy_false (x : R) : x = 0 -> ftruthy x = false.
  Proof. move=> H. by rewrite /ftruthy iszero_true. Qed.

  (** ** EulerSpiral.calc, all branches *)
  Lemma euler_calc_drives g k0 s x y t :
    drives (fun u => k0 + g * u) s (x, y, t) (euler_calc g s x y k0 t).
  Proof.
    rewrite /euler_calc.
    destruct (Req_dec g 0) as [Hg|Hg]; [destruct (Req_dec k0 0) as [Hk|Hk]|].
    - rewrite !iszero_true // /=. subst.
      have E : (x + s * cos t, y + s * sin t, 0 * (s * (s * 1)) / 2 + 0 * s + t) =
               (s * cos t + x, s * sin t + y, t).
      { f_equal; [f_equal; ring|field]. }
      rewrite E. apply: (drives_ext line_curvature); last apply drives_line.
      move=> u. rewrite /line_curvature. ring.
    - rewrite (iszero_true g) // (iszero_false k0) //= Hg.
      exists (fun u => x + (cos t / k0 * sin (k0 * u) - sin t / k0 * (1 - cos (k0 * u)))),
        (fun u => y + (cos t / k0 * (1 - cos (k0 * u)) + sin t / k0 * sin (k0 * u))), (fun u => t + k0 * u).
      split; [|split].
      + rewrite !Rmult_0_r sin_0 cos_0 Rplus_0_r. f_equal; f_equal; ring.
      + f_equal; field.
      + move=> u. split; [|split].
        * auto_derive; [done|]. rewrite cos_plus. field. done.
        * auto_derive; [done|]. rewrite sin_plus. field. done.
        * auto_derive; [done|]. ring.
    - rewrite (iszero_false g) //=.
      have H := drives_euler g k0 s x y t Hg. cbv zeta in H. simpl in H.
      move: H. congr drives; try done.
  Qed.

  Lemma spiral_end cs ce l x y h :
    l <> 0 ->
    ∃ p', spiral_eval (Some l) cs ce x y h = Ok (p', Some l) ∧ drives (spiral_curvature cs ce l) l (x, y, h) p'.
  Proof.
    move=> Hl. rewrite /spiral_eval /euler_create iszero_false //=.
    eexists. split; [done|].
    apply: drives_ext; last apply euler_calc_drives.
    move=> u. rewrite /spiral_curvature. field. done.
  Qed.

  (** ** Arc *)
  Lemma arc_eval_length c l a x y h :
    c <> 0 -> l <> 0 ->
    ∃ p', arc_eval c (Some l) a x y h = (Ok (p', Some (Rabs l)), (Some (Rabs l), Some (l * c))) ∧
          drives (arc_curvature c) l (x, y, h) p'.
  Proof.
    move=> Hc Hl. rewrite /arc_eval /ftruthy_opt truthy_true //=.
    have Ha : l * c <> 0 by apply Rmult_integral_contrapositive.
    rewrite truthy_true //.
    have Hr : Rabs (1 / Rabs c * (l * c)) = Rabs l.
    { have Hp := Rabs_pos_lt c Hc.
      rewrite /Rdiv Rmult_1_l !Rabs_mult Rabs_inv Rabs_Rabsolu. field. lra. }
    rewrite Hr. eexists. split; [done|].
    have H := drives_arc c l x y h Hc. cbv zeta in H.
    have -> : (if if Rlt_dec c 0 then true else false then h + PI / 2 else h - PI / 2) =
              (if Rlt_dec c 0 then h + PI / 2 else h - PI / 2) by case: Rlt_dec.
    exact H.
  Qed.

  Lemma arc_eval_angle c a x y h :
    c <> 0 -> a <> 0 ->
    ∃ p', arc_eval c None (Some a) x y h = (Ok (p', Some (Rabs (a / c))), (Some (Rabs (a / c)), Some a)) ∧
          drives (arc_curvature c) (a / c) (x, y, h) p'.
  Proof.
    move=> Hc Ha. rewrite /arc_eval /ftruthy_opt /=.
    rewrite truthy_true //.
    have Hr : Rabs (1 / Rabs c * a) = Rabs (a / c).
    { have Hp := Rabs_pos_lt c Hc.
      rewrite /Rdiv Rmult_1_l !Rabs_mult !Rabs_inv Rabs_Rabsolu. field. lra. }
    rewrite Hr. eexists. split; [done|].
    have H := drives_arc c (a / c) x y h Hc. cbv zeta in H.
    have -> : (if if Rlt_dec c 0 then true else false then h + PI / 2 else h - PI / 2) =
              (if Rlt_dec c 0 then h + PI / 2 else h - PI / 2) by case: Rlt_dec.
    have E : a / c * c = a by field.
    rewrite E in H. exact H.
  Qed.

  Local Arguments spiral_eval : simpl never.
  Local Arguments arc_eval : simpl never.

  (** a primitive whose caches are filled consistently *)
  Definition settled (g : geom R) : Prop :=
    nondegenerate g ∧ match g with GArc _ (Some l) _ => 0 < l | GArc _ None _ => False | _ => True end.

  Lemma settled_nondegenerate g : settled g → nondegenerate g.
  Proof. by intros []. Qed.

  (** any evaluation of a non-degenerate primitive settles it and keeps its shape *)
  Lemma geom_end_settles g x y h :
    nondegenerate g →
    ∃ p g', geom_end g x y h = (Ok (p, Some (nominal_length g)), g') ∧ settled g' ∧ same_shape g g'.
  Proof.
    destruct g as [l|cs ce [l|]|c [l|] a| ]; simpl; try done.
    - intros _. eexists _, _. by split.
    - intros Hl. destruct (spiral_end cs ce l x y h Hl) as (p & -> & _). eexists _, _. split; [done|]. by split.
    - intros [Hc Hl]. destruct (arc_eval_length c l a x y h Hc Hl) as (p & -> & _). eexists _, _. split; [done|].
      have H := Rabs_pos_lt l Hl. split; [split; [split; [done|lra]|done]|].
      split; [done|]. by rewrite /= Rabs_Rabsolu.
    - destruct a as [a|]; [|done]. intros [Hc Ha].
      destruct (arc_eval_angle c a x y h Hc Ha) as (p & -> & _). eexists _, _. split; [done|].
      have Hac : a / c <> 0. { apply Rmult_integral_contrapositive. split; [done|]. by apply Rinv_neq_0_compat. }
      have H := Rabs_pos_lt _ Hac. split; [split; [split; [done|lra]|done]|].
      split; [done|]. by rewrite /= Rabs_Rabsolu.
  Qed.

  Lemma geom_start_settles g x y h :
    nondegenerate g →
    ∃ p g', geom_start g x y h = (Ok (p, Some (nominal_length g)), g') ∧ settled g' ∧ same_shape g g'.
  Proof.
    destruct g as [l|cs ce [l|]|c [l|] a| ]; simpl; try done.
    - intros _. eexists _, _. by split.
    - intros Hl. destruct (spiral_end (- ce) (- cs) l x y h Hl) as (p & -> & _). eexists _, _. split; [done|]. by split.
    - intros [Hc Hl]. destruct (arc_eval_length (- c) l a x y h) as (p & -> & _); [lra|done|]. eexists _, _. split; [done|].
      have H := Rabs_pos_lt l Hl. split; [split; [split; [done|lra]|done]|].
      split; [done|]. by rewrite /= Rabs_Rabsolu.
    - destruct a as [a|]; [|done]. intros [Hc Ha].
      destruct (arc_eval_angle (- c) a x y h) as (p & -> & _); [lra|done|].
      have Hac : a / c <> 0. { apply Rmult_integral_contrapositive. split; [done|]. by apply Rinv_neq_0_compat. }
      have E : Rabs (a / - c) = Rabs (a / c).
      { have -> : a / - c = - (a / c) by field. by rewrite Rabs_Ropp. }
      rewrite E. eexists _, _. split; [done|].
      have H := Rabs_pos_lt _ Hac. split; [split; [split; [done|lra]|done]|].
      split; [done|]. by rewrite /= Rabs_Rabsolu.
  Qed.

  (** a settled primitive reports exactly the pose OpenDRIVE prescribes *)
  Lemma settled_end g x y h :
    settled g →
    ∃ p g', geom_end g x y h = (Ok (p, Some (nominal_length g)), g') ∧ settled g' ∧ same_shape g g' ∧
      drives (record_curvature g (nominal_length g)) (nominal_length g) (x, y, h) p.
  Proof.
    intros [Hn Hs].
    destruct g as [l|cs ce [l|]|c [l|] a| ]; simpl in *; try done.
    - eexists _, _. split; [done|]. split; [done|]. split; [done|]. apply drives_line.
    - destruct (spiral_end cs ce l x y h Hn) as (p & -> & Hd). eexists _, _. split; [done|]. by repeat split.
    - destruct Hn as [Hc Hl]. destruct (arc_eval_length c l a x y h Hc Hl) as (p & -> & Hd). eexists _, _. split; [done|].
      have E : Rabs l = l by rewrite Rabs_right; lra.
      rewrite E. repeat split; try done.
  Qed.

  Lemma settled_start g x y h :
    settled g →
    ∃ p g', geom_start g x y h = (Ok (p, Some (nominal_length g)), g') ∧ settled g' ∧ same_shape g g' ∧
      drives (fun u => - record_curvature g (nominal_length g) (nominal_length g - u)) (nominal_length g) (x, y, h) p.
  Proof.
    intros [Hn Hs].
    destruct g as [l|cs ce [l|]|c [l|] a| ]; simpl in *; try done.
    - eexists _, _. split; [done|]. split; [done|]. split; [done|].
      apply: (drives_ext line_curvature); last apply drives_line.
      move=> u. rewrite /line_curvature. ring.
    - destruct (spiral_end (- ce) (- cs) l x y h Hn) as (p & -> & Hd). eexists _, _. split; [done|].
      repeat split; try done. apply: drives_ext; last exact Hd.
      move=> u. rewrite /spiral_curvature. field. done.
    - destruct Hn as [Hc Hl]. destruct (arc_eval_length (- c) l a x y h) as (p & -> & Hd); [lra|done|]. eexists _, _. split; [done|].
      have E : Rabs l = l by rewrite Rabs_right; lra.
      rewrite E. repeat split; try done.
  Qed.

  (** C04: evaluating the start from the turned end gives back the turned start *)
  Lemma settled_inverse g g1 g2 x y h p l p2 l2 :
    settled g →
    geom_end g x y h = (Ok (p, l), g1) →
    geom_start g1 (turned p).1.1 (turned p).1.2 (turned p).2 = (Ok (p2, l2), g2) →
    p2 = turned (x, y, h) ∧ l2 = l.
  Proof.
    intros Hs H1 H2.
    destruct (settled_end g x y h Hs) as (p' & g' & E1 & Hs' & Hsh & Hd).
    rewrite E1 in H1. simplify_eq.
    destruct (settled_start g1 (turned p).1.1 (turned p).1.2 (turned p).2 Hs') as (p' & g' & E2 & _ & _ & Hd2).
    rewrite E2 in H2. simplify_eq.
    rewrite -(same_shape_length _ _ Hsh) -?(same_shape_curvature _ _ _ Hsh) in Hd2 |- *.
    split; [|done].
    apply drives_reverse in Hd.
    destruct p as [[px py] ph]. simpl in *.
    by eapply drives_unique.
  Qed.
End GeomReal.
