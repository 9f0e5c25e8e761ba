(** * Properties C01-C12, C47: geometry primitives and PlanView *)
From Coq Require Import Reals Lra ssreflect.
From Coquelicot Require Import Coquelicot.
From Verif.Model Require Import Api.
From Verif.Inst Require Import Real Quarter.
From Verif.Spec Require Import SpecPlanView SpecChain.
From Verif.Proof Require Import DrivesFacts Clothoid GeomReal PolyReal Monad PlanViewFacts PlanViewReal.
From Coq Require Import Rsqrt_def R_sqrt.
Open Scope R_scope.
Local Open Scope general_if_scope.

Section RealGeometry.
  Context (rstr : R -> string).
  Local Instance rn : Num R := RNum rstr.
  Local Arguments arc_eval : simpl never.
  Local Arguments spiral_eval : simpl never.

  (** ** C01 *)
  Theorem C01_line_end (L x y h : R) :
    ∃ q, geom_end (mk_line L) x y h = (Ok (q, Some L), mk_line L) ∧
         drives line_curvature L (x, y, h) q ∧
         q = (x + L * cos h, y + L * sin h, h).
  Proof.
    eexists. split; [reflexivity|]. split; [apply drives_line|]. cbn. f_equal. f_equal; ring.
  Qed.

  (** ** C02 *)
  Theorem C02_arc_end (c : R) (length angle : option R) (g g' : geom R) (L x y h : R) :
    mk_arc c length angle = Ok g →
    (length = Some L ∧ 0 < L) ∨ (∃ a, angle = Some a ∧ a ≠ 0 ∧ L = Rabs (a / c)) →
    used g g' →
    ∃ q, (geom_end g' x y h).1 = Ok (q, Some L) ∧ drives (arc_curvature c) L (x, y, h) q.
  Proof.
    intros Hmk HL Hu.
    assert (Hg : g = GArc c length angle ∧ c ≠ 0 ∧ (length = None ∨ angle = None)).
    { revert Hmk. rewrite /mk_arc. destruct length, angle; try done; cbn; case: Req_EM_T; try done; intros Hc [= <-]; auto. }
    destruct Hg as (-> & Hc & Hone).
    assert (Hn : nondegenerate (GArc c length angle) ∧ nominal_length (GArc c length angle) = L).
    { destruct HL as [[-> HL]|(a & -> & Ha & ->)].
      - cbn. split; [split; [done|lra]|]. rewrite Rabs_right; lra.
      - destruct Hone as [->|?]; [|done]. cbn. done. }
    destruct Hn as [Hn HLn].
    destruct (used_settled rstr _ _ Hu Hn) as [Hs Hsh].
    destruct (settled_end rstr g' x y h Hs) as (q & g2 & E & _ & _ & Hd).
    change (RNum rstr) with rn in E. exists q. rewrite E. cbn.
    rewrite -(same_shape_length _ _ Hsh) -(same_shape_curvature _ _ _ Hsh) HLn in Hd |- *. done.
  Qed.

  (** The very first evaluation is already exact unless the user gave an angle of the wrong sign (then only the length
      reported by it can be relied on, see [C02_first_use_refuted]). *)
  Theorem C02_arc_first_use (c : R) (length angle : option R) (g : geom R) (L x y h : R) :
    mk_arc c length angle = Ok g →
    (length = Some L ∧ 0 < L) ∨ (∃ a, angle = Some a ∧ 0 < a / c ∧ L = a / c) →
    ∃ q, (geom_end g x y h).1 = Ok (q, Some L) ∧ drives (arc_curvature c) L (x, y, h) q.
  Proof.
    intros Hmk HL.
    assert (Hg : g = GArc c length angle ∧ c ≠ 0 ∧ (length = None ∨ angle = None)).
    { revert Hmk. rewrite /mk_arc. destruct length, angle; try done; cbn; case: Req_EM_T; try done; intros Hc [= <-]; auto. }
    destruct Hg as (-> & Hc & Hone).
    destruct HL as [[-> HL]|(a & -> & Ha & ->)].
    - destruct (arc_eval_length rstr c L angle x y h) as (q & E & Hd); [done|lra|].
      cbn. change (RNum rstr) with rn in E. rewrite E. exists q. rewrite Rabs_right; [done|lra].
    - destruct Hone as [->|?]; [|done].
      assert (a ≠ 0). { intros ->. rewrite /Rdiv Rmult_0_l in Ha. lra. }
      destruct (arc_eval_angle rstr c a x y h) as (q & E & Hd); [done|done|].
      cbn. change (RNum rstr) with rn in E. rewrite E. exists q. rewrite Rabs_right; [done|lra].
  Qed.

  Theorem C02_first_use_refuted :
    ∃ g q1 q2 l, mk_arc 1 None (Some (- (PI / 2))) = Ok g ∧
      (geom_end g 0 0 0).1 = Ok (q1, l) ∧ (geom_end (geom_end g 0 0 0).2 0 0 0).1 = Ok (q2, l) ∧ q1.2 ≠ q2.2.
  Proof.
    have HPI := PI_RGT_0.
    eexists (GArc 1 None (Some (- (PI / 2)))), _, _, _. split.
    { rewrite /mk_arc. cbn. case: Req_EM_T; [lra|done]. }
    have E : arc_eval (Num0 := rn) 1 None (Some (- (PI / 2))) 0 0 0 =
      (Ok ((cos (- (PI / 2) + (0 - PI / 2)) * (1 / Rabs 1) + (0 - cos (0 - PI / 2) * (1 / Rabs 1)),
           sin (- (PI / 2) + (0 - PI / 2)) * (1 / Rabs 1) + (0 - sin (0 - PI / 2) * (1 / Rabs 1)), 0 + - (PI / 2)),
           Some (PI / 2)), (Some (PI / 2), Some (- (PI / 2)))).
    { rewrite /arc_eval. cbn. case: Rlt_dec; [lra|]. intros _. rewrite truthy_true; [|lra].
      have -> : Rabs (1 / Rabs 1 * - (PI / 2)) = PI / 2.
      { rewrite Rabs_R1 Rabs_left1; lra. }
      done. }
    cbn. rewrite E. cbn. split; [reflexivity|].
    rewrite /arc_eval. cbn. rewrite !truthy_true; try lra.
    have -> : Rabs (1 / Rabs 1 * (PI / 2 * 1)) = PI / 2.
    { rewrite Rabs_R1 Rabs_right; lra. }
    split; [reflexivity|]. cbn. lra.
  Qed.

  (** non-vacuity: arcs that meet the hypotheses exist *)
  Example C02_example :
    ∃ g g', mk_arc (- (1/100)) None (Some (PI / 2)) = Ok g ∧ used g g' ∧ (PI / 2 <> 0).
  Proof.
    eexists _, _. split; [|split].
    - rewrite /mk_arc. cbn. case: Req_EM_T; [lra|done].
    - exact (used_end _ _ 1 2 3 (ev_refl _)).
    - have := PI_RGT_0. lra.
  Qed.

  (** ** C03 *)
  (** the length a Spiral gets from its constructor arguments *)
  Definition spiral_length_spec (cs ce : R) (length angle cdot : option R) (L : R) : Prop :=
    match length, angle, cdot with
    | Some l, None, None => L = l
    | None, Some a, None => a ≠ 0 ∧ L = 2 * Rabs a / Rmax (Rabs ce) (Rabs cs)
    | None, None, Some d => d ≠ 0 ∧ L = (ce - cs) / d
    | _, _, _ => False
    end.

  Theorem C03_spiral_end (cs ce : R) (length angle cdot : option R) (g g' : geom R) (L x y h : R) :
    mk_spiral cs ce length angle cdot = Ok g →
    spiral_length_spec cs ce length angle cdot L → L ≠ 0 →
    evolves g g' →
    ∃ q, geom_end g' x y h = (Ok (q, Some L), g') ∧
         drives (spiral_curvature cs ce L) L (x, y, h) q ∧
         q = (x + RInt (fun u => cos (h + cs * u + (ce - cs) * u ^ 2 / (2 * L))) 0 L,
              y + RInt (fun u => sin (h + cs * u + (ce - cs) * u ^ 2 / (2 * L))) 0 L,
              h + (cs + ce) * L / 2).
  Proof.
    intros Hmk HL HL0 He.
    assert (Hg : g = GSpiral cs ce (Some L)).
    { revert Hmk HL. rewrite /mk_spiral /spiral_length_spec. destruct length, angle, cdot; cbn; try done.
      - intros [= <-] ->. done.
      - intros Hmk [Ha ->]. revert Hmk. rewrite truthy_true //. by intros [= <-].
      - intros Hmk [Ha ->]. revert Hmk. rewrite truthy_true //. by intros [= <-]. }
    subst g.
    assert (g' = GSpiral cs ce (Some L)) as ->.
    { clear Hmk HL HL0. induction He as [|g' x' y' h' He IH|g' x' y' h' He IH]; [done|..]; by rewrite IH. }
    destruct (spiral_end rstr cs ce L x y h HL0) as (q & E & Hd).
    exists q. cbn. change (RNum rstr) with rn in E. rewrite E. split; [done|]. split; [done|].
    rewrite (drives_integral _ _ _ _ _ _ (fun u => h + cs * u + (ce - cs) * u ^ 2 / (2 * L)) Hd).
    - f_equal. field. done.
    - field. done.
    - intros u. rewrite /spiral_curvature. auto_derive; [done|]. field. done.
  Qed.

  Example C03_example :
    ∃ g, mk_spiral 0 (1/20) None (Some (PI / 4)) None = Ok g ∧
      spiral_length_spec 0 (1/20) None (Some (PI / 4)) None (10 * PI) ∧ 10 * PI ≠ 0 ∧ evolves g g.
  Proof.
    have HPI := PI_RGT_0.
    eexists. split; [|split; [|split; [lra|constructor]]].
    { rewrite /mk_spiral. cbn [decide omap length]. rewrite /ftruthy_opt truthy_true; [reflexivity|lra]. }
    cbn. split; [lra|]. rewrite Rabs_R0 !Rabs_right; try lra. rewrite Rmax_left; lra.
  Qed.

  (** ** C04 *)
  Theorem C04_reverse_inverts (g g' : geom R) (x y h : R) (p : R * R * R) (l : option R) :
    nondegenerate g → used g g' →
    (geom_end g' x y h).1 = Ok (p, l) →
    ∀ g'', evolves (geom_end g' x y h).2 g'' →
    (geom_start g'' p.1.1 p.1.2 (p.2 + PI)).1 = Ok ((x, y, h + PI), l).
  Proof.
    intros Hn Hu E g'' He.
    destruct (used_settled rstr _ _ Hu Hn) as [Hs Hsh].
    destruct (geom_end g' x y h) as [r g1] eqn:E1. cbn in E, He. subst r.
    destruct (settled_end rstr g' x y h Hs) as (p' & g2 & E2 & Hs2 & Hsh2 & _).
    change (RNum rstr) with rn in E2. rewrite E1 in E2. simplify_eq.
    assert (Hs3 : settled g'').
    { assert (Hst : ∀ a b, evolves a b → settled a → settled b).
      { clear. induction 1 as [|a' u v w He IH|a' u v w He IH]; [done|..]; intros Ha.
        - destruct (settled_end rstr a' u v w (IH Ha)) as (? & ? & E & ? & _).
          change (RNum rstr) with rn in E. by rewrite E.
        - destruct (settled_start rstr a' u v w (IH Ha)) as (? & ? & E & ? & _).
          change (RNum rstr) with rn in E. by rewrite E. }
      eapply Hst; eauto. }
    destruct (nondegenerate_shape rstr _ _ He (settled_nondegenerate _ Hs2)) as [_ Hsh3].
    destruct (settled_end rstr g' x y h Hs) as (p'' & g3 & E2 & _ & _ & Hd).
    change (RNum rstr) with rn in E2. rewrite E1 in E2. simplify_eq.
    destruct (settled_start rstr g'' p''.1.1 p''.1.2 (p''.2 + PI) Hs3) as (q & g4 & E4 & _ & _ & Hd2).
    change (RNum rstr) with rn in E4. rewrite E4. cbn.
    rewrite -(same_shape_length _ _ Hsh3) -(same_shape_length _ _ Hsh2) -(same_shape_curvature _ _ _ Hsh3)
      -(same_shape_curvature _ _ _ Hsh2) in Hd2 |- *.
    apply drives_reverse in Hd. destruct p'' as [[px py] ph]. cbn in *.
    by rewrite (drives_unique _ _ _ _ _ Hd2 Hd).
  Qed.

  Example C04_example : ∃ g', nondegenerate (GArc (1/10) (Some 5) None) ∧ used (GArc (1/10) (Some 5) None) g'.
  Proof. eexists. split; [cbn; lra|]. exact (used_start _ _ 1 2 3 (ev_refl _)). Qed.

  (** ParamPoly3.get_start_data is not the inverse: the straight unit segment written as a ParamPoly3. *)
  Theorem C04_parampoly3_refuted :
    ∃ g, mk_poly 0 1 0 0 0 0 0 0 "arcLength" (Some 1) = Ok g ∧
      (geom_end g 0 0 0).1 = Ok ((1, 0, 0), Some 1) ∧
      ∃ q l, (geom_start (geom_end g 0 0 0).2 1 0 (0 + PI)).1 = Ok (q, l) ∧ q.1.1 = 2.
  Proof.
    eexists. split; [reflexivity|].
    have Ha : atan2R 0 1 = 0.
    { rewrite /atan2R. case: Rlt_dec; [|lra]. intros _. by rewrite /Rdiv Rmult_0_l atan_0. }
    split.
    - cbn. rewrite /poly3 /poly3' /=. rewrite cos_0 sin_0.
      have -> : 0 + 2 * 0 * 1 + 3 * 0 * (1 * (1 * 1)) = 0 by ring.
      have -> : 1 + 2 * 0 * 1 + 3 * 0 * (1 * (1 * 1)) = 1 by ring.
      rewrite Ha. repeat f_equal; ring.
    - eexists _, _. split; [reflexivity|]. cbn. rewrite /poly3 /=. rewrite (Rplus_0_l PI) cos_PI sin_PI. ring.
  Qed.

  (** ** C05 *)
  Theorem C05_parampoly3_end au bu cu du av bv cv dv prange length g g' (x y h : R) :
    mk_poly au bu cu du av bv cv dv prange length = Ok g →
    prange = "normalized" ∨ prange = "arcLength" →
    evolves g g' →
    ∃ p L delta,
      (* the parameter at the end and the length *)
      ((prange = "normalized" ∧ p = 1 ∧
        L = RInt (fun t => sqrt ((bu + 2 * cu * t + 3 * du * t ^ 2)² + (bv + 2 * cv * t + 3 * dv * t ^ 2)²)) 0 1) ∨
       (prange = "arcLength" ∧ length = Some L ∧ p = L)) ∧
      let u t := au + bu * t + cu * t ^ 2 + du * t ^ 3 in
      let v t := av + bv * t + cv * t ^ 2 + dv * t ^ 3 in
      (geom_end g' x y h).1 =
        Ok ((x + (u p * cos h - v p * sin h), y + (u p * sin h + v p * cos h), h + delta), Some L) ∧
      let rho := sqrt ((Derive u p)² + (Derive v p)²) in
      Derive u p = rho * cos delta ∧ Derive v p = rho * sin delta ∧ - PI < delta <= PI.
  Proof.
    intros Hmk Hpr He.
    set (u := fun t => au + bu * t + cu * t ^ 2 + du * t ^ 3).
    set (v := fun t => av + bv * t + cv * t ^ 2 + dv * t ^ 3).
    assert (Hu : ∀ p, Derive u p = poly3' bu cu du p) by (intros p; apply is_derive_unique, (poly3_derive rstr)).
    assert (Hv : ∀ p, Derive v p = poly3' bv cv dv p) by (intros p; apply is_derive_unique, (poly3_derive rstr)).
    assert (Hlen : ∃ len', g' = GPoly au bu cu du av bv cv dv prange len' ∧ (prange = "arcLength" → len' = length ∧ length ≠ None)).
    { revert Hmk. rewrite /mk_poly. destruct (String.eqb_spec prange "arcLength") as [Hp|Hp]; simpl.
      - case_bool_decide as Hl; [done|]. intros [= <-]. exists length. split; [|done].
        induction He as [|g' x' y' h' He IH|g' x' y' h' He IH]; [done|..]; rewrite IH Hp; cbn; by destruct length.
      - intros [= <-].
        assert (∃ len', g' = GPoly au bu cu du av bv cv dv prange len') as [len' ->].
        { induction He as [|g' x' y' h' He IH|g' x' y' h' He IH]; [by eexists|..]; destruct IH as [len' ->].
          - unfold geom_end. destruct (poly_param _ _ _ _ _ _ prange len') as [[p|] len2]; cbn; by eexists.
          - unfold geom_start. destruct (poly_param _ _ _ _ _ _ prange len') as [[p|] len2]; cbn; by eexists. }
        by exists len'. }
    destruct Hlen as (len' & -> & Hlen).
    destruct Hpr as [->| ->].
    - exists 1, (RInt (poly_integrand bu cu du bv cv dv) 0 1), (atan2R (poly3' bv cv dv 1) (poly3' bu cu du 1)).
      split. { left. split; [done|]. split; [done|]. apply RInt_ext. intros t _. by rewrite (integrand_speed rstr). }
      cbv zeta. rewrite Hu Hv. split; [|split; [symmetry; apply atan2_polar|split; [symmetry; apply atan2_polar|apply atan2_range]]].
      cbn. do 2 f_equal. f_equal. rewrite /poly3 /u /v. cbn. f_equal; ring.
    - destruct (Hlen eq_refl) as [-> Hl]. destruct length as [L|]; [|done].
      exists L, L, (atan2R (poly3' bv cv dv L) (poly3' bu cu du L)).
      split. { by right. }
      cbv zeta. rewrite Hu Hv. split; [|split; [symmetry; apply atan2_polar|split; [symmetry; apply atan2_polar|apply atan2_range]]].
      cbn. do 2 f_equal. f_equal. rewrite /poly3 /u /v. cbn. f_equal; ring.
  Qed.
End RealGeometry.

Print Assumptions C01_line_end.
Print Assumptions C02_arc_end.
Print Assumptions C02_arc_first_use.
Print Assumptions C03_spiral_end.
Print Assumptions C04_reverse_inverts.
Print Assumptions C04_parampoly3_refuted.
Print Assumptions C05_parampoly3_end.
