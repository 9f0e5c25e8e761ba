(** Calculus behind Arc and EulerSpiral: the closed formulas of geometry.py solve the driving equations. *)
From Coq Require Import Reals Lra ssreflect.
From Coquelicot Require Import Coquelicot.
From Verif.Spec Require Import SpecGeometry.
From Verif.Inst Require Import Real.
Open Scope R_scope.
Local Open Scope general_if_scope.

Lemma fresnelC_derive z : is_derive fresnelC z (cos (PI / 2 * z ^ 2)).
Proof.
  rewrite /fresnelC. apply: (is_derive_RInt (fun t => cos (PI / 2 * t ^ 2)) _ 0).
  - apply filter_forall => b. apply: RInt_correct. apply: ex_RInt_continuous => t _.
    apply: ex_derive_continuous. auto_derive. done.
  - apply: ex_derive_continuous. auto_derive. done.
Qed.

Lemma fresnelS_derive z : is_derive fresnelS z (sin (PI / 2 * z ^ 2)).
Proof.
  rewrite /fresnelS. apply: (is_derive_RInt (fun t => sin (PI / 2 * t ^ 2)) _ 0).
  - apply filter_forall => b. apply: RInt_correct. apply: ex_RInt_continuous => t _.
    apply: ex_derive_continuous. auto_derive. done.
  - apply: ex_derive_continuous. auto_derive. done.
Qed.

Lemma drives_line L x y h :
  drives line_curvature L (x, y, h) (L * cos h + x, L * sin h + y, h).
Proof.
  exists (fun u => u * cos h + x), (fun u => u * sin h + y), (fun _ => h).
  split; [by rewrite !Rmult_0_l !Rplus_0_l|]. split; [done|] => u.
  split; [|split].
  - auto_derive; [done|ring].
  - auto_derive; [done|ring].
  - apply: is_derive_const.
Qed.

(** Arc: with centre angle phi0 = h -+ PI/2 *)
Lemma drives_arc c L x y h :
  c <> 0 ->
  let radius := 1 / Rabs c in
  let phi := if Rlt_dec c 0 then h + PI / 2 else h - PI / 2 in
  drives (arc_curvature c) L (x, y, h)
    (cos (L * c + phi) * radius + (x - cos phi * radius),
     sin (L * c + phi) * radius + (y - sin phi * radius), h + L * c).
Proof.
  move=> Hc radius phi.
  exists (fun u => cos (u * c + phi) * radius + (x - cos phi * radius)),
    (fun u => sin (u * c + phi) * radius + (y - sin phi * radius)), (fun u => h + u * c).
  split; [rewrite !Rmult_0_l !Rplus_0_l Rplus_0_r; f_equal; f_equal; ring|].
  split; [done|] => u. rewrite /phi /radius. split; [|split].
  - auto_derive; [done|]. destruct (Rlt_dec c 0) as [H|H].
    + have E : u * c + (h + PI / 2) = PI / 2 + (h + u * c) by ring.
      rewrite E -cos_sin. rewrite Rabs_left //. field. lra.
    + have E : u * c + (h + - (PI / 2)) = - (PI / 2 - (h + u * c)) by ring.
      rewrite E sin_neg sin_shift. rewrite Rabs_right; [|lra]. field. lra.
  - auto_derive; [done|]. destruct (Rlt_dec c 0) as [H|H].
    + have E : u * c + (h + PI / 2) = PI / 2 + (h + u * c) by ring.
      rewrite E (sin_cos (h + u * c)). rewrite Rabs_left //. field. lra.
    + have E : u * c + (h + - (PI / 2)) = - (PI / 2 - (h + u * c)) by ring.
      rewrite E cos_neg cos_shift. rewrite Rabs_right; [|lra]. field. lra.
  - rewrite /arc_curvature. auto_derive; [done|ring].
Qed.

(** EulerSpiral.calc, general branch *)
Lemma drives_euler g k0 s x y t :
  g <> 0 ->
  let za := fun u => (k0 + g * u) / sqrt (PI * Rabs g) in
  let zb := k0 / sqrt (PI * Rabs g) in
  let A := sqrt (PI / Rabs g) in
  let phi := t - k0 ^ 2 / 2 / g in
  let re := signR g * (fresnelC (za s) - fresnelC zb) in
  let im := fresnelS (za s) - fresnelS zb in
  drives (fun u => k0 + g * u) s (x, y, t)
    (x + (A * cos phi * re - A * sin phi * im),
     y + (A * cos phi * im + A * sin phi * re),
     g * s ^ 2 / 2 + k0 * s + t).
Proof.
  move=> Hg za zb A phi re im.
  have Hpi := PI_RGT_0.
  have Hag : 0 < Rabs g by apply Rabs_pos_lt.
  have Hq : 0 < PI * Rabs g by apply Rmult_lt_0_compat.
  have Hsq : 0 < sqrt (PI * Rabs g) by apply sqrt_lt_R0.
  have HA : A / sqrt (PI * Rabs g) = / Rabs g.
  { rewrite /A sqrt_div_alt // sqrt_mult; try lra.
    have := sqrt_lt_R0 PI Hpi. have := sqrt_lt_R0 _ Hag => H1 H2.
    rewrite -{3}(sqrt_sqrt (Rabs g)); [|lra]. field. lra. }
  have Hw : forall u, PI / 2 * (za u) ^ 2 = (k0 + g * u) ^ 2 / (2 * Rabs g).
  { move=> u. rewrite /za.
    have E : (k0 + g * u) / sqrt (PI * Rabs g) = (k0 + g * u) * / sqrt (PI * Rabs g) by [].
    rewrite E Rpow_mult_distr pow_inv pow2_sqrt; [|lra]. field. lra. }
  have Hsg : signR g * signR g = 1 /\ signR g * g = Rabs g.
  { rewrite /signR. case: Rlt_dec => H1; [|case: Rlt_dec => H2; [|lra]].
    - rewrite Rabs_right; lra.
    - rewrite Rabs_left; lra. }
  have Hang : forall u, phi + signR g * ((k0 + g * u) ^ 2 / (2 * Rabs g)) = g * u ^ 2 / 2 + k0 * u + t.
  { move=> u. rewrite -(proj2 Hsg) /phi.
    have Hs0 : signR g <> 0 by move: (proj1 Hsg) => H0 H1; rewrite H1 in H0; lra.
    field. lra. }
  have HdC : forall u, is_derive (fun u => fresnelC (za u)) u (cos ((k0 + g * u) ^ 2 / (2 * Rabs g)) * (g / sqrt (PI * Rabs g))).
  { move=> u. rewrite -Hw Rmult_comm.
    apply: (is_derive_comp fresnelC za u). apply fresnelC_derive.
    rewrite /za. auto_derive; [done|]. field. lra. }
  have HdS : forall u, is_derive (fun u => fresnelS (za u)) u (sin ((k0 + g * u) ^ 2 / (2 * Rabs g)) * (g / sqrt (PI * Rabs g))).
  { move=> u. rewrite -Hw Rmult_comm.
    apply: (is_derive_comp fresnelS za u). apply fresnelS_derive.
    rewrite /za. auto_derive; [done|]. field. lra. }
  have HAg : A * (g / sqrt (PI * Rabs g)) = signR g.
  { have -> : A * (g / sqrt (PI * Rabs g)) = A / sqrt (PI * Rabs g) * g by field; lra.
    rewrite HA -(proj2 Hsg).
    have Hs0 : signR g <> 0 by move: (proj1 Hsg) => H0 H1; rewrite H1 in H0; lra.
    have : / (signR g * g) * g = / signR g by field.
    move=> ->. apply Rmult_eq_reg_l with (signR g) => //. rewrite (proj1 Hsg). by field. }
  exists (fun u => x + (A * cos phi * (signR g * (fresnelC (za u) - fresnelC zb)) - A * sin phi * (fresnelS (za u) - fresnelS zb))),
    (fun u => y + (A * cos phi * (fresnelS (za u) - fresnelS zb) + A * sin phi * (signR g * (fresnelC (za u) - fresnelC zb)))),
    (fun u => g * u ^ 2 / 2 + k0 * u + t).
  split; [|split; [done|] => u; split; [|split]].
  - have -> : za 0 = zb by rewrite /za /zb Rmult_0_r Rplus_0_r.
    f_equal; [f_equal; ring|field].
  - rewrite -Hang cos_plus.
    set w := (k0 + g * u) ^ 2 / (2 * Rabs g).
    have -> : cos (signR g * w) = cos w.
    { rewrite /signR. case: Rlt_dec => H1; [by rewrite Rmult_1_l|case: Rlt_dec => H2; [|lra]].
      rewrite (_ : -1 * w = - w); [|ring]. by rewrite cos_neg. }
    have -> : sin (signR g * w) = signR g * sin w.
    { rewrite /signR. case: Rlt_dec => H1; [by rewrite !Rmult_1_l|case: Rlt_dec => H2; [|lra]].
      rewrite (_ : -1 * w = - w); [|ring]. rewrite sin_neg; ring. }
    evar_last.
    { apply: is_derive_plus; [apply: is_derive_const|].
      apply: is_derive_minus; apply: is_derive_scal.
      - apply: is_derive_scal. apply: is_derive_minus; [apply HdC|apply: is_derive_const].
      - apply: is_derive_minus; [apply HdS|apply: is_derive_const]. }
    rewrite /plus /minus /opp /zero /plus /= /opp /= -/w.
    have -> : 0 + (A * cos phi * (signR g * (cos w * (g / sqrt (PI * Rabs g)) + - 0)) +
       - (A * sin phi * (sin w * (g / sqrt (PI * Rabs g)) + - 0)))
       = cos phi * cos w * signR g * (A * (g / sqrt (PI * Rabs g))) - sin phi * sin w * (A * (g / sqrt (PI * Rabs g))) by ring.
    rewrite HAg. have -> : cos phi * cos w * signR g * signR g = cos phi * cos w * (signR g * signR g) by ring.
    rewrite (proj1 Hsg). ring.
  - rewrite -Hang sin_plus.
    set w := (k0 + g * u) ^ 2 / (2 * Rabs g).
    have -> : cos (signR g * w) = cos w.
    { rewrite /signR. case: Rlt_dec => H1; [by rewrite Rmult_1_l|case: Rlt_dec => H2; [|lra]].
      rewrite (_ : -1 * w = - w); [|ring]. by rewrite cos_neg. }
    have -> : sin (signR g * w) = signR g * sin w.
    { rewrite /signR. case: Rlt_dec => H1; [by rewrite !Rmult_1_l|case: Rlt_dec => H2; [|lra]].
      rewrite (_ : -1 * w = - w); [|ring]. rewrite sin_neg; ring. }
    evar_last.
    { apply: is_derive_plus; [apply: is_derive_const|].
      apply: is_derive_plus; apply: is_derive_scal.
      - apply: is_derive_minus; [apply HdS|apply: is_derive_const].
      - apply: is_derive_scal. apply: is_derive_minus; [apply HdC|apply: is_derive_const]. }
    rewrite /plus /minus /opp /zero /plus /= /opp /= -/w.
    have -> : 0 + (A * cos phi * (sin w * (g / sqrt (PI * Rabs g)) + - 0) +
        (A * sin phi * (signR g * (cos w * (g / sqrt (PI * Rabs g)) + - 0))))
       = cos phi * sin w * (A * (g / sqrt (PI * Rabs g))) + sin phi * cos w * signR g * (A * (g / sqrt (PI * Rabs g))) by ring.
    rewrite HAg. have -> : sin phi * cos w * signR g * signR g = sin phi * cos w * (signR g * signR g) by ring.
    rewrite (proj1 Hsg). ring.
  - auto_derive; [done|]. field.
Qed.
