(** * C45 over exact reals: the heading change of create_cloth_arc_cloth *)
From Coq Require Import Reals Lra ssreflect.
From Coquelicot Require Import Coquelicot.
From Verif.Model Require Import Api.
From Verif.Inst Require Import Real.
From Verif.Spec Require Import SpecState SpecGeometry SpecPlanView SpecChain SpecGenerate.
From Verif.Proof Require Import Monad DrivesFacts GeomReal PlanViewFacts PlanViewReal Invariants.
From Verif.Properties Require Import PPlanView PHistory PGenerators.
Local Open Scope general_if_scope.
Local Open Scope nat_scope.

(** ** C45 over exact reals *)
Section RealCloth.
  Context (rstr : R -> string).
  Local Instance rnc : Num R := RNum rstr.
  Open Scope R_scope.

  (** the curvature does not jump between two records *)
  Fixpoint curvature_continuous (geo : ref → geom R) (rs : list (pgeom R)) : Prop :=
    match rs with
    | r1 :: ((r2 :: _) as rs') => (∃ L1 L2, pg_length r1 = Some L1 ∧ pg_length r2 = Some L2 ∧
        record_curvature (geo (pg_geom r1)) L1 L1 = record_curvature (geo (pg_geom r2)) L2 0) ∧ curvature_continuous geo rs'
    | _ => True
    end.

  Lemma spiral_heading k0 k1 L p q : L ≠ 0 → drives (spiral_curvature k0 k1 L) L p q → q.2 = p.2 + (k0 + k1) / 2 * L.
  Proof.
    intros HL (X & Y & T & H0 & H1 & Hd). rewrite -H0 -H1. cbn.
    rewrite (same_derive T (fun u => T 0 + k0 * u + (k1 - k0) * u ^ 2 / (2 * L)) (spiral_curvature k0 k1 L)).
    - field. done.
    - intros u. apply Hd.
    - intros u. unfold spiral_curvature. auto_derive; [done|]. field. done.
    - cbn. field. done.
  Qed.
  Lemma arc_heading k L p q : drives (arc_curvature k) L p q → q.2 = p.2 + k * L.
  Proof.
    intros (X & Y & T & H0 & H1 & Hd). rewrite -H0 -H1. cbn.
    rewrite (same_derive T (fun u => T 0 + k * u) (arc_curvature k)).
    - ring.
    - intros u. apply Hd.
    - intros u. unfold arc_curvature. auto_derive; [done|]. ring.
    - cbn. ring.
  Qed.

  (** 1 to the left, -1 to the right *)
  Definition direction (curv ca : R) : R := if Rlt_dec 0 curv then (if Rlt_dec 0 ca then 1 else -1) else -1.

  (** The road turns by the arc angle plus twice the clothoid angle, the latter scaled by 1 + cloth_start / curvature; to the left
      exactly when both the curvature and the clothoid angle are positive.  This holds wherever the road is placed, and from
      whichever end. *)
  Theorem C45_turns h curv aa ca id junction cs n w x y t (from_end : bool) : reachable h →
    curv ≠ 0 → aa ≠ 0 → ca ≠ 0 → Rabs cs <= Rabs curv →
    ∃ r h1 h2, step (OpCreateClothArcCloth curv aa ca id junction cs n w) h = (Ok (RRef r), h1) ∧
      (let pv := rd_planview (h_road h1 !!! r) in
      h2 = run h1 [OpSetStartPoint pv x y t; OpAdjustGeometries pv from_end] ∧
      let p := h_pv h2 !!! pv in
      let geo := λ g, h_geom h2 !!! g in
      let travelled := if from_end then rev (pv_geoms p) else pv_geoms p in
      ∃ start stop, pv_start p = Some start ∧ pv_end p = Some stop ∧
        (if from_end then stop = turned (x, y, t) else start = (x, y, t)) ∧
        consistent geo start travelled stop ∧ curvature_continuous geo travelled ∧
        stop.2 = start.2 + direction curv ca * (Rabs aa + 2 * (1 + cs / curv) * Rabs ca)).
  Proof.
    intros Hr Hk Haa Hca Hcs.
    set (k := directed curv ca curv). set (cs' := directed curv ca cs).
    assert (Hsg : k = direction curv ca * Rabs curv ∧ cs' / k = cs / curv ∧ Rabs k = Rabs curv ∧ k ≠ 0).
    { unfold k, cs', directed, direction. cbn. destruct (Rlt_dec ca 0) as [H1|H1], (Rlt_dec 0 curv) as [H2|H2], (Rlt_dec 0 ca) as [H3|H3]; cbn; try lra.
      all: rewrite ?Rabs_Ropp; try (rewrite (Rabs_left curv); [|lra]); try (rewrite (Rabs_right curv); [|lra]); split_and!; try lra; field; lra. }
    destruct Hsg as (Hsg & Hrat & Habs & Hk0).
    assert (Hz : fiszero k = false) by (by apply iszero_false).
    destruct (C45_create_cloth_arc_cloth h curv aa ca id junction cs n w Hr Hz) as (r & h1 & g1 & g2 & g3 & E & U & (N1 & N2 & N3) & E1 & E2 & E3 & HR).
    set (ca' := directed curv ca ca) in *. set (aa' := directed curv ca aa) in *. fold k cs' in E1, E2, E3.
    assert (Hab : ∀ z, Rabs (directed curv ca z) = Rabs z) by (intros z; unfold directed; destruct (_ && _); [apply Rabs_Ropp|done]).
    set (L := 2 * Rabs ca / Rabs curv).
    assert (Hap : 0 < Rabs curv) by by apply Rabs_pos_lt. assert (Hcp : 0 < Rabs ca) by by apply Rabs_pos_lt.
    assert (HL0 : 0 < L) by (apply Rdiv_lt_0_compat; lra).
    assert (Hca0 : ftruthy (F:=R) ca' = true).
    { apply truthy_true. intros E0. specialize (Hab ca). fold ca' in Hab. rewrite E0 Rabs_R0 in Hab. lra. }
    assert (Hsp1 : h_geom h1 !!! g1 = GSpiral cs' k (Some L)).
    { revert E1. unfold mk_spiral. unfold ftruthy_opt. rewrite Hca0. cbn. intros [= ->]. do 2 f_equal. rewrite Hab Habs Hab.
      rewrite Rmax_left //. }
    assert (Hsp3 : h_geom h1 !!! g3 = GSpiral k cs' (Some L)).
    { revert E3. unfold mk_spiral. unfold ftruthy_opt. rewrite Hca0. cbn. intros [= ->]. do 2 f_equal. rewrite Hab Habs Hab.
      rewrite Rmax_right //. }
    clear E1 E3. rename E2 into Harc.
    destruct HR as (pv & ls & sec & s & _ & _ & _ & _ & Hroad & Hpv & _).
    assert (Epv : rd_planview (h_road h1 !!! r) = pv) by by rewrite (lookup_total_correct _ _ _ Hroad).
    set (p0 := mkPlanview x y t 0 false None None [g1; g2; g3] [] [] false : planview R).
    pose (h1' := h1 <| h_pv := <[pv := p0]> (h_pv h1) |>).
    assert (Es : step (OpSetStartPoint pv x y t) h1 = (Ok RNone, h1')).
    { unfold step. rewrite (guarded_true (has h_pv pv) _ h1 (has_true _ _ _ (mk_is_Some _ _ Hpv))). apply as_unit_ok. unfold pv_set_start_point, upd_pv, modify.
      rewrite (lookup_total_correct _ _ _ Hpv). done. }
    assert (Hp0 : h_pv h1' !!! pv = p0) by (unfold h1'; cbn; apply lookup_total_insert).
    assert (Hn : ∀ g, g ∈ pv_raw (h_pv h1' !!! pv) → nondegenerate (h_geom h1' !!! g)).
    { rewrite Hp0. intros g Hg. change (h_geom h1') with (h_geom h1). cbn in Hg. rewrite !elem_of_cons elem_of_nil in Hg.
      destruct Hg as [->|[->|[->|[]]]]; [rewrite Hsp1|rewrite Harc|rewrite Hsp3]; cbn; [lra| |lra].
      split; [done|]. intros E0. specialize (Hab aa). fold aa' in Hab. rewrite E0 Rabs_R0 in Hab. pose proof (Rabs_pos_lt aa Haa). lra. }
    destruct (adjust_geometries_run pv from_end h1') as [h2 Ha].
    { apply Forall_forall. intros g Hg. by apply (nondegenerate_placeable rstr), Hn. }
    { right; left. by rewrite Hp0. }
    exists r, h1, h2. split; [exact E|]. rewrite Epv. cbv zeta. split.
    { assert (Es2 : step (OpAdjustGeometries pv from_end) h1' = (Ok RNone, h2)).
      { unfold step. etrans; [apply guarded_true, has_true; eexists; apply lookup_insert|by apply as_unit_ok]. }
      unfold run. cbn [foldl]. rewrite Es. change (h2 = (step (OpAdjustGeometries pv from_end) h1').2). by rewrite Es2. }
    assert (Hfr : geo_frame pv h1' h2) by (eapply pres_ok; [apply gf_adjust_geometries|exact Ha]).
    assert (Hsh : ∀ g, g ∈ [g1; g2; g3] → ∀ l, record_curvature (h_geom h2 !!! g) l = record_curvature (h_geom h1 !!! g) l).
    { intros g Hg l. symmetry. apply same_shape_curvature. eapply nondegenerate_shape; [exact (gf_geom _ _ _ Hfr g)|]. apply Hn. by rewrite Hp0. }
    assert (Hf : fresh_pv (h_pv h1' !!! pv)) by (by rewrite Hp0).
    assert (Ho : pv_over (h_pv h1' !!! pv) = []) by (by rewrite Hp0).
    pose proof (C10_recorded_lengths rstr h1' h2 pv from_end Hf Ho Hn Ha) as Hlen.
    set (p := h_pv h2 !!! pv) in *.
    assert (∃ start stop, pv_start p = Some start ∧ pv_end p = Some stop ∧ (if from_end then stop = turned (x, y, t) else start = (x, y, t)) ∧
      consistent (λ g, h_geom h2 !!! g) start (if from_end then rev (pv_geoms p) else pv_geoms p) stop ∧
      map pg_geom (if from_end then rev (pv_geoms p) else pv_geoms p) = [g1; g2; g3]) as (start & stop & P1 & P2 & P3 & Hc & Hm).
    { destruct from_end.
      - destruct (C08_backward_consistent rstr h1' h2 pv Hf Hn Ha) as (q & Q1 & Q2 & Q3 & Q4). rewrite Hp0 in Q1, Q2, Q4. fold p in Q1, Q2, Q3, Q4.
        exists q, (turned (x, y, t)). split_and!; try done. by rewrite map_rev.
      - destruct (C07_forward_consistent rstr h1' h2 pv Hf Ho Hn Ha) as (q & Q1 & _ & Q2 & Q3 & Q4). rewrite Hp0 in Q1, Q2, Q3. fold p in Q1, Q2, Q3, Q4.
        exists (x, y, t), q. split_and!; done. }
    exists start, stop.
    assert (Hlr : ∀ rr, rr ∈ (if from_end then rev (pv_geoms p) else pv_geoms p) → pg_length rr = Some (nominal_length (h_geom h1 !!! pg_geom rr))).
    { intros rr Hrr. apply Hlen. clear -Hrr. destruct from_end; [exact (proj1 (elem_of_rev _ _) Hrr)|done]. }
    set (rs := if from_end then rev (pv_geoms p) else pv_geoms p) in *. clearbody rs.
    split_and!; try done.
    all: destruct rs as [|r1 [|r2 [|r3 [|]]]]; try done; injection Hm as G1 G2 G3.
    all: pose proof (Hlr r1 ltac:(set_solver)) as L1; pose proof (Hlr r2 ltac:(set_solver)) as L2; pose proof (Hlr r3 ltac:(set_solver)) as L3.
    all: rewrite G1 Hsp1 in L1; rewrite G2 Harc in L2; rewrite G3 Hsp3 in L3; cbn in L1, L2, L3.
    all: pose proof (Hsh g1 ltac:(set_solver)) as S1; pose proof (Hsh g2 ltac:(set_solver)) as S2; pose proof (Hsh g3 ltac:(set_solver)) as S3.
    all: rewrite Hsp1 in S1; rewrite Harc in S2; rewrite Hsp3 in S3; cbn in S1, S2, S3.
    - cbn. split; [|split; [|done]].
      + exists L, (Rabs (aa' / k)). split; [done|]. split; [done|]. rewrite G1 G2 S1 S2. unfold spiral_curvature, arc_curvature. field. lra.
      + exists (Rabs (aa' / k)), L. split; [done|]. split; [done|]. rewrite G2 G3 S2 S3. unfold spiral_curvature, arc_curvature. field. lra.
    - inversion Hc as [|? ? l1 q1 ? K1 D1 Hc1]; subst. inversion Hc1 as [|? ? l2 q2 ? K2 D2 Hc2]; subst.
      inversion Hc2 as [|? ? l3 q3 ? K3 D3 Hc3]; subst. inversion Hc3; subst.
      rewrite K1 in L1; rewrite K2 in L2; rewrite K3 in L3. injection L1 as ->. injection L2 as ->. injection L3 as ->.
      rewrite S1 in D1. rewrite S2 in D2. rewrite S3 in D3.
      apply spiral_heading in D1; [|lra]. apply arc_heading in D2. apply spiral_heading in D3; [|lra].
      rewrite D3 D2 D1. cbn.
      assert (EL : L = 2 * Rabs ca / Rabs k) by by rewrite Habs.
      assert (EA : Rabs (aa' / k) = Rabs aa / Rabs k) by (unfold Rdiv; rewrite Rabs_mult Rabs_inv Hab //).
      assert (Ecs : cs' = cs / curv * k) by (rewrite -Hrat; field; done).
      rewrite EA EL Ecs -Hrat. rewrite Hrat.
      assert (Ed : k / Rabs k = direction curv ca) by (rewrite Habs Hsg; field; lra).
      rewrite -Ed. field. rewrite Habs. lra.
  Qed.

  (** with cloth_start = 0 and positive arguments: exactly arc_angle + 2 * clothoid angle *)
  Corollary C45_exact h curv aa ca id junction n w x y t : reachable h → 0 < curv → 0 < aa → 0 < ca →
    ∃ r h1 h2 start stop, step (OpCreateClothArcCloth curv aa ca id junction 0 n w) h = (Ok (RRef r), h1) ∧
      h2 = run h1 [OpSetStartPoint (rd_planview (h_road h1 !!! r)) x y t; OpAdjustGeometries (rd_planview (h_road h1 !!! r)) false] ∧
      pv_start (h_pv h2 !!! rd_planview (h_road h1 !!! r)) = Some start ∧ pv_end (h_pv h2 !!! rd_planview (h_road h1 !!! r)) = Some stop ∧
      start = (x, y, t) ∧ stop.2 = start.2 + (aa + 2 * ca).
  Proof.
    intros Hr Hk Haa Hca.
    destruct (C45_turns h curv aa ca id junction 0 n w x y t false Hr) as (r & h1 & h2 & E & E2 & start & stop & P1 & P2 & P3 & _ & _ & P4); try lra.
    { rewrite Rabs_R0. apply Rabs_pos. }
    exists r, h1, h2, start, stop. split_and!; try done. rewrite P4. unfold direction. destruct (Rlt_dec 0 curv); [|lra]. destruct (Rlt_dec 0 ca); [|lra].
    rewrite !Rabs_right; [|lra|lra]. field. lra.
  Qed.
  (** the hypotheses are met from the empty program on *)
  Example C45_example : ∃ r h1, step (OpCreateClothArcCloth (1 / 10) (PI / 4) (PI / 8) (PInt 1) (-1) (1 / 1000) 2 3) (heap_init (F:=R)) = (Ok (RRef r), h1).
  Proof.
    have HP := PI_RGT_0.
    destruct (C45_turns heap_init (1 / 10) (PI / 4) (PI / 8) (PInt 1) (-1) (1 / 1000) 2 3 0 0 0 true) as (r & h1 & h2 & E & _); try lra; [by exists []| |by eauto].
    rewrite !Rabs_right; lra.
  Qed.
End RealCloth.
