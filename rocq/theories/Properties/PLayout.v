(** * C55: if the links of a network fit together in some layout, that layout is found *)
From Coq Require Import Reals Lra ssreflect.
From Coquelicot Require Import Coquelicot.
From Verif.Model Require Import Api.
From Verif.Inst Require Import Real.
From Verif.Spec Require Import SpecState SpecLayout SpecHistory.
From Verif.Proof Require Import Monad DictFacts PlanViewFacts PlanViewReal NetFrame Network Layout.
From Verif.Properties Require Import PNetwork.
Local Unset SsrOldRewriteGoalsOrder.
Local Open Scope general_if_scope.
Local Open Scope nat_scope.

Section Layouts.
  Context (rstr : R -> string).
  Local Instance rn : Num R := RNum rstr.
  Implicit Types (h : heap R) (o : road) (P : layout).

  (** lines, arcs and spirals, not degenerate, without heading overrides *)
  Definition plain_courses h d : Prop := ∀ k o, road_named h d k = Some o → pv_over (view h o) = [] ∧ ∀ g, g ∈ pv_raw (view h o) → nondegenerate (h_geom h !!! g).

  (** ** C55 *)
  Theorem C55_found d h h' P : fresh_network h d → plain_courses h d → fits rstr h d P → adjust_startpoints d h = (Ok tt, h') →
    ∀ k o, road_named h d k = Some o →
      ∃ ps pe, pv_start (view h' o) = Some ps ∧ pv_end (view h' o) = Some pe ∧ same_pose (P k).1 ps ∧ same_pose (P k).2 pe.
  Proof.
    intros Hf Hc HP E. destruct (C15_attached d h h' Hf E) as (ord & Hperm & Hord).
    assert (G : ∀ n pre k suf o, length pre = n → ord = pre ++ k :: suf → road_named h d k = Some o → placed_as (view h' o) (P k)).
    { intros n. induction (lt_wf n) as [n _ IH]. intros pre k suf o Hn Hk Ho. destruct (Hc k o Ho) as [Hov Hnd]. pose proof (fit_course _ _ _ _ HP k o Ho) as Ha.
      destruct (Hord pre k suf Hk) as [[Hr (o' & Ho' & Hput)]|(k2 & Hk2 & Hatt)].
      - assert (o' = o) as -> by congruence. eapply forward_placed; [exact Hov|exact Hnd|exact Ha|exact Hput|]. by apply (fit_root _ _ _ _ HP).
      - assert (H2 : ∀ o2, road_named h d k2 = Some o2 → placed_as (view h' o2) (P k2)).
        { intros o2 Ho2. apply elem_of_list_split in Hk2 as (a & b & ->). apply (IH (length a)) with (pre := a) (suf := b ++ k :: suf); [|done| |done].
          - rewrite -Hn app_length /=. lia.
          - by rewrite Hk -app_assoc. }
        destruct Hatt as [o' o2 L cp q A1 A2 A3 A4 A5 A6 A7 A8|o' o2 L cp q A1 A2 A3 A4 A5 A6 A7 A8|o' o2 L q A1 A2 A3 A4 A5 A6 A7|o' o2 L q A1 A2 A3 A4 A5 A6 A7];
          assert (o' = o) as -> by congruence.
        + pose proof (fit_link _ _ _ _ HP k o cp_start L cp Ho A3 A4 A6) as Hm. rewrite A5 in Hm.
          by eapply (attached_placed rstr h P k o cp_start k2 cp); eauto.
        + pose proof (fit_link _ _ _ _ HP k o cp_end L cp Ho A3 A4 A6) as Hm. rewrite A5 in Hm.
          by eapply (attached_placed rstr h P k o cp_end k2 cp); eauto.
        + pose proof (fit_conn _ _ _ _ HP k o k2 o2 cp_end L Ho A2 A3 A4 A5) as Hm.
          eapply (attached_placed rstr h P k o _ k2 cp_end); [done|done|done|exact Hm|by apply H2|exact A6|]. by case_bool_decide.
        + pose proof (fit_conn _ _ _ _ HP k o k2 o2 cp_start L Ho A2 A3 A4 A5) as Hm.
          eapply (attached_placed rstr h P k o _ k2 cp_start); [done|done|done|exact Hm|by apply H2|exact A6|]. by case_bool_decide. }
    intros k o Ho. assert (Hk : k ∈ ord) by (rewrite Hperm; apply (keys_named h d); by eexists).
    apply elem_of_list_split in Hk as (a & b & Hk). exact (G (length a) a k b o eq_refl Hk Ho).
  Qed.

  (** the layout that the roads have in a state *)
  Definition measured h d : layout := λ k, match road_named h d k with
    | Some o => (default (0, 0, 0)%R (pv_start (view h o)), default (0, 0, 0)%R (pv_end (view h o)))
    | None => ((0, 0, 0)%R, (0, 0, 0)%R)
    end.
  Lemma same_outward P P' k c : same_pose (P k).1 (P' k).1 → same_pose (P k).2 (P' k).2 → same_pose (outward P k c) (outward P' k c).
  Proof. intros H1 H2. destruct c; simpl; [by apply same_turned|done]. Qed.
  (** So all links fit in the result, not only those along which the roads were placed. *)
  Theorem C55_links_fit d h h' P : fresh_network h d → plain_courses h d → fits rstr h d P → adjust_startpoints d h = (Ok tt, h') →
    ∀ k o c L c2, road_named h d k = Some o → link_at o c = Some L → lk_etype L ≠ Some et_junction → lk_contact L = Some c2 → is_Some (road_named h d (pystr (lk_id L))) →
      meets (measured h' d) k o c (pystr (lk_id L)) c2.
  Proof.
    intros Hf Hc HP E k o c L c2 Ho HL Ht Hc2 [o2 Ho2].
    assert (Hnf : net_frame d h h') by (change h' with (Ok tt, h').2; rewrite -E; apply nf_adjust_startpoints).
    assert (HM : ∀ k o, road_named h d k = Some o → same_pose (P k).1 (measured h' d k).1 ∧ same_pose (P k).2 (measured h' d k).2).
    { intros k' o' Ho'. unfold measured. rewrite (road_named_frame h h' d); [apply Hnf..|]. rewrite Ho'.
      destruct (C55_found d h h' P Hf Hc HP E k' o' Ho') as (ps & pe & -> & -> & H1 & H2). done. }
    pose proof (fit_link _ _ _ _ HP k o c L c2 Ho HL Ht Hc2) as Hm. unfold meets in *.
    destruct (HM k o Ho) as [S1 S2], (HM _ _ Ho2) as [T1 T2].
    eapply same_trans; [apply same_sym, same_turned, same_outward; [exact S1|exact S2]|].
    eapply same_trans; [exact Hm|]. apply same_to_left. by apply same_outward.
  Qed.
  (** connected networks (C18) for which a layout exists are laid out this way *)
  Corollary C55_connected d h P : fresh_network h d → plain_courses h d → fits rstr h d P → well_linked h d → connects_ordinary h d → net_keys h d ≠ [] →
    (∀ k, k ∈ net_keys h d → anchored h d k) →
    ∃ h', adjust_startpoints d h = (Ok tt, h') ∧
      ∀ k o, road_named h d k = Some o → ∃ ps pe, pv_start (view h' o) = Some ps ∧ pv_end (view h' o) = Some pe ∧ same_pose (P k).1 ps ∧ same_pose (P k).2 pe.
  Proof.
    intros Hf Hc HP Hw Ho Hn Ha. destruct (C18_connected d h Hf Hw Ho Hn Ha) as [h' E]. exists h'. split; [done|]. by apply (C55_found d h h' P).
  Qed.
  (** and the order in which the roads were added to the OpenDrive object does not matter *)
  Theorem C55_order d1 d2 h h1 h2 P : fresh_network h d1 → od_roads (h_odr h !!! d1) ≡ₚ od_roads (h_odr h !!! d2) → (∀ k, root h d1 k ↔ root h d2 k) →
    plain_courses h d1 → fits rstr h d1 P → adjust_startpoints d1 h = (Ok tt, h1) → adjust_startpoints d2 h = (Ok tt, h2) →
    ∀ k o, road_named h d1 k = Some o → ∃ ps1 pe1 ps2 pe2, pv_start (view h1 o) = Some ps1 ∧ pv_end (view h1 o) = Some pe1 ∧
      pv_start (view h2 o) = Some ps2 ∧ pv_end (view h2 o) = Some pe2 ∧ same_pose ps1 ps2 ∧ same_pose pe1 pe2.
  Proof.
    intros Hf Hp Hr Hc HP E1 E2.
    assert (Hn : ∀ k, road_named h d2 k = road_named h d1 k).
    { intros k. unfold road_named. f_equal. apply dict_get_perm; [by symmetry|]. pose proof (fn_keys _ _ Hf) as Hnd. unfold net_keys in Hnd. by rewrite -Hp. }
    assert (Hf2 : fresh_network h d2).
    { destruct Hf as [A B C]. split.
      - unfold net_keys in *. by rewrite -Hp.
      - intros k1 k2 o1 o2. rewrite !Hn. apply B.
      - intros k o. rewrite Hn. apply C. }
    assert (Hc2 : plain_courses h d2) by (intros k o; rewrite Hn; apply Hc).
    assert (HP2 : fits rstr h d2 P).
    { destruct HP as [A B C D]. split.
      - intros k o. rewrite Hn. apply A.
      - intros k o. rewrite Hn -Hr. apply B.
      - intros k o c L c2. rewrite Hn. apply C.
      - intros k o k2 o2 c2 L. rewrite !Hn. apply D. }
    intros k o Ho. destruct (C55_found d1 h h1 P Hf Hc HP E1 k o Ho) as (ps1 & pe1 & S1 & T1 & U1 & V1).
    destruct (C55_found d2 h h2 P Hf2 Hc2 HP2 E2 k o) as (ps2 & pe2 & S2 & T2 & U2 & V2); [by rewrite Hn|].
    exists ps1, pe1, ps2, pe2. split_and!; [done..| |]; (eapply same_trans; [apply same_sym; eassumption|eassumption]).
  Qed.
End Layouts.

(** ** Non-vacuity: a ring of two half circles, the first one fixed *)
Section RingHeap.
  Context {F : Type} `{!Num F} (zero one p : F).
  Definition two_arcs : list (op F) := [OpArc one None (Some p); OpArc one None (Some p)].
  Definition ring_roads : list (op F) :=
    [OpPlanView (Some zero) (Some zero) (Some zero); OpAddGeometry 2 0 None; OpLanes; OpRoad (PInt 1) 2 3 (-1) None None;
     OpPlanView None None None; OpAddGeometry 5 1 None; OpLanes; OpRoad (PInt 2) 5 6 (-1) None None;
     OpAddSuccessor 4 (Some et_road) (PInt 2) (Some cp_start) 0; OpAddPredecessor 4 (Some et_road) (PInt 2) (Some cp_end) 0;
     OpAddSuccessor 7 (Some et_road) (PInt 1) (Some cp_start) 0; OpAddPredecessor 7 (Some et_road) (PInt 1) (Some cp_end) 0;
     OpOpenDrive "ring"; OpAddRoad 8 4; OpAddRoad 8 7].
  Definition arcs : heap F := (as_ref (new_geom (GArc one None (Some p))) (as_ref (new_geom (GArc one None (Some p))) heap_init).2).2.
  Lemma arcs_made : fiszero one = false → run heap_init two_arcs = arcs.
  Proof.
    intros H1. assert (E : mk_arc one None (Some p) = Ok (GArc one None (Some p))) by (unfold mk_arc; by rewrite H1).
    assert (S : ∀ h, step (OpArc one None (Some p)) h = as_ref (new_geom (GArc one None (Some p))) h) by (intros h; cbn [step]; rewrite E; reflexivity).
    unfold run, two_arcs. cbn [foldl]. by rewrite !S.
  Qed.
  Definition ring : heap F := run arcs ring_roads.
  Lemma ring_reachable : fiszero one = false → reachable ring.
  Proof. intros H1. exists (two_arcs ++ ring_roads). unfold ring. rewrite -(arcs_made H1). unfold run. symmetry. apply foldl_app. Qed.
  Definition to_road (id : Z) (c : ContactPoint) (ty : string) : link := mkLink (Some ty) (PInt id) (Some et_road) (Some c) None.
  Lemma ring_is : od_roads (h_odr ring !!! 8) = [("1", 4); ("2", 7)] ∧
    (let o := h_road ring !!! 4 in rd_type o = (-1)%Z ∧ rd_pred o = Some (to_road 2 cp_end "predecessor") ∧ rd_succ o = Some (to_road 2 cp_start "successor") ∧ rd_off_pred o = 0%Z ∧ rd_off_suc o = 0%Z) ∧
    (let o := h_road ring !!! 7 in rd_type o = (-1)%Z ∧ rd_pred o = Some (to_road 1 cp_end "predecessor") ∧ rd_succ o = Some (to_road 1 cp_start "successor") ∧ rd_off_pred o = 0%Z ∧ rd_off_suc o = 0%Z) ∧
    view ring (h_road ring !!! 4) = mkPlanview zero zero zero (fofZ 0) true None None [0] [] [] false ∧
    view ring (h_road ring !!! 7) = mkPlanview (fofZ 0) (fofZ 0) (fofZ 0) (fofZ 0) false None None [1] [] [] false ∧
    rd_planview (h_road ring !!! 4) = 2 ∧ rd_planview (h_road ring !!! 7) = 5 ∧
    h_geom ring !!! 0 = GArc one None (Some p) ∧ h_geom ring !!! 1 = GArc one None (Some p).
  Proof. vm_compute. split_and!; reflexivity. Qed.
End RingHeap.
Section Ring.
  Context (rstr : R -> string).
  Local Instance rn' : Num R := RNum rstr.
  Lemma half_circle x y t : drives (record_curvature (GArc 1%R None (Some PI)) (nominal_length (GArc 1%R None (Some PI)))) (nominal_length (GArc 1%R None (Some PI)))
    (x, y, t) (x - 2 * sin t, y + 2 * cos t, t + PI)%R.
  Proof.
    cbn [nominal_length record_curvature]. have HP := PI_RGT_0. replace (Rabs (PI / 1)) with PI by (rewrite Rabs_right; [rewrite /Rdiv Rinv_1; lra|rewrite /Rdiv Rinv_1; lra]).
    exists (fun u => x + (sin (t + u) - sin t))%R, (fun u => y + (cos t - cos (t + u)))%R, (fun u => t + u)%R.
    split; [f_equal; [f_equal|]; rewrite ?Rplus_0_r; ring|]. split; [rewrite neg_sin neg_cos; f_equal; f_equal; ring|].
    intros u. unfold arc_curvature. split_and!; auto_derive; try done; ring.
  Qed.
  Definition ring_layout : layout := λ k, if String.eqb k "1" then ((0, 0, 0), (0, 2, PI))%R else ((0, 2, PI), (0, 0, 2 * PI))%R.
  Lemma ring_layout_fits (h : heap R) d r1 r2 o1 o2 : h_road h !!! r1 = o1 → h_road h !!! r2 = o2 → od_roads (h_odr h !!! d) = [("1", r1); ("2", r2)] →
    (rd_type o1 = (-1)%Z ∧ rd_pred o1 = Some (to_road 2 cp_end "predecessor") ∧ rd_succ o1 = Some (to_road 2 cp_start "successor") ∧ rd_off_pred o1 = 0%Z ∧ rd_off_suc o1 = 0%Z) →
    (rd_type o2 = (-1)%Z ∧ rd_pred o2 = Some (to_road 1 cp_end "predecessor") ∧ rd_succ o2 = Some (to_road 1 cp_start "successor") ∧ rd_off_pred o2 = 0%Z ∧ rd_off_suc o2 = 0%Z) →
    view h o1 = mkPlanview 0%R 0%R 0%R (fofZ 0) true None None [0] [] [] false →
    view h o2 = mkPlanview (fofZ 0) (fofZ 0) (fofZ 0) (fofZ 0) false None None [1] [] [] false →
    rd_planview o1 = 2 → rd_planview o2 = 5 → h_geom h !!! 0 = GArc 1%R None (Some PI) → h_geom h !!! 1 = GArc 1%R None (Some PI) →
    fresh_network h d ∧ plain_courses rstr h d ∧ fits rstr h d ring_layout.
  Proof.
    intros R1 R2 E (T1 & P1 & S1 & A1 & B1) (T2 & P2 & S2 & A2 & B2) V1 V2 W1 W2 G0 G1.
    assert (Hn : ∀ k o, road_named h d k = Some o → (k = "1" ∧ o = o1) ∨ (k = "2" ∧ o = o2)).
    { intros k o. unfold road_named. rewrite E. cbn [dict_get]. destruct (String.eqb_spec k "1"); [intros [= <-]; by left|]. destruct (String.eqb_spec k "2"); [intros [= <-]; by right|done]. }
    assert (H1 : road_named h d "1" = Some o1) by (unfold road_named; rewrite E; cbn; by rewrite R1).
    assert (Hr : ∀ k, root h d k → k = "1").
    { intros k [(o & Ho & Hfix)|[Hno _]].
      - apply Hn in Ho as [[-> ->]|[-> ->]]; [done|]. by rewrite V2 in Hfix.
      - exfalso. apply (Hno "1"). exists o1. split; [done|]. by rewrite V1. }
    split.
    { split.
      - unfold net_keys. rewrite E. cbn. apply (bool_decide_unpack _). vm_compute. exact I.
      - intros k1 k2 x1 x2 [[-> ->]|[-> ->]]%Hn [[-> ->]|[-> ->]]%Hn; rewrite ?W1 ?W2; done.
      - intros k o [[-> ->]|[-> ->]]%Hn; rewrite ?V1 ?V2; done. }
    split.
    { intros k o [[-> ->]|[-> ->]]%Hn; rewrite ?V1 ?V2; (split; [done|]); cbn [pv_raw]; intros g ->%elem_of_list_singleton; rewrite ?G0 ?G1; cbn [nondegenerate]; (split; [lra|]); have HP := PI_RGT_0; lra. }
    assert (Hm : ∀ k o c k2 c2, lane_shift o c = 0%Z → same_pose (turned (outward ring_layout k c)) (outward ring_layout k2 c2) → meets ring_layout k o c k2 c2).
    { intros k o c k2 c2 H0 Hs. unfold meets. rewrite H0. eapply same_trans; [exact Hs|]. destruct (outward _ k2 c2) as [[x y] t]. split; [cbn; f_equal; ring|]. exists 0%Z. cbn. ring. }
    split.
    - intros k o [[-> ->]|[-> ->]]%Hn; rewrite ?V1 ?V2; cbn [pv_raw].
      + change (ring_layout "1") with ((0, 0, 0), (0, 2, PI))%R. eapply along_cons; [|apply along_nil]. rewrite G0. pose proof (half_circle 0 0 0) as H. rewrite sin_0 cos_0 in H.
        cbn [fst snd]. replace (0, 2, PI)%R with (0 - 2 * 0, 0 + 2 * 1, 0 + PI)%R by (f_equal; [f_equal|]; ring). exact H.
      + change (ring_layout "2") with ((0, 2, PI), (0, 0, 2 * PI))%R. eapply along_cons; [|apply along_nil]. rewrite G1. pose proof (half_circle 0 2 PI) as H. rewrite sin_PI cos_PI in H.
        cbn [fst snd]. replace (0, 0, 2 * PI)%R with (0 - 2 * 0, 2 + 2 * -1, PI + PI)%R by (f_equal; [f_equal|]; ring). exact H.
    - intros k o Ho Hroot. apply Hr in Hroot as ->. rewrite H1 in Ho. apply (inj Some) in Ho as <-. rewrite V1. apply same_refl.
    - intros k o c L c2 Hk HL _ Hc. assert (Hs : lane_shift o c = 0%Z) by (destruct (Hn k o Hk) as [[_ ->]|[_ ->]], c; cbn [lane_shift]; rewrite ?A1 ?A2 ?B1 ?B2; reflexivity).
      apply Hm; [done|]. unfold same_pose. assert (Q1 : pystr (PInt 1) = "1") by reflexivity. assert (Q2 : pystr (PInt 2) = "2") by reflexivity.
      destruct (Hn k o Hk) as [[-> ->]|[-> ->]], c; cbn [link_at] in HL; rewrite ?P1 ?P2 ?S1 ?S2 in HL; apply (inj Some) in HL as <-; cbn in Hc; apply (inj Some) in Hc as <-; cbn [lk_id to_road]; rewrite ?Q1 ?Q2; (split; [cbn; reflexivity|]); cbn.
      + exists 0%Z. ring.
      + exists 0%Z. ring.
      + exists (-1)%Z. ring.
      + exists (-1)%Z. ring.
    - intros k o k2 x2 c2 L _ [[-> ->]|[-> ->]]%Hn HT; [by rewrite T1 in HT|by rewrite T2 in HT].
  Qed.
  Example C55_ring : let h := ring (Num0 := RNum rstr) 0%R 1%R PI in reachable h ∧ fresh_network h 8 ∧ plain_courses rstr h 8 ∧ fits rstr h 8 ring_layout.
  Proof.
    intros h. split. { apply ring_reachable. cbn. destruct (Req_EM_T 1 0) as [H|_]; [lra|done]. }
    destruct (ring_is (Num0 := RNum rstr) 0%R 1%R PI) as (E & H1 & H2 & V1 & V2 & W1 & W2 & G0 & G1).
    exact (ring_layout_fits h 8 4 7 _ _ eq_refl eq_refl E H1 H2 V1 V2 W1 W2 G0 G1).
  Qed.
End Ring.

Print Assumptions C55_found.
Print Assumptions C55_links_fit.
Print Assumptions C55_connected.
Print Assumptions C55_order.
