(** * C50, C52: adjusting twice; the end point of a road *)
From Coq Require Import Reals Lra ssreflect.
From Coquelicot Require Import Coquelicot.
From Verif.Model Require Import Api.
From Verif.Inst Require Import Quarter Real.
From Verif.Spec Require Import SpecPlanView SpecNetwork SpecAgain.
From Verif.Proof Require Import Monad DictFacts PlanViewFacts PlanViewReal NetFrame Network Again.
From Verif.Properties Require Import PPlanView PNetwork.
Local Open Scope general_if_scope.
Local Open Scope nat_scope.

Section AnyNum.
  Context {F : Type} `{!Num F}.
  Implicit Types (h : heap F) (o : road).

  (** ** C52: what [Road.get_end_point] returns.  A road laid out forwards: its end pose.  A road laid out backwards (from its
      successor): its start pose, turned around. *)
  Theorem C52_forward h h' r : adjust_geometries (rd_planview (h_road h !!! r)) false h = (Ok tt, h') →
    ∃ q, road_get_end_point r h' = (Ok q, h') ∧ pv_end (view h' (h_road h' !!! r)) = Some q.
  Proof.
    intros E. assert (Hgf : geo_frame (rd_planview (h_road h !!! r)) h h') by (eapply pres_ok; [apply gf_adjust_geometries|exact E]).
    destruct (adjust_forward_spec _ _ _ E) as (rs & q & t & _ & _ & _ & Hen & Hp & _).
    exists q. unfold road_get_end_point, get_road, get_pv. rewrite !bind_gets. unfold view. rewrite (gf_road _ _ _ Hgf). subst q. done.
  Qed.
  Theorem C52_backward h h' r : adjust_geometries (rd_planview (h_road h !!! r)) true h = (Ok tt, h') →
    ∃ q, road_get_end_point r h' = (Ok q, h') ∧ pv_start (view h' (h_road h' !!! r)) = Some (turn q).
  Proof.
    intros E. assert (Hgf : geo_frame (rd_planview (h_road h !!! r)) h h') by (eapply pres_ok; [apply gf_adjust_geometries|exact E]).
    destruct (adjust_backward_spec _ _ _ E) as (rs & ls & q & _ & _ & _ & _ & Hst & Hp & _).
    exists q. unfold road_get_end_point, get_road, get_pv. rewrite !bind_gets. unfold view. rewrite (gf_road _ _ _ Hgf). subst q. done.
  Qed.

  (** in a placed network: the end pose for every road that was not placed from its successor *)
  Theorem C52_network (d : ref) h h' k r :
    fresh_network h d → adjust_startpoints d h = (Ok tt, h') → dict_get (od_roads (h_odr h !!! d)) k = Some r →
    let o := h_road h !!! r in
    ∃ q, road_get_end_point r h' = (Ok q, h') ∧
      (pv_end (view h' o) = Some q ∧ map pg_geom (pv_geoms (view h' o)) = pv_raw (view h o) ∨
       pv_start (view h' o) = Some (turn q) ∧ map pg_geom (pv_geoms (view h' o)) = rev (pv_raw (view h o)) ∧
       (∃ k2, attached h h' d k k2)).
  Proof.
    intros Hf E Hr o. assert (Ho : road_named h d k = Some o) by (unfold road_named; by rewrite Hr).
    destruct (adjust_startpoints_result h d Hf _ _ E) as (ord & HR & Hp).
    pose proof (ri_inv _ _ _ _ HR) as HI.
    exists (pv_x (view h' o), pv_y (view h' o), pv_h (view h' o)). split.
    { unfold road_get_end_point, get_road, get_pv. rewrite !bind_gets (nf_road _ _ _ (ni_frame _ _ _ _ HI)). done. }
    assert (Hk : k ∈ ord) by (rewrite Hp; apply (keys_named h d); by eexists).
    assert (Hfw : ∀ q, put_forward h (view h o) (view h' o) q →
      pv_end (view h' o) = Some (pv_x (view h' o), pv_y (view h' o), pv_h (view h' o)) ∧
      map pg_geom (pv_geoms (view h' o)) = pv_raw (view h o)).
    { intros q (_ & _ & e & Hc & He & ->). split; [done|]. by eapply Network.chain_geoms. }
    assert (Hbw : ∀ q, put_backward h (view h o) (view h' o) q →
      pv_start (view h' o) = Some (turn (pv_x (view h' o), pv_y (view h' o), pv_h (view h' o))) ∧
      map pg_geom (pv_geoms (view h' o)) = rev (pv_raw (view h o))).
    { intros q (_ & _ & rs & ls & e & Hc & Hm & _ & Hs & ->). split; [done|]. rewrite -(Network.back_chain_geoms _ _ _ _ _ _ Hc).
      apply (f_equal (map pg_geom)) in Hm. rewrite !map_map in Hm. exact Hm. }
    apply elem_of_list_split in Hk as (pre & suf & Eo).
    destruct (ni_just _ _ _ _ HI pre k suf Eo) as [(_ & o' & Ho' & Hpf)|(k2 & _ & Ha)].
    - assert (o' = o) as -> by congruence. left. by eapply Hfw.
    - assert (∃ b q, put_at h o (view h' o) b q) as ([] & q & Hq).
      { destruct Ha as [o'|o'|o'|o']; (assert (o' = o) as -> by congruence); eauto. }
      + left. by eapply Hfw.
      + right. destruct (Hbw _ Hq) as [? ?]. split; [done|]. split; [done|]. by exists k2.
  Qed.

  (** ** C50: adjusting a second time.  The roots (the fixed roads, or the first road) are laid out once more, behind
      themselves: their geometries are appended again and the length grows; no other road changes.  If every road is
      a root the call returns, otherwise it raises UndefinedRoadNetwork. *)
  Theorem C50_second_adjustment (d : ref) h : adjusted_network h d → evaluable_network h d → net_keys h d ≠ [] →
    ∃ r h', adjust_startpoints d h = (r, h') ∧
      ((∀ k, k ∈ net_keys h d → root h d k) → r = Ok tt) ∧
      ((∃ k, k ∈ net_keys h d ∧ ¬ root h d k) → r = Err UndefinedRoadNetwork) ∧
      ∀ k o, road_named h d k = Some o →
        (root h d k → appended h (view h o) (view h' o) (pv_x (view h o), pv_y (view h o), pv_h (view h o))) ∧
        (¬ root h d k → view h' o = view h o).
  Proof. apply second_adjustment. Qed.

  Lemma lanes_only_named h h' (d : ref) : lanes_only h h' → h_pv h' = h_pv h ∧ h_geom h' = h_geom h ∧ h_odr h' = h_odr h ∧ h_road h' = h_road h.
  Proof. intros ->. done. Qed.

  (** the same for two calls of adjust_roads_and_lanes *)
  Theorem C50_twice (d : ref) h h1 : fresh_network h d → evaluable_network h d →
    adjust_roads_and_lanes d h = (Ok tt, h1) →
    ∃ r h2, adjust_roads_and_lanes d h1 = (r, h2) ∧
      ((∃ k, k ∈ net_keys h d ∧ ¬ root h d k) → r = Err UndefinedRoadNetwork ∧ h_lane h2 = h_lane h1) ∧
      ∀ k o, road_named h d k = Some o →
        (root h d k → ∃ e, pv_end (view h1 o) = Some e ∧ appended h1 (view h1 o) (view h2 o) e) ∧
        (¬ root h d k → view h2 o = view h1 o).
  Proof.
    intros Hf He E. rewrite adjust_roads_and_lanes_split in E. apply bind_ok in E as ([] & ha & Ea & El).
    assert (Hlo : lanes_only ha h1) by (eapply pres_ok; [apply lo_link_all|exact El]).
    destruct (lanes_only_named _ _ d Hlo) as (Lpv & Lg & Lodr & Lroad).
    destruct (adjust_startpoints_result h d Hf _ _ Ea) as (ord & HR & Hp). pose proof (ri_inv _ _ _ _ HR) as HI.
    pose proof (ni_frame _ _ _ _ HI) as Hnf.
    assert (Hn : ∀ x, road_named h1 d x = road_named h d x).
    { intros x. unfold road_named. by rewrite Lodr Lroad (nf_odr _ _ _ Hnf) (nf_road _ _ _ Hnf). }
    assert (Hks : net_keys h1 d = net_keys h d) by (unfold net_keys; by rewrite Lodr (nf_odr _ _ _ Hnf)).
    assert (Hv : ∀ o, view h1 o = view ha o) by (intros o; unfold view; by rewrite Lpv).
    assert (Hord : ∀ k o, road_named h d k = Some o → k ∈ ord) by (intros k o Ho; rewrite Hp; apply (keys_named h d); by eexists).
    assert (A1 : adjusted_network h1 d).
    { split.
      - rewrite Hks. apply Hf.
      - intros k1 k2 o1 o2. rewrite !Hn. apply Hf.
      - intros k o. rewrite Hn Hv. intros Ho. apply (ni_adj _ _ _ _ HI k o Ho). by eapply Hord. }
    assert (He1 : evaluable_network h1 d).
    { assert (Hea : evaluable_network ha d) by (eapply evaluable_frame; [exact Hnf|done]).
      intros k o. rewrite Hn Hv Lg -(road_named_frame h ha d k (nf_road _ _ _ Hnf) (nf_odr _ _ _ Hnf)). apply Hea. }
    assert (Hne : net_keys h1 d ≠ []).
    { rewrite Hks. intros Hnil. unfold net_keys in Hnil. apply map_eq_nil in Hnil.
      unfold adjust_startpoints, get_odr in Ea. rewrite bind_gets Hnil in Ea. done. }
    assert (Hroot : ∀ k, root h1 d k ↔ root h d k).
    { assert (Hfix : ∀ x, fixed_road h1 d x ↔ fixed_road h d x).
      { intros x. unfold fixed_road. setoid_rewrite Hn. setoid_rewrite Hv. split; intros (ox & Hox & Hx); exists ox; (split; [done|]);
          destruct (nf_same _ _ _ Hnf (rd_planview ox)) as (_ & _ & Hs); rewrite -!/(view _ ox) in Hs; congruence. }
      intros k. unfold root. rewrite Hks. setoid_rewrite Hfix. done. }
    destruct (second_adjustment h1 d A1 He1 Hne) as (r & h2 & E2 & Hall & Hsome & Hviews).
    assert (Hstart : ∀ k o, road_named h d k = Some o → root h d k → pv_end (view h1 o) = Some (pv_pose (view h1 o))).
    { intros k o Ho Hr. destruct (ni_rootp _ _ _ _ HI k (Hord _ _ Ho) Hr) as (_ & o' & Ho' & (_ & _ & e & _ & Hen & Hpo)).
      assert (o' = o) as -> by congruence. rewrite Hv /pv_pose Hpo. done. }
    rewrite adjust_roads_and_lanes_split. destruct r as [[]|e].
    - rewrite (bind_run _ _ _ _ _ E2). destruct (link_all d h2) as [r h3] eqn:E3.
      assert (Hlo3 : lanes_only h2 h3) by (eapply pres_ok; [apply lo_link_all|exact E3]).
      destruct (lanes_only_named _ _ d Hlo3) as (Lpv3 & _).
      exists r, h3. split; [done|]. split.
      + intros (k & Hk & Hnr). exfalso. rewrite -Hks in Hk. rewrite -Hroot in Hnr. by specialize (Hsome (ex_intro _ k (conj Hk Hnr))).
      + intros k o Ho. assert (view h3 o = view h2 o) as -> by (unfold view; by rewrite Lpv3).
        destruct (Hviews k o) as [V1 V2]; [by rewrite Hn|]. split.
        * intros Hr. eexists. split; [by eapply Hstart|]. apply V1. by apply Hroot.
        * intros Hr. apply V2. by rewrite Hroot.
    - rewrite (bind_run_err _ _ _ _ _ E2). exists (Err e), h2. split; [done|]. split.
      + intros (k & Hk & Hnr). rewrite -Hks in Hk. rewrite -Hroot in Hnr. rewrite (Hsome (ex_intro _ k (conj Hk Hnr))). split; [done|].
        destruct (C20_frame d h1 h2 _ E2) as ((-> & _) & _). done.
      + intros k o Ho. destruct (Hviews k o) as [V1 V2]; [by rewrite Hn|]. split.
        * intros Hr. eexists. split; [by eapply Hstart|]. apply V1. by apply Hroot.
        * intros Hr. apply V2. by rewrite Hroot.
  Qed.
End AnyNum.

(** in exact arithmetic the length of a root road doubles and so does the number of its records *)
Section Reals.
  Context (rstr : R -> string).
  Local Instance rn : Num R := RNum rstr.

  Theorem C50_length_doubles (d : ref) (h h1 h2 : heap R) r k o :
    fresh_network h d → evaluable_network h d →
    road_named h d k = Some o → root h d k → pv_over (view h o) = [] →
    (∀ g, g ∈ pv_raw (view h o) → nondegenerate (h_geom h !!! g)) →
    adjust_roads_and_lanes d h = (Ok tt, h1) → adjust_roads_and_lanes d h1 = (r, h2) →
    pv_total_length (view h2 o) = (2 * pv_total_length (view h1 o))%R ∧
    length (pv_geoms (view h2 o)) = 2 * length (pv_geoms (view h1 o)).
  Proof.
    intros Hf He Ho Hr Hov Hnd E1 E2.
    destruct (C50_twice d h h1 Hf He E1) as (r' & h2' & E2' & _ & Hv). rewrite E2 in E2'. injection E2' as <- <-.
    destruct (Hv k o Ho) as [V _]. destruct (V Hr) as (e & Hen & Hst & rs & q & Hc & Hgs & _). clear V Hv.
    rewrite adjust_roads_and_lanes_split in E1. apply bind_ok in E1 as ([] & ha & Ea & El).
    assert (Hlo : lanes_only ha h1) by (eapply pres_ok; [apply lo_link_all|exact El]).
    destruct (lanes_only_named _ _ d Hlo) as (Lpv & Lg & _ & _).
    destruct (adjust_startpoints_result h d Hf _ _ Ea) as (ord & HR & Hp). pose proof (ri_inv _ _ _ _ HR) as HI.
    pose proof (ni_frame _ _ _ _ HI) as Hnf.
    assert (Hk : k ∈ ord) by (rewrite Hp; apply (keys_named h d); by eexists).
    destruct (ni_rootp _ _ _ _ HI k Hk Hr) as (_ & o' & Ho' & (_ & _ & e' & Hc1 & _)).
    assert (o' = o) as -> by congruence.
    assert (Hv1 : view h1 o = view ha o) by (unfold view; by rewrite Lpv).
    destruct (nf_same _ _ _ Hnf (rd_planview o)) as (Sraw & Sov & _). rewrite -!/(view _ o) in Sraw Sov.
    rewrite Hv1 in Hc, Hgs |- *. rewrite Sraw Sov Hov in Hc. rewrite Hov in Hc1.
    assert (Hc' : chain (λ g, h_geom h !!! g) [] 0 e (pv_s (view ha o)) (pv_raw (view h o)) rs q (pv_s (view h2 o))).
    { eapply chain_evolves; [|exact Hc]. intros g. simpl. rewrite Lg. apply Hnf. }
    assert (Hid : ∀ g : ref, evolves (h_geom h !!! g) (h_geom h !!! g)) by (intros; constructor).
    destruct (chain_consistent rstr _ (λ g, h_geom h !!! g) _ _ _ _ _ _ _ Hnd Hid Hc1) as (_ & _ & _ & T1 & F1).
    destruct (chain_consistent rstr _ (λ g, h_geom h !!! g) _ _ _ _ _ _ _ Hnd Hid Hc') as (_ & _ & _ & T2 & F2).
    rewrite /pv_total_length. split.
    - rewrite T2 {2}T1. rewrite {1}T1. change (@fofZ R rn 0) with 0%R. lra.
    - rewrite Hgs app_length -(Forall2_length _ _ _ F1) -(Forall2_length _ _ _ F2). lia.
  Qed.
End Reals.

(** ** Witnesses (arithmetic: quarter turns) *)
(** one road of length 10 *)
Definition one_road : list (op Z) := line_road 0 1 (-1) 10 None ++ [OpOpenDrive "net"; OpAddRoad 4 3].
Theorem C50_refuted : ∃ (h h1 h2 : heap Z), reachable h ∧ adjust_roads_and_lanes 4 h = (Ok tt, h1) ∧ adjust_roads_and_lanes 4 h1 = (Ok tt, h2) ∧
  (let p1 := view h1 (h_road h1 !!! 3) in let p2 := view h2 (h_road h2 !!! 3) in
   pv_total_length p1 = 10%Z ∧ pv_total_length p2 = 20%Z ∧ pv_start p1 = Some (0, 0, 0)%Z ∧ pv_start p2 = Some (10, 0, 0)%Z ∧
   length (pv_geoms p1) = 1 ∧ length (pv_geoms p2) = 2).
Proof.
  exists (run heap_init one_road). eexists _, _. split; [by eexists|]. split; [apply run_ok; vm_compute; reflexivity|].
  split; [apply run_ok; vm_compute; reflexivity|]. split_and!; vm_compute; reflexivity.
Qed.
(** the hypotheses of C50_twice hold of two roads, one after the other, with a lane section each *)
Definition two_in_line : list (op Z) := line_road 0 1 (-1) 10 None ++ line_road 4 2 (-1) 20 None ++
  [OpAddPredecessor 7 (Some et_road) (PInt 1) (Some cp_end) 0; OpAddSuccessor 3 (Some et_road) (PInt 2) (Some cp_start) 0;
   OpLane lt_none 0 0 0 0 0; OpLaneSection 0 8; OpAddLaneSection 2 9 []; OpLane lt_none 0 0 0 0 0; OpLaneSection 0 10; OpAddLaneSection 6 11 [];
   OpOpenDrive "net"; OpAddRoad 12 3; OpAddRoad 12 7]%Z.
Example C50_example : let h := run heap_init two_in_line in fresh_network h 12 ∧ evaluable_network h 12 ∧
  (∃ h1, adjust_roads_and_lanes 12 h = (Ok tt, h1)) ∧ root h 12 "1" ∧ ¬ root h 12 "2" ∧ "2" ∈ net_keys h 12.
Proof.
  intros h. assert (Hno : ∀ k, ¬ fixed_road h 12 k).
  { intros k (o & Ho & Hf). named Ho; by vm_compute in Hf. }
  assert (Hk : net_keys h 12 = ["1"; "2"]) by (vm_compute; reflexivity).
  split.
  { split.
    - apply (bool_decide_unpack _). vm_compute. exact I.
    - intros k1 k2 o1 o2 H1 H2. named H1; named H2; done.
    - intros k o H1. named H1; split_and!; vm_compute; reflexivity. }
  split.
  { intros k o H1. split.
    - intros g. named H1;
      match goal with |- g ∈ ?l → _ => let l' := eval vm_compute in l in replace l with l' by (vm_compute; reflexivity) end;
      (intros Hg; apply elem_of_list_singleton in Hg; subst g; by vm_compute).
    - named H1; left; by vm_compute. }
  split; [eexists; apply run_ok; vm_compute; reflexivity|].
  split; [right; split; [done|by rewrite Hk]|]. split; [|rewrite Hk; right; left].
  intros [Hf|[_ Hh]]; [by apply Hno in Hf|]. rewrite Hk in Hh. discriminate.
Qed.

(** C52 is false of a road placed from its successor: road 2 (length 20) leads to the fixed road 1, which starts at the origin;
    it ends there, but [get_end_point] returns the point where it starts, looking backwards *)
Definition into_first : list (op Z) := line_road 0 1 (-1) 10 (Some 0%Z) ++ line_road 4 2 (-1) 20 None ++
  [OpAddSuccessor 7 (Some et_road) (PInt 1) (Some cp_start) 0; OpOpenDrive "net"; OpAddRoad 8 3; OpAddRoad 8 7].
Theorem C52_refuted : ∃ (h h' : heap Z), reachable h ∧ adjust_startpoints 8 h = (Ok tt, h') ∧
  pv_start (view h' (h_road h' !!! 7)) = Some (-20, 0, 4)%Z ∧ pv_end (view h' (h_road h' !!! 7)) = Some (0, 0, 4)%Z ∧
  road_get_end_point 7 h' = (Ok (-20, 0, 2)%Z, h').
Proof.
  exists (run heap_init into_first). eexists. split; [by eexists|]. split; [apply run_ok; vm_compute; reflexivity|].
  split; [vm_compute; reflexivity|]. split; [vm_compute; reflexivity|]. vm_compute. reflexivity.
Qed.

Print Assumptions C50_second_adjustment.
Print Assumptions C50_twice.
Print Assumptions C50_length_doubles.
Print Assumptions C50_refuted.
Print Assumptions C52_forward.
Print Assumptions C52_network.
Print Assumptions C52_refuted.
