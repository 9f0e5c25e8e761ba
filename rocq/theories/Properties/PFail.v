(** * C65, C66: calls that raise *)
From Coq Require Import ssreflect.
From Verif.Model Require Import Api.
From Verif.Inst Require Import Quarter.
From Verif.Spec Require Import SpecState SpecHistory SpecNetwork SpecFrame SpecFail.
From Verif.Proof Require Import Monad DictFacts NetFrame Reach Steps History Invariants Frame Fail.
From Verif.Properties Require Import PHistory PLaneLinks PObjects PNetwork PFrame PJunctionRoads.
Local Open Scope general_if_scope.
Local Open Scope nat_scope.

Section Fails.
  Context {F : Type} `{!Num F}.
  Implicit Types (h : heap F).

  (** ** C65 *)
  (** a call that raises has changed nothing at all, unless it works through a list of parts or constructs several objects *)
  Theorem C65_unchanged o h e h' : ¬ may_stop_halfway o → ¬ builds_several o → step o h = (Err e, h') → h' = h.
  Proof. intros H1 H2. by apply fail_step. Qed.
  (** if it constructs several objects, what existed before is as before *)
  Theorem C65_existing_kept o h e h' : reachable h → ¬ may_stop_halfway o → step o h = (Err e, h') → as_if_not_called h h'.
  Proof.
    intros Hr H1 E. assert (builds_several o ∨ ¬ builds_several o) as [Hb|Hb] by (destruct o; simpl; tauto).
    - destruct (several_fail o h e h' Hb E) as [Hs Hi]. split; [|done]. intros r He. by apply Hs, existing_lt.
    - apply C65_unchanged in E as ->; [|done|done]. split; [|done]. intros r _. apply same_refl.
  Qed.
  (** the others leave everything but the objects they are about, and the ids, as they were *)
  Theorem C65_halfway o h e h' : reachable h → may_stop_halfway o → step o h = (Err e, h') →
    (∀ r, existing h r → ¬ touches o h r → same_object h h' r) ∧ h_ids h' = h_ids h.
  Proof.
    intros Hr Ho E. replace h' with (step o h).2 by by rewrite E. split.
    - intros r He Ht. by apply C57_frame.
    - apply C57_ids. destruct o; simpl in *; tauto.
  Qed.

  (** ** C66 *)
  Lemma rs_step E g (m : H (F:=F) (retval F)) h e h' : rs E m → guarded g m h = (Err e, h') → e ≠ DanglingRef → e ∈ E.
  Proof. intros Hm Eq He. unfold guarded in Eq. destruct (g h); [by eapply Hm|]. congruence. Qed.
  Lemma rs_plain E (m : H (F:=F) (retval F)) h e h' : rs E m → m h = (Err e, h') → e ≠ DanglingRef → e ∈ E.
  Proof. intros Hm Eq He. by eapply Hm. Qed.
  Lemma rs_ref E (m : H (F:=F) ref) : rs E m → rs E (as_ref m).
  Proof. intros Hm. apply rs_bind; [done|]. intros r. by apply rs_total, total_ret. Qed.
  Lemma rs_refs E (m : H (F:=F) (list ref)) : rs E m → rs E (as_refs m).
  Proof. intros Hm. apply rs_bind; [done|]. intros r. by apply rs_total, total_ret. Qed.
  Lemma rs_unit E (m : H (F:=F) unit) : rs E m → rs E (as_unit m).
  Proof. intros Hm. apply rs_bind; [done|]. intros r. by apply rs_total, total_ret. Qed.
  Lemma rs_pose E (m : H (F:=F) (F * F * F * option F)) : rs E m → rs E (as_pose m).
  Proof. intros Hm. apply rs_bind; [done|]. intros [[[x y] hd] l]. by apply rs_total, total_ret. Qed.
  Lemma ids_there_reachable h : reachable h → ids_there h h.
  Proof.
    intros Hr. split_and!; [done|done|]. intros s l Hl.
    assert (∃ p, lane_at h s p = Some l) as [p Hp].
    { unfold lane_at. rewrite lookup_total_alt in Hl. destruct (h_sec h !! s) as [x|] eqn:Es; simpl in Hl.
      - destruct Hl as [Hl|Hl]; apply elem_of_list_lookup in Hl as [i Hi]; [by exists (LeftOf i)|by exists (RightOf i)].
      - destruct Hl as [Hl|Hl]; by apply elem_of_nil in Hl. }
    destruct (si_ids _ (reachable_sec _ Hr) s p l Hp) as (? & ? & _ & ->). by eexists.
  Qed.
  Ltac inE := repeat first [apply elem_of_list_here|apply elem_of_list_further].
  Ltac tt_ := solve [apply rs_total; intros ?; eexists _, _; reflexivity].
  (** the exceptions of each call *)
  Theorem C66_exceptions o h e h' : reachable h → step o h = (Err e, h') → e ≠ DanglingRef → e ∈ may_raise o.
  Proof.
    intros Hr Eq He.
    assert (G : rs (may_raise o) (step o) ∨ e ∈ may_raise o → e ∈ may_raise o) by (intros [H|H]; [by eapply H|done]).
    destruct o; first [apply G; left; simpl; apply rs_ref; tt_ | unfold step in Eq; revert Eq He; cbv beta iota;
      try (apply rs_step; first [apply rs_ref|apply rs_refs|apply rs_unit|apply rs_pose]; tt_)]; simpl may_raise; clear G.
    - apply rs_plain, rs_ref, rs_bind; [|intros; tt_]. apply rs_lift. intros e'. unfold mk_spiral.
      destruct length, angle, cdot; simpl; repeat case_match; intros [= <-]; inE.
    - apply rs_plain, rs_ref, rs_bind; [|intros; tt_]. apply rs_lift. intros e'. unfold mk_arc. destruct length, angle, (fiszero curvature); intros [= <-]; inE.
    - apply rs_plain, rs_ref, rs_bind; [|intros; tt_]. apply rs_lift. intros e'. unfold mk_poly. destruct (_ && _); intros [= <-]; inE.
    - apply rs_step, rs_pose, rs_eval_end.
    - apply rs_step, rs_pose, rs_eval_start.
    - apply rs_plain, rs_ref, rs_bind; [|intros; tt_]. apply rs_lift. intros e'. unfold mk_planview. destruct x, y, h0; intros [= <-]; inE.
    - apply rs_step, rs_unit. destruct from_end; [apply rs_adjust_back; inE|apply rs_adjust; inE].
    - apply rs_step, rs_unit. apply rs_bind; [|intros; tt_]. apply rs_lift. intros e'. unfold mk_link. destruct (_ && _); intros [= <-]; inE.
    - apply rs_step, rs_unit, rs_total. apply total_bind; [|intros; apply total_modify]. apply total_for_each. intros k.
      apply total_bind; [apply total_gets|]. intros x. apply total_for_each. intros i. apply total_use_lanelink.
    - unfold guarded. destruct (_ && _); [|congruence]. intros Eq _. apply ids_there_reachable in Hr.
      destruct (jr_create_lane_links h [NotSameAmountOfLanesError; AttributeError; IndexError] ltac:(inE) ltac:(inE) ltac:(inE) r1 r2 h Hr) as (_ & HE & _).
      apply HE. revert Eq. unfold as_unit, bind. destruct (create_lane_links r1 r2 h) as [[]]; [done|]. by intros [= -> _].
    - apply rs_step, rs_unit, rs_get. intros x. destruct (so_class x); [apply rs_raise; inE|tt_].
    - apply rs_step, rs_unit, (rs_add_link_road _ _ _ _ _ _ true). inE.
    - apply rs_step, rs_unit, (rs_add_link_road _ _ _ _ _ _ false). inE.
    - apply rs_step, rs_unit, rs_get. intros x. destruct (decide _); [apply rs_raise; inE|]. apply rs_bind; [|intros; tt_].
      apply rs_lift. intros e'. unfold mk_link. destruct (_ && _); intros [= <-]; inE.
    - apply rs_step, rs_unit, rs_total, total_add_object.
    - apply rs_step, rs_unit, rs_total. apply total_bind; [|intros; apply total_modify]. apply total_for_each, total_update_id.
    - apply rs_step, rs_unit, rs_roadside; inE.
    - apply rs_step, rs_unit. intros h1 e1 h2 E1%C13_exceptions. rewrite !elem_of_cons in E1 |- *. naive_solver.
    - apply rs_step, rs_unit, rs_bind.
      + intros h1 e1 h2 E1%C13_exceptions. rewrite !elem_of_cons in E1 |- *. naive_solver.
      + intros _. apply rs_get. intros D. apply rs_for_each. intros kk. apply rs_bind; [apply rs_or_raise; inE|]. intros r1.
        apply rs_bind; [apply rs_or_raise; inE|]. intros r2. apply rs_create_lane_links; inE.
    - apply rs_step, rs_unit. unfold adjust_road_wrt.
      assert (A : ∀ b, rs [KeyError; UnboundLocalError; TypeError; IndexError; ZeroDivisionError] (adjust_road_wrt_neighbour d (pystr road_id) (pystr neighbour_id) cp b)).
      { intros b h1 e1 h2 E1%raises_awn. unfold place_exn in E1. rewrite !elem_of_cons. naive_solver. }
      destruct (String.eqb kind "predecessor"); [apply A|]. destruct (String.eqb kind "successor"); [apply A|].
      apply rs_get. intros D. apply rs_bind; [apply rs_or_raise; inE|]. intros x. tt_.
    - apply rs_step, rs_ref, rs_create_road. inE.
    - apply rs_plain, rs_ref, rs_total, total_straight.
    - apply rs_plain, rs_ref, rs_cloth. inE.
    - apply rs_step, rs_refs, rs_create_junction_roads; inE.
    - apply rs_step, rs_ref, rs_create_junction; inE.
  Qed.
  (** the calls without exceptions return *)
  Theorem C66_never_raises o h : reachable h → may_raise o = [] → (∃ r, (step o h).1 = Ok r) ∨ (step o h).1 = Err DanglingRef.
  Proof.
    intros Hr Ho. destruct (step o h) as [[r|e] h'] eqn:E; simpl; [by left; eexists|right]. f_equal.
    destruct (decide (e = DanglingRef)) as [|He]; [done|]. apply C66_exceptions in E; [|done|done]. rewrite Ho in E. by apply elem_of_nil in E.
  Qed.
End Fails.

Section Examples.
  Local Existing Instance QNum.
  Local Open Scope Z_scope.
  Definition zero_arc : list (op Z) := [OpArc 1 (Some 0) None; OpPlanView None None None; OpAddGeometry 1 0 None].
  Definition zero_spiral : list (op Z) := [OpSpiral 1 2 (Some 0) None None; OpPlanView None None None; OpAddGeometry 1 0 None].
  Definition lone (x : list (op Z)) : list (op Z) := x ++ [OpLanes; OpRoad (PInt 1) 1 2 (-1) None None; OpOpenDrive "n"; OpAddRoad 4 3].
  Definition two (ty : Z) : list (op Z) := road_ops 0 (PInt 1) (-1) [] ++ road_ops 3 (PInt 2) ty [] ++ [OpOpenDrive "n"; OpAddRoad 6 2; OpAddRoad 6 5].
  Definition sign : op Z := OpSignal 0 0 "se" (inr "1") None None None dyn_no None None 0 or_none 0 0 0 None None.
  Definition rep (o : ref) : op Z := OpRepeat o 1 1 None None None None None None None None None None None None None.
  Definition nets_that_fail : list (list (op Z) * ref * exn) :=
    [(two (-1), 6%nat, UndefinedRoadNetwork);
     (two (-1) ++ [OpAddPredecessor 5 (Some et_road) (PInt 9) (Some cp_end) 0], 6%nat, KeyError);
     (two (-1) ++ [OpAddPredecessor 5 (Some et_road) (PInt 1) None 0], 6%nat, UnboundLocalError);
     (lone zero_arc, 4%nat, TypeError); ([OpOpenDrive "n"], 0%nat, IndexError); (lone zero_spiral, 4%nat, ZeroDivisionError)].
  (** road 1 of network 8 starts as given, road 2 is a line, adjusted if [b] *)
  Definition beside (x : list (op Z)) (b : bool) : list (op Z) :=
    x ++ [OpLanes; OpRoad (PInt 1) 1 2 (-1) None None] ++ line_road 4 2 (-1) 20 None ++ [OpOpenDrive "n"; OpAddRoad 8 3; OpAddRoad 8 7] ++
    if b then [OpAdjustGeometries 5 false] else [].
  Definition line_start : list (op Z) := [OpLine 1; OpPlanView None None None; OpAddGeometry 1 0 None].
  (** for every call and every exception in its list: a history and such a call that raises it *)
  Definition witnesses : list (list (op Z) * op Z * exn) :=
    [([], OpSpiral 1 2 None None None, NotEnoughInputArguments); ([], OpSpiral 1 2 (Some 1) (Some 1) None, ToManyOptionalArguments);
     ([], OpArc 1 None None, NotEnoughInputArguments); ([], OpArc 1 (Some 1) (Some 1), ToManyOptionalArguments); ([], OpArc 0 (Some 1) None, ValueError);
     ([], OpPoly 1 1 1 1 1 1 1 1 "arcLength" None, ValueError);
     (zero_arc, OpGetEndData 0 0 0 0, TypeError); (zero_spiral, OpGetEndData 0 0 0 0, ZeroDivisionError);
     (zero_arc, OpGetStartData 0 0 0 0, TypeError); (zero_spiral, OpGetStartData 0 0 0 0, ZeroDivisionError);
     ([], OpPlanView (Some 1) None None, NotEnoughInputArguments);
     (zero_arc, OpAdjustGeometries 1 false, TypeError); (zero_spiral, OpAdjustGeometries 1 false, ZeroDivisionError);
     ([OpLine 1; OpPlanView None None None; OpAddGeometry 1 0 None; OpAddGeometry 1 0 (Some 1)], OpAdjustGeometries 1 false, IndexError);
     (zero_arc, OpAdjustGeometries 1 true, TypeError); (zero_spiral, OpAdjustGeometries 1 true, ZeroDivisionError);
     ([OpLane lt_driving 3 0 0 0 0], OpLaneAddLink 0 "neighbor" "1", ValueError);
     (joint [(2, 1)] [(2, 3)] 8, OpCreateLaneLinks 2 10, NotSameAmountOfLanesError)%nat; (joint [] [] 3, OpCreateLaneLinks 2 5, IndexError);
     (two 100, OpCreateLaneLinks 2 5, AttributeError);
     ([sign], rep 0, AttributeError);
     (joint [] [] 3, OpAddSuccessor 2 None (PInt 3) None 0, ValueError); (joint [] [] 3, OpAddPredecessor 5 None (PInt 3) None 0, ValueError);
     (joint [] [] 3, OpAddNeighbor 5 None (PInt 3) None, ValueError);
     (joint [] [] 3 ++ [sign], OpAddObjectRoadside 5 6 1 0 0 side_both, RoadsAndLanesNotAdjusted);
     (roadside_setup ++ [sign], OpAddObjectRoadside 9 12 1 0 0 side_both, AttributeError);
     ([OpArc 1 None (Some 1)], OpCreateRoad [0%nat] (PInt 1) 1 1 (-1) STD_ROADMARK_BROKEN 3, TypeError);
     ([], OpCreateClothArcCloth 0 1 1 (PInt 1) (-1) 0 1 3, ValueError);
     ([], OpCreateJunctionRoads [] [] 1 1 1 1 1, IndexError); ([], OpCreateJunctionRoads [] [] 0 1 1 1 1, ZeroDivisionError);
     (road_ops 0 (PInt 1) (-1) [(2, 1)%nat] ++ road_ops 8 (PInt 2) (-1) [(1, 1)%nat], OpCreateJunctionRoads [2%nat; 10%nat] [0; 2] 1 1 1 1 5, NameError);
     (joint [(2, 1)%nat] [(2, 1)%nat] 8, OpCreateJunctionRoads [2%nat; 10%nat] [0; 2] 1 1 1 1 5, ValueError);
     (two 100, OpCreateJunction [5%nat] (PInt 1) [2%nat], AttributeError);
     (two 100 ++ [OpAddSuccessor 5 (Some et_road) (PInt 1) (Some cp_end) 0], OpCreateJunction [5%nat] (PInt 1) [2%nat], IndexError);
     (joint [(2, 1)] [(2, 3)] 8 ++ [OpOpenDrive "n"; OpAddRoad 18 2; OpAddRoad 18 10], OpAdjustRoadsAndLanes 18, NotSameAmountOfLanesError)%nat;
     (two 100 ++ [OpAddSuccessor 5 (Some et_road) (PInt 1) (Some cp_start) 0], OpAdjustRoadsAndLanes 6, AttributeError);
     (beside line_start true, OpAdjustRoadWrt 8 (PInt 9) (PInt 2) (Some cp_end) "predecessor", KeyError);
     (beside line_start true, OpAdjustRoadWrt 8 (PInt 1) (PInt 2) None "predecessor", UnboundLocalError);
     (beside line_start false, OpAdjustRoadWrt 8 (PInt 1) (PStr "2") (Some cp_end) "successor", TypeError);
     (beside (line_start ++ [OpAddGeometry 1 0 (Some 1)]) true, OpAdjustRoadWrt 8 (PInt 1) (PInt 2) (Some cp_end) "predecessor", IndexError);
     (beside zero_spiral true, OpAdjustRoadWrt 8 (PInt 1) (PInt 2) (Some cp_end) "predecessor", ZeroDivisionError)]
    ++ map (λ n, (n.1.1, OpAdjustStartpoints n.1.2, n.2)) nets_that_fail ++ map (λ n, (n.1.1, OpAdjustRoadsAndLanes n.1.2, n.2)) nets_that_fail.
  Definition raised (w : list (op Z) * op Z * exn) : bool :=
    match (step w.1.2 (run heap_init w.1.1)).1 with Err e => bool_decide (e = w.2) | Ok _ => false end.
  Lemma all_raised : forallb raised witnesses = true.
  Proof. vm_compute. reflexivity. Qed.
  (** the lists contain no exception too many *)
  Theorem C66_each_is_raised (o : op Z) e : e ∈ may_raise o →
    ∃ ops o', call_name o' = call_name o ∧ (step o' (run heap_init ops)).1 = Err e.
  Proof.
    intros He.
    assert (W : existsb (λ w, String.eqb (call_name w.1.2) (call_name o) && bool_decide (w.2 = e)) witnesses = true).
    { destruct o; try (destruct from_end); cbn [may_raise] in He;
        repeat (apply elem_of_cons in He as [->|He]; [vm_compute; reflexivity|]); by apply elem_of_nil in He. }
    apply existsb_exists in W as ([[ops o'] e'] & Hin & Hb). simpl in Hb. apply andb_true_iff in Hb as [Hn Hb].
    apply bool_decide_eq_true in Hb as ->. apply String.eqb_eq in Hn. exists ops, o'. split; [done|].
    pose proof (proj1 (forallb_forall _ _) all_raised _ Hin) as Hr. unfold raised in Hr. simpl in Hr.
    destruct (step o' _) as [[]]; [done|]. simpl in *. by apply bool_decide_eq_true in Hr as ->.
  Qed.
  (** C65: calls that raise and are in none of the two groups (hypotheses of C65_unchanged), and one that builds several *)
  Definition single (o : op Z) : bool :=
    match o with OpAdjustGeometries _ _ | OpCreateLaneLinks _ _ | OpAdjustStartpoints _ | OpAdjustRoadsAndLanes _ | OpAdjustRoadWrt _ _ _ _ _
    | OpCreateJunctionRoads _ _ _ _ _ _ _ | OpAddObjectRoadside _ _ _ _ _ _ | OpCreateRoad _ _ _ _ _ _ _
    | OpCreateClothArcCloth _ _ _ _ _ _ _ _ | OpCreateJunction _ _ _ => false | _ => true end.
  Lemma single_spec o : single o = true → ¬ may_stop_halfway o ∧ ¬ builds_several o.
  Proof. destruct o; simpl; intros; try done; tauto. Qed.
  Example C65_unchanged_cases : List.length (List.filter (λ w, single w.1.2 && raised w) witnesses) = 16%nat.
  Proof. vm_compute. reflexivity. Qed.
  (** the exceptions to it are needed: each of these calls leaves something behind when it raises *)
  (** add_object_roadside with a signal has already copied it for the right side, create_junction has already made the junction, … *)
  Definition leaves_new (w : list (op Z) * op Z * exn) : bool :=
    let h := run heap_init w.1.1 in raised w && negb (Nat.eqb (h_next (step w.1.2 h).2) (h_next h)).
  Example C65_builds_several : map (λ w, call_name w.1.2) (List.filter leaves_new (List.filter (λ w, negb (single w.1.2)) witnesses)) =
    ["add_object_roadside"; "create_road"; "create_cloth_arc_cloth"; "create_junction"; "create_junction"].
  Proof. vm_compute. reflexivity. Qed.
  (** adjust_geometries has fixed the start point before it finds the arc without length *)
  Example C65_half_adjusted : let h := run heap_init zero_arc in let h' := (step (OpAdjustGeometries 1 false) h).2 in
    raised (zero_arc, OpAdjustGeometries 1 false, TypeError) = true ∧ pv_start (h_pv h !!! 1%nat) = None ∧ pv_start (h_pv h' !!! 1%nat) = Some (0, 0, 0).
  Proof. split_and!; vm_compute; reflexivity. Qed.
  (** create_lane_links has linked the left lanes before it finds that the numbers of right lanes differ *)
  Example C65_half_linked : let ops := joint [(2, 1)%nat] [(2, 3)%nat] 8 in let h := run heap_init ops in let h' := (step (OpCreateLaneLinks 2 10) h).2 in
    raised (ops, OpCreateLaneLinks 2 10, NotSameAmountOfLanesError) = true ∧
    links_at h [5; 6; 13; 14]%nat = [[]; []; []; []] ∧ links_at h' [5; 6; 13; 14]%nat = [[S_ "1"]; [S_ "2"]; [P_ "1"]; [P_ "2"]].
  Proof. split_and!; vm_compute; reflexivity. Qed.
  (** adjust_startpoints has placed the first road before it finds that the second is not connected to it *)
  Example C65_half_placed : let ops := line_road 0 1 (-1) 10 None ++ line_road 4 2 (-1) 20 None ++ [OpOpenDrive "n"; OpAddRoad 8 3; OpAddRoad 8 7] in
    let h := run heap_init ops in let h' := (step (OpAdjustStartpoints 8) h).2 in
    raised (ops, OpAdjustStartpoints 8, UndefinedRoadNetwork) = true ∧ raised (ops, OpAdjustRoadsAndLanes 8, UndefinedRoadNetwork) = true ∧
    map (λ p, pv_adjusted (h_pv h !!! p)) [1; 5]%nat = [false; false] ∧ map (λ p, pv_adjusted (h_pv h' !!! p)) [1; 5]%nat = [true; false].
  Proof. split_and!; vm_compute; reflexivity. Qed.
  (** create_junction_roads has linked the incoming road before it finds that the lanes do not match *)
  Example C65_half_junction : let ops := road_ops 0 (PInt 1) (-1) [(2, 1)%nat] ++ road_ops 8 (PInt 2) (-1) [(1, 1)%nat] in
    let h := run heap_init ops in let h' := (step (OpCreateJunctionRoads [2%nat; 10%nat] [0; 2] 1 1 1 1 5) h).2 in
    rd_succ (h_road h !!! 2%nat) = None ∧ is_Some (rd_succ (h_road h' !!! 2%nat)) ∧ raised (ops, OpCreateJunctionRoads [2%nat; 10%nat] [0; 2] 1 1 1 1 5, NameError) = true.
  Proof. split_and!; vm_compute; [reflexivity|by eexists|reflexivity]. Qed.
End Examples.

Print Assumptions C65_unchanged.
Print Assumptions C65_existing_kept.
Print Assumptions C65_halfway.
Print Assumptions C66_exceptions.
Print Assumptions C66_never_raises.
Print Assumptions C66_each_is_raised.
