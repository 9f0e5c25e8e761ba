(** * The tests of /repo/tests, run in the model

    Not properties but checks of the model: what /repo/tests asserts about the code holds of the model.  Numbers are those of [QNum] (integers, angles in
    quarter turns); where a test uses another number the comment says what stands for it.  Tests that only print an element are run to the end. *)
From Coq Require Import ssreflect.
From Verif.Model Require Import Api Write.
From Verif.Inst Require Import Quarter.
Local Open Scope string_scope.
Local Open Scope Z_scope.
Local Open Scope list_scope.

Section Tests.
  Local Existing Instance QNum.
  Let mark : roadmark Z := mkRoadmark rmt_solid wgt_standard col_standard 0 0 None (Some 1) None None None (Some mr_no_passing) None.

  (** ** /repo/tests/test_links.py:66-420.  The width 0.2 of the road mark and the curvature 0.01 are 1 here.
      [made_in_steps] makes the objects as test_create_lane_links_normalroad1 and _junction1 do (all plan views, then all lanes, ...),
      [made_by_road] as the other three do (one loop).  In both, roads get the references 21, 22, 23 and the OpenDrive object 24. *)
  Let lane : op Z := OpLane lt_driving 3 0 0 0 0.
  Definition geoms : list (op Z) := [OpLine 50; OpArc 1 None (Some 1); OpLine 50].
  Definition made_in_steps : list (op Z) := geoms ++
    [OpPlanView None None None; OpAddGeometry 3 0 None; OpPlanView None None None; OpAddGeometry 4 1 None; OpPlanView None None None; OpAddGeometry 5 2 None]%nat ++
    [lane; lane; lane; lane; lane; lane; lane; lane; lane] ++ map (λ l, OpLaneAddRoadmark l mark) (seq 6 9) ++
    [OpLaneSection 0%Z 6; OpAddRightLane 15 7; OpAddLeftLane 15 8; OpLaneSection 0%Z 9; OpAddRightLane 16 10; OpAddLeftLane 16 11;
     OpLaneSection 0%Z 12; OpAddRightLane 17 13; OpAddLeftLane 17 14]%nat ++
    [OpLanes; OpAddLaneSection 18 15 []; OpLanes; OpAddLaneSection 19 16 []; OpLanes; OpAddLaneSection 20 17 []]%nat.
  Definition made_by_road : list (op Z) := geoms ++
    concat (map (λ i : nat, let b := (3 + 6 * i)%nat in
      [OpPlanView None None None; OpAddGeometry b i None; lane; lane; lane; OpLaneAddRoadmark (b + 1)%nat mark; OpLaneAddRoadmark (b + 2)%nat mark; OpLaneAddRoadmark (b + 3)%nat mark;
       OpLaneSection 0 (b + 1)%nat; OpAddRightLane (b + 4)%nat (b + 2)%nat; OpAddLeftLane (b + 4)%nat (b + 3)%nat; OpLanes; OpAddLaneSection (b + 5)%nat (b + 4)%nat []]) [0; 1; 2]%nat).
  (** the plan views and the lanes of the three roads *)
  Definition in_steps : list (ref * ref) := [(3, 18); (4, 19); (5, 20)]%nat.
  Definition by_road : list (ref * ref) := [(3, 8); (9, 14); (15, 20)]%nat.
  Definition three_roads (parts : list (ref * ref)) (type2 : Z) (links : list (op Z)) : list (op Z) :=
    zip_with (λ '(pv, ls) '(id, ty), OpRoad (PInt id) pv ls ty None None) parts [(1, -1); (2, type2); (3, -1)] ++ links ++
    [OpOpenDrive "myroad"; OpAddRoad 24 21; OpAddRoad 24 22; OpAddRoad 24 23; OpAdjustRoadsAndLanes 24]%nat.

  (** [road.lanes.lanesections[0].rightlanes[0].links.get_predecessor_id()], [...get_successor_id()], and of [leftlanes[0]] *)
  Definition lane_ids (h : heap Z) (r : ref) : list (option pyid * option pyid) :=
    match h_lanes h !!! rd_lanes (h_road h !!! r) with
    | [] => []
    | sec :: _ => map (λ l, (get_predecessor_id (ln_links (h_lane h !!! l)), get_successor_id (ln_links (h_lane h !!! l))))
                    (take 1 (ls_right (h_sec h !!! sec)) ++ take 1 (ls_left (h_sec h !!! sec)))
    end.
  Definition id (z : Z) : option pyid := Some (PStr (pystr (PInt z))).
  (** every call returned *)
  Definition all_ok (os : list (op Z)) : bool := (foldl (λ '(b, h) o, let '(r, h') := step o h in (b && is_ok r, h')%bool) (true, heap_init) os).1.
  Definition after (os : list (op Z)) : list (list (option pyid * option pyid)) := map (lane_ids (run heap_init os)) [21; 22; 23]%nat.
  Let none2 := [(None, None); (None, None)] : list (option pyid * option pyid).

  (** test_links.py:66-131 *)
  Definition normalroad1 : list (op Z) := made_in_steps ++ three_roads in_steps (-1)
    [OpAddSuccessor 21 (Some et_road) (PInt 2%Z) (Some cp_start) 0%Z; OpAddPredecessor 22 (Some et_road) (PInt 1%Z) (Some cp_end) 0%Z;
     OpAddSuccessor 22 (Some et_road) (PInt 3%Z) (Some cp_start) 0%Z; OpAddPredecessor 23 (Some et_road) (PInt 2%Z) (Some cp_end) 0%Z]%nat.
  Example test_create_lane_links_normalroad1 : all_ok normalroad1 = true ∧
    after normalroad1 = [[(None, id (-1)); (None, id 1)]; [(id (-1), id (-1)); (id 1, id 1)]; [(id (-1), None); (id 1, None)]].
  Proof. split; vm_compute; reflexivity. Qed.

  (** test_links.py:134-207 *)
  Definition junction1 : list (op Z) := made_in_steps ++ three_roads in_steps 1
    [OpAddSuccessor 21 (Some et_junction) (PInt 1%Z) None 0%Z; OpAddPredecessor 22 (Some et_road) (PInt 1%Z) (Some cp_end) 0%Z;
     OpAddSuccessor 22 (Some et_road) (PInt 3%Z) (Some cp_start) 0%Z; OpAddPredecessor 23 (Some et_junction) (PInt 1%Z) None 0%Z]%nat.
  Example test_create_lane_links_junction1 : all_ok junction1 = true ∧
    after junction1 = [none2; [(id (-1), id (-1)); (id 1, id 1)]; none2].
  Proof. split; vm_compute; reflexivity. Qed.

  (** test_links.py:210-278 *)
  Definition junction2 : list (op Z) := made_by_road ++ three_roads by_road 1
    [OpAddPredecessor 21 (Some et_junction) (PInt 1%Z) None 0%Z; OpAddPredecessor 22 (Some et_road) (PInt 1%Z) (Some cp_start) 0%Z;
     OpAddSuccessor 22 (Some et_road) (PInt 3%Z) (Some cp_end) 0%Z; OpAddSuccessor 23 (Some et_junction) (PInt 1%Z) None 0%Z]%nat.
  Example test_create_lane_links_junction2 : all_ok junction2 = true ∧
    after junction2 = [none2; [(id 1, id 1); (id (-1), id (-1))]; none2].
  Proof. split; vm_compute; reflexivity. Qed.

  (** test_links.py:281-349 *)
  Definition junction3 : list (op Z) := made_by_road ++ three_roads by_road 1
    [OpAddPredecessor 21 (Some et_junction) (PInt 1%Z) None 0%Z; OpAddPredecessor 22 (Some et_road) (PInt 1%Z) (Some cp_start) 0%Z;
     OpAddSuccessor 22 (Some et_road) (PInt 3%Z) (Some cp_start) 0%Z; OpAddPredecessor 23 (Some et_junction) (PInt 1%Z) None 0%Z]%nat.
  Example test_create_lane_links_junction3 : all_ok junction3 = true ∧
    after junction3 = [none2; [(id 1, id (-1)); (id (-1), id 1)]; none2].
  Proof. split; vm_compute; reflexivity. Qed.

  (** test_links.py:352-420 *)
  Definition junction4 : list (op Z) := made_by_road ++ three_roads by_road 1
    [OpAddSuccessor 21 (Some et_junction) (PInt 1%Z) None 0%Z; OpAddPredecessor 22 (Some et_road) (PInt 1%Z) (Some cp_end) 0%Z;
     OpAddSuccessor 22 (Some et_road) (PInt 3%Z) (Some cp_end) 0%Z; OpAddSuccessor 23 (Some et_junction) (PInt 1%Z) None 0%Z]%nat.
  Example test_create_lane_links_junction4 : all_ok junction4 = true ∧
    after junction4 = [none2; [(id (-1), id 1); (id 1, id (-1))]; none2].
  Proof. split; vm_compute; reflexivity. Qed.

  (** ** /repo/tests/test_opendrive.py:43-72 *)
  Definition straight_road (name : Z) (length : Z) (junction : Z) (n_lanes : nat) (lane_offset : Z) : bool :=
    let '(r, h0) := step (OpCreateStraightRoad (PInt name) length junction n_lanes lane_offset) heap_init in
    match r with
    | Ok (RRef road) =>
      let '(r1, h1) := step (OpOpenDrive "myroad") h0 in
      match r1 with
      | Ok (RRef odr) =>
        let '(r2, h2) := step (OpAddRoad odr road) h1 in
        let '(r3, h) := step (OpAdjustRoadsAndLanes odr) h2 in
        let redict := road_attributes h (h_road h !!! road) in
        let sec := h_sec h !!! ((h_lanes h !!! rd_lanes (h_road h !!! road)) !!! 0%nat) in
        let l := h_lane h !!! (ls_left sec !!! 0%nat) in
        is_ok r2 && is_ok r3 && bool_decide (dict_get redict "id" = Some (pystr (PInt name))) && bool_decide (dict_get redict "length" = Some (fstr length)) &&
        bool_decide (dict_get redict "junction" = Some (pystr (PInt junction))) &&
        bool_decide (List.length (ls_left sec) = n_lanes) && bool_decide (List.length (ls_right sec) = n_lanes) &&
        bool_decide (ln_a l = lane_offset) && bool_decide (ln_b l = 0) && bool_decide (ln_c l = 0) && bool_decide (ln_d l = 0)
      | _ => false
      end
    | _ => false
    end.
  Example test_create_straight_road :
    straight_road 10 100 (-1) 1 3 = true ∧ straight_road 10 50 (-1) 1 3 = true ∧ straight_road 10 100 1 1 3 = true ∧ straight_road 10 100 (-1) 2 3 = true ∧
    straight_road 10 100 (-1) 10 3 = true ∧ straight_road 10 100 (-1) 10 5 = true.
  Proof. repeat split; vm_compute; reflexivity. Qed.

  (** every call returned, and [get_element] of the road returns *)
  Definition road_printed (os : list (op Z)) (r : ref) : bool := all_ok os && is_ok (road_element (run heap_init os) r).
  (** test_opendrive.py:5-23, 27-45 *)
  Definition simple_road : list (op Z) :=
    [OpLine 100; OpPlanView None None None; OpAddGeometry 1%nat 0%nat None; OpLane lt_driving 2 0 0 0 0; OpLaneAddRoadmark 2%nat mark; OpLaneSection 0 2%nat;
     OpLanes; OpAddLaneSection 4%nat 3%nat []; OpRoad (PInt 1%Z) 1%nat 4%nat (-1) None None].
  Example test_simple_road : road_printed simple_road 5 = true.
  Proof. vm_compute; reflexivity. Qed.
  Example test_link_road : road_printed (simple_road ++ [OpAddPredecessor 5%nat (Some et_road) (PStr "1") (Some cp_start) 0]) 5 = true.
  Proof. vm_compute; reflexivity. Qed.

  (** ** /repo/tests/test_lane.py: elements of lanes, lane sections and lanes *)
  Example test_lanesection : let os := [OpLane lt_driving 0 0 0 0 0; OpLaneSection 0 0%nat; OpLane lt_driving 0 0 0 0 0; OpAddRightLane 1%nat 2%nat;
      OpLane lt_driving 2 0 0 0 0; OpAddLeftLane 1%nat 3%nat] in
    all_ok os = true ∧ forallb (λ n, is_ok (section_element (run heap_init (take n os)) 1)) [2; 4; 6]%nat = true.
  Proof. split; vm_compute; reflexivity. Qed.
  Example test_lanes : let os := [OpLane lt_driving 0 0 0 0 0; OpLaneSection 0 0%nat; OpLanes; OpAddLaneSection 2%nat 1%nat []] in
    all_ok os = true ∧ is_ok (lanes_element (run heap_init os) 2) = true.
  Proof. split; vm_compute; reflexivity. Qed.

  (** ** /repo/tests/test_signals_objects.py.  tOffset = 0.85 is 1 here; the default length 100 and width 3 of the road are given. *)
  Let signal (s : Z) (country ty subtype : string) (value : option Z) (unit_ : option string) : op Z :=
    OpSignal s (-2) country (inr ty) (Some subtype) None None dyn_no value unit_ 0 or_positive 0 0 0 None None.
  Let object (s : Z) (ty : ObjectType) (id : option pyid) (height : Z) : op Z :=
    OpObject s (-2) (inl ty) None id None dyn_no 0 or_positive 0 0 0 None None (Some height) None None.
  (** the road of create_straight_road has the reference [r] *)
  Definition the_road : list (op Z) := [OpCreateStraightRoad (PInt 0) 100 (-1) 1 3].
  Example test_signal : let os := the_road ++ [signal 10 "US" "R1" "1" None None; signal 20 "DEU" "274" "120" (Some 120) (Some "km/h"); OpAddSignal 7%nat [8%nat]; OpAddSignal 7%nat [9%nat]] in
    road_printed os 7 = true.
  Proof. vm_compute; reflexivity. Qed.
  (** the comment "same chosen ID should cause warning and be resolved automatically" *)
  Example test_object : let os := the_road ++ [object 10 ot_pole (Some (PStr "1")) 1; object 20 ot_streetLamp (Some (PStr "1")) 10; OpAddObject 7%nat [8%nat; 9%nat]] in
    road_printed os 7 = true ∧ so_id (h_obj (run heap_init os) !!! 8%nat) ≠ so_id (h_obj (run heap_init os) !!! 9%nat).
  Proof. split; [vm_compute; reflexivity|]. apply (bool_decide_unpack _); vm_compute; exact I. Qed.
  Example test_repeated_object : let os := the_road ++ [object 10 ot_pole None 1; OpRepeat 8%nat 100 50 None None None None None None None None None None None None None; OpAddObject 7%nat [8%nat]] in
    road_printed os 7 = true.
  Proof. vm_compute; reflexivity. Qed.
  Example test_object_roadside : let os := the_road ++ [OpOpenDrive "myroad"; OpAddRoad 8%nat 7%nat; OpAdjustRoadsAndLanes 8%nat;
      OpObject 0 0 (inl ot_pole) None None None dyn_no 0 or_positive 0 0 0 None None (Some 1) None None; OpAddObjectRoadside 7%nat 9%nat 50 0 1 side_both] in
    road_printed os 7 = true.
  Proof. vm_compute; reflexivity. Qed.

  (** ** Programs of /repo/examples *)
  (** examples/lane_number_change_merge.py (the coefficient -0.1 is -1, the widths 0.2 are 1): the lanes 1, ..., 5 of the program have
      the references 4, 5, 7, 8, 10; they are linked as the program says: 1 to 3, 2 to 4, 3 to 5, and nothing else *)
  Let broken : roadmark Z := mkRoadmark rmt_broken wgt_standard col_standard 0 0 None (Some 1) None None None None None.
  Definition lane_merge : list (op Z) :=
    [OpPlanView None None None; OpLine 500; OpAddGeometry 0%nat 1%nat None; OpLane lt_driving 2 0 0 0 0; OpLaneAddRoadmark 2%nat mark; OpLaneSection 0 2%nat;
     lane; OpLaneAddRoadmark 4%nat broken; lane; OpLaneAddRoadmark 5%nat mark; OpAddRightLane 3%nat 4%nat; OpAddRightLane 3%nat 5%nat; OpLaneSection 250 2%nat;
     lane; OpLaneAddRoadmark 7%nat broken; OpLane lt_driving 3 (-1) 0 0 0; OpLaneAddRoadmark 8%nat mark; OpAddRightLane 6%nat 7%nat; OpAddRightLane 6%nat 8%nat; OpLaneSection 280 2%nat;
     lane; OpLaneAddRoadmark 10%nat mark; OpAddRightLane 9%nat 10%nat;
     OpLaneLinker; OpLinkerAddLink 11%nat 4%nat 7%nat None; OpLinkerAddLink 11%nat 5%nat 8%nat None; OpLinkerAddLink 11%nat 7%nat 10%nat None;
     OpLanes; OpAddLaneSection 12%nat 3%nat [11%nat]; OpAddLaneSection 12%nat 6%nat [11%nat]; OpAddLaneSection 12%nat 9%nat [11%nat];
     OpRoad (PInt 1) 0%nat 12%nat (-1) None None; OpOpenDrive "myroad"; OpAddRoad 14%nat 13%nat; OpAdjustRoadsAndLanes 14%nat].
  Example lane_number_change_merge : all_ok lane_merge = true ∧ is_ok (odr_element "today" (run heap_init lane_merge) 14) = true ∧
    map (λ l, let ls := ln_links (h_lane (run heap_init lane_merge) !!! l) in (ln_id (h_lane (run heap_init lane_merge) !!! l), get_predecessor_id ls, get_successor_id ls)) [4; 5; 7; 8; 10]%nat =
    [(Some (-1), None, id (-1)); (Some (-2), None, id (-2)); (Some (-1), id (-1), id (-1)); (Some (-2), id (-2), None); (Some (-1), id (-1), None)].
  Proof. split_and!; vm_compute; reflexivity. Qed.

  (** examples/two_roads.py (the width 3.1 is 3): both roads stand where the program puts them *)
  Definition two_roads : list (op Z) :=
    [OpOpenDrive "myroad"; OpPlanView (Some 0) (Some 0) (Some 0); OpLine 100; OpAddGeometry 1%nat 2%nat None; OpLane lt_driving 2 0 0 0 0; OpLaneAddRoadmark 3%nat mark; OpLaneSection 0 3%nat;
     lane; OpLaneAddRoadmark 5%nat mark; OpAddLeftLane 4%nat 5%nat; lane; OpLaneAddRoadmark 6%nat mark; OpAddRightLane 4%nat 6%nat; OpLanes; OpAddLaneSection 7%nat 4%nat [];
     OpRoad (PInt 1) 1%nat 7%nat (-1) None None; OpAddRoad 0%nat 8%nat;
     OpPlanView (Some 0) (Some 10) (Some 1); OpLine 200; OpAddGeometry 9%nat 10%nat None; OpLane lt_driving 2 0 0 0 0; OpLaneAddRoadmark 11%nat mark; OpLaneSection 0 11%nat;
     lane; OpLaneAddRoadmark 13%nat mark; OpAddLeftLane 12%nat 13%nat; lane; OpLaneAddRoadmark 14%nat mark; OpAddRightLane 12%nat 14%nat; OpLanes; OpAddLaneSection 15%nat 12%nat [];
     OpRoad (PInt 2) 9%nat 15%nat (-1) None None; OpAddRoad 0%nat 16%nat; OpAdjustRoadsAndLanes 0%nat].
  Example two_roads_placed : all_ok two_roads = true ∧ is_ok (odr_element "today" (run heap_init two_roads) 0) = true ∧
    map (λ p, (pv_start (h_pv (run heap_init two_roads) !!! p), pv_end (h_pv (run heap_init two_roads) !!! p))) [1; 9]%nat =
    [(Some (0, 0, 0), Some (100, 0, 0)); (Some (0, 10, 1), Some (0, 210, 1))].
  Proof. split_and!; vm_compute; reflexivity. Qed.
End Tests.
