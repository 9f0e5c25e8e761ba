(** * What a call that raises leaves behind *)
From Coq Require Import ssreflect.
From Verif.Model Require Import Api.
From Verif.Spec Require Import SpecFrame.
Local Open Scope general_if_scope.

Section Fail.
  Context {F : Type} `{!Num F}.
  Implicit Types (h : heap F).

  (** the calls that work through a list of parts and may have changed some of them when they raise *)
  Definition may_stop_halfway (o : op F) : Prop :=
    match o with
    | OpAdjustGeometries _ _ | OpCreateLaneLinks _ _ | OpAdjustStartpoints _ | OpAdjustRoadsAndLanes _ | OpAdjustRoadWrt _ _ _ _ _
    | OpCreateJunctionRoads _ _ _ _ _ _ _ => True
    | _ => False
    end.
  (** the calls that construct several objects and may have constructed some of them when they raise *)
  Definition builds_several (o : op F) : Prop :=
    match o with
    | OpAddObjectRoadside _ _ _ _ _ _ | OpCreateRoad _ _ _ _ _ _ _
    | OpCreateClothArcCloth _ _ _ _ _ _ _ _ | OpCreateJunction _ _ _ => True
    | _ => False
    end.

  (** nothing the program could see before the call has changed *)
  Definition as_if_not_called h h' : Prop := (∀ r, existing h r → same_object h h' r) ∧ h_ids h' = h_ids h.

  (** the exceptions a call can raise; the calls not listed cannot raise *)
  Definition may_raise (o : op F) : list exn :=
    match o with
    | OpSpiral _ _ _ _ _ => [NotEnoughInputArguments; ToManyOptionalArguments]
    | OpArc _ _ _ => [NotEnoughInputArguments; ToManyOptionalArguments; ValueError]
    | OpPoly _ _ _ _ _ _ _ _ _ _ => [ValueError]
    | OpGetEndData _ _ _ _ | OpGetStartData _ _ _ _ => [TypeError; ZeroDivisionError]
    | OpPlanView _ _ _ => [NotEnoughInputArguments]
    | OpAdjustGeometries _ false => [TypeError; IndexError; ZeroDivisionError]
    | OpAdjustGeometries _ true => [TypeError; ZeroDivisionError]
    | OpLaneAddLink _ _ _ => [ValueError]
    | OpCreateLaneLinks _ _ => [NotSameAmountOfLanesError; AttributeError; IndexError]
    | OpRepeat _ _ _ _ _ _ _ _ _ _ _ _ _ _ _ _ => [AttributeError]
    | OpAddSuccessor _ _ _ _ _ | OpAddPredecessor _ _ _ _ _ | OpAddNeighbor _ _ _ _ => [ValueError]
    | OpAddObjectRoadside _ _ _ _ _ _ => [RoadsAndLanesNotAdjusted; AttributeError]
    | OpAdjustStartpoints _ => [UndefinedRoadNetwork; KeyError; UnboundLocalError; TypeError; IndexError; ZeroDivisionError]
    | OpAdjustRoadsAndLanes _ => [UndefinedRoadNetwork; KeyError; UnboundLocalError; NotSameAmountOfLanesError; AttributeError; TypeError; IndexError; ZeroDivisionError]
    | OpAdjustRoadWrt _ _ _ _ _ => [KeyError; UnboundLocalError; TypeError; IndexError; ZeroDivisionError]
    | OpCreateRoad _ _ _ _ _ _ _ => [TypeError]
    | OpCreateClothArcCloth _ _ _ _ _ _ _ _ => [ValueError]
    | OpCreateJunctionRoads _ _ _ _ _ _ _ => [ValueError; NameError; IndexError; ZeroDivisionError]
    | OpCreateJunction _ _ _ => [AttributeError; IndexError]
    | _ => []
    end.
  (** the name of the call *)
  Definition call_name (o : op F) : string :=
    match o with
    | OpLine _ => "Line" | OpSpiral _ _ _ _ _ => "Spiral" | OpArc _ _ _ => "Arc" | OpPoly _ _ _ _ _ _ _ _ _ _ => "ParamPoly3"
    | OpGetEndData _ _ _ _ => "get_end_data" | OpGetStartData _ _ _ _ => "get_start_data"
    | OpPlanView _ _ _ => "PlanView" | OpAddGeometry _ _ _ => "add_geometry" | OpSetStartPoint _ _ _ _ => "set_start_point"
    | OpAdjustGeometries _ b => if b then "adjust_geometries(from_end=True)" else "adjust_geometries()"
    | OpLane _ _ _ _ _ _ => "Lane" | OpLaneAddLink _ _ _ => "Lane.add_link" | OpLaneAddRoadmark _ _ => "add_roadmark"
    | OpLaneSection _ _ => "LaneSection" | OpAddLeftLane _ _ => "add_left_lane" | OpAddRightLane _ _ => "add_right_lane"
    | OpLanes => "Lanes" | OpAddLaneSection _ _ _ => "add_lanesection"
    | OpLaneLinker => "LaneLinker" | OpLinkerAddLink _ _ _ _ => "LaneLinker.add_link"
    | OpConnection _ _ _ _ => "Connection" | OpAddLanelink _ _ _ => "add_lanelink"
    | OpJunction _ _ => "Junction" | OpAddConnection _ _ => "add_connection" | OpCreateLaneLinks _ _ => "create_lane_links"
    | OpSignal _ _ _ _ _ _ _ _ _ _ _ _ _ _ _ _ _ => "Signal" | OpObject _ _ _ _ _ _ _ _ _ _ _ _ _ _ _ _ _ => "Object"
    | OpRepeat _ _ _ _ _ _ _ _ _ _ _ _ _ _ _ _ => "repeat"
    | OpRoad _ _ _ _ _ _ => "Road" | OpAddSuccessor _ _ _ _ _ => "add_successor" | OpAddPredecessor _ _ _ _ _ => "add_predecessor"
    | OpAddNeighbor _ _ _ _ => "add_neighbor" | OpAddObject _ _ => "add_object" | OpAddSignal _ _ => "add_signal"
    | OpAddObjectRoadside _ _ _ _ _ _ => "add_object_roadside"
    | OpOpenDrive _ => "OpenDrive" | OpAddRoad _ _ => "add_road" | OpAddJunction _ _ => "add_junction"
    | OpAdjustStartpoints _ => "adjust_startpoints" | OpAdjustRoadsAndLanes _ => "adjust_roads_and_lanes"
    | OpAdjustRoadWrt _ _ _ _ _ => "adjust_road_wrt_neighbour" | OpStandardLane _ _ => "standard_lane"
    | OpCreateRoad _ _ _ _ _ _ _ => "create_road" | OpCreateStraightRoad _ _ _ _ _ => "create_straight_road"
    | OpCreateClothArcCloth _ _ _ _ _ _ _ _ => "create_cloth_arc_cloth"
    | OpCreateJunctionRoads _ _ _ _ _ _ _ => "create_junction_roads" | OpCreateJunction _ _ _ => "create_junction"
    end.
End Fail.
