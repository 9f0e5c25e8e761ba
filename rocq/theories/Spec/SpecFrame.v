(** * Which objects a call may change *)
From Coq Require Import ssreflect.
From Verif.Model Require Import Api.
From Verif.Spec Require Import SpecNetwork.
Local Open Scope general_if_scope.

Section Frame.
  Context {F : Type} `{!Num F}.
  Implicit Types (h : heap F).

  (** the object at address [r] (whatever it is) has the same contents in both states *)
  Definition same_object h h' (r : ref) : Prop :=
    h_geom h' !! r = h_geom h !! r ∧ h_pv h' !! r = h_pv h !! r ∧ h_lane h' !! r = h_lane h !! r ∧
    h_sec h' !! r = h_sec h !! r ∧ h_lanes h' !! r = h_lanes h !! r ∧ h_linker h' !! r = h_linker h !! r ∧
    h_conn h' !! r = h_conn h !! r ∧ h_junc h' !! r = h_junc h !! r ∧ h_obj h' !! r = h_obj h !! r ∧
    h_road h' !! r = h_road h !! r ∧ h_odr h' !! r = h_odr h !! r.

  (** [l] is a left or right lane of a section of road [x] *)
  Definition lane_of_road h (x l : ref) : Prop :=
    ∃ s, s ∈ h_lanes h !!! rd_lanes (h_road h !!! x) ∧ (l ∈ ls_left (h_sec h !!! s) ∨ l ∈ ls_right (h_sec h !!! s)).
  (** [l] is a lane of a pair of linker [k] *)
  Definition lane_of_linker h (k l : ref) : Prop := ∃ p, p ∈ h_linker h !!! k ∧ (l = ll_pred p ∨ l = ll_succ p).
  (** [r] is the planview of a road of network [d], or a primitive of such a planview *)
  Definition course_of_network h (d r : ref) : Prop :=
    ∃ k o, road_named h d k = Some o ∧ (r = rd_planview o ∨ r ∈ pv_raw (view h o)).
  (** [r] is the planview of the road with id [k] of network [d], or a primitive of that planview *)
  Definition course_of_road h (d : ref) (k : string) (r : ref) : Prop :=
    ∃ o, road_named h d k = Some o ∧ (r = rd_planview o ∨ r ∈ pv_raw (view h o)).
  (** [l] is a lane of a road of network [d] *)
  Definition lane_of_network h (d l : ref) : Prop :=
    ∃ k x, dict_get (od_roads (h_odr h !!! d)) k = Some x ∧ lane_of_road h x l.

  (** The objects that exist before a call and that it may change.  Constructors and generators change none, except that
      a lane section numbers its centre lane and create_junction_roads links the given roads to the junction. *)
  Definition touches (o : op F) h (r : ref) : Prop :=
    match o with
    | OpGetEndData g _ _ _ | OpGetStartData g _ _ _ => r = g           (* the cached length and angle *)
    | OpAddGeometry pv _ _ | OpSetStartPoint pv _ _ _ => r = pv
    | OpAdjustGeometries pv _ => r = pv ∨ r ∈ pv_raw (h_pv h !!! pv)
    | OpLaneAddLink l _ _ | OpLaneAddRoadmark l _ | OpLaneSection _ l => r = l
    | OpAddLeftLane s l | OpAddRightLane s l => r = s ∨ r = l
    | OpAddLaneSection ls _ ks => r = ls ∨ r ∈ ks ∨ ∃ k, k ∈ ks ∧ lane_of_linker h k r
    | OpLinkerAddLink k _ _ _ => r = k
    | OpAddLanelink c _ _ => r = c
    | OpAddConnection j c => r = j ∨ r = c
    | OpCreateLaneLinks r1 r2 => lane_of_road h r1 r ∨ lane_of_road h r2 r
    | OpRepeat x _ _ _ _ _ _ _ _ _ _ _ _ _ _ _ => r = x
    | OpAddSuccessor x _ _ _ _ | OpAddPredecessor x _ _ _ _ | OpAddNeighbor x _ _ _ => r = x
    | OpAddObject x os | OpAddSignal x os => r = x ∨ r ∈ os
    | OpAddObjectRoadside x _ _ _ _ _ => r = x                           (* not the prototype *)
    | OpAddRoad d _ | OpAddJunction d _ => r = d
    | OpAdjustStartpoints d => course_of_network h d r
    | OpAdjustRoadWrt d k _ _ _ => course_of_road h d (pystr k) r
    | OpAdjustRoadsAndLanes d => course_of_network h d r ∨ lane_of_network h d r
    | OpCreateJunctionRoads rs _ _ _ _ _ _ => r ∈ rs
    | _ => False
    end.
  (** the calls that may change the table of used ids, which all objects share *)
  Definition gives_ids (o : op F) : Prop :=
    match o with OpAddObject _ _ | OpAddSignal _ _ | OpAddObjectRoadside _ _ _ _ _ _ => True | _ => False end.

  (** an object has been stored at address [r] *)
  Definition existing h (r : ref) : Prop :=
    is_Some (h_geom h !! r) ∨ is_Some (h_pv h !! r) ∨ is_Some (h_lane h !! r) ∨ is_Some (h_sec h !! r) ∨ is_Some (h_lanes h !! r) ∨
    is_Some (h_linker h !! r) ∨ is_Some (h_conn h !! r) ∨ is_Some (h_junc h !! r) ∨ is_Some (h_obj h !! r) ∨ is_Some (h_road h !! r) ∨ is_Some (h_odr h !! r).

  (** ** Parts *)
  (** the objects that road [x] consists of *)
  Definition road_part h (x r : ref) : Prop :=
    let o := h_road h !!! x in
    r = x ∨ r = rd_planview o ∨ r ∈ pv_raw (view h o) ∨ (∃ p, p ∈ pv_geoms (view h o) ∧ r = pg_geom p) ∨ r = rd_lanes o ∨
    (∃ s, s ∈ h_lanes h !!! rd_lanes o ∧ (r = s ∨ r = ls_center (h_sec h !!! s) ∨ r ∈ ls_left (h_sec h !!! s) ∨ r ∈ ls_right (h_sec h !!! s))) ∨
    r ∈ rd_objects o ∨ r ∈ rd_signals o.
  (** the objects that OpenDrive [d] consists of *)
  Definition network_part h (d r : ref) : Prop :=
    r = d ∨ (∃ k x, (k, x) ∈ od_roads (h_odr h !!! d) ∧ road_part h x r) ∨
    ∃ j, j ∈ od_junctions (h_odr h !!! d) ∧ (r = j ∨ r ∈ jn_conns (h_junc h !!! j)).
  (** no call of the history changes an object that is a [part] (at the time of the call) *)
  Definition leaves_alone (part : heap F → ref → Prop) h (ops : list (op F)) : Prop :=
    ∀ pre o post, ops = pre ++ o :: post → ∀ r, part (run h pre) r → ¬ touches o (run h pre) r.
End Frame.
