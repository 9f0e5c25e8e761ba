(** * Histories of API calls

    [op] lists the public calls of pyodrx that can change the state, [step] performs one, [run] a whole history
    (an exception ends the call, not the program: the caller may catch it and go on).  Read-only calls
    ([get_element], [get_attributes], the getters) do not change the state and are not listed, except the
    evaluation of a primitive, which updates its caches.  A call naming an object that was never created is not a Python call; it is
    given the result [DanglingRef] and changes nothing. *)
From Verif.Model Require Export Xml.

Section Api.
  Context {F : Type} `{!Num F}.

  Inductive op :=
  (* geometry.py *)
  | OpLine (length : F)
  | OpSpiral (cs ce : F) (length angle cdot : option F)
  | OpArc (curvature : F) (length angle : option F)
  | OpPoly (au bu cu du av bv cv dv : F) (prange : string) (length : option F)
  | OpGetEndData (g : ref) (x y h : F)
  | OpGetStartData (g : ref) (x y h : F)
  | OpPlanView (x y h : option F)
  | OpAddGeometry (pv g : ref) (heading : option F)
  | OpSetStartPoint (pv : ref) (x y h : F)
  | OpAdjustGeometries (pv : ref) (from_end : bool)
  (* lane.py *)
  | OpLane (ty : LaneType) (a b c d soffset : F)
  | OpLaneAddLink (l : ref) (ty : string) (id : string)
  | OpLaneAddRoadmark (l : ref) (m : roadmark F)
  | OpLaneSection (s : F) (center : ref)
  | OpAddLeftLane (sec l : ref)
  | OpAddRightLane (sec l : ref)
  | OpLanes
  | OpAddLaneSection (ls sec : ref) (linkers : list ref)
  (* links.py *)
  | OpLaneLinker
  | OpLinkerAddLink (k pred succ : ref) (conn : option pyid)
  | OpConnection (incoming connecting : pyid) (cp : ContactPoint) (id : option pyid)
  | OpAddLanelink (c : ref) (i o : Z)
  | OpJunction (name : string) (id : pyid)
  | OpAddConnection (j c : ref)
  | OpCreateLaneLinks (r1 r2 : ref)
  (* signals_objects.py *)
  | OpSignal (s t : F) (country : string) (ty : ObjectType + string) (subtype : option string)
      (id : option pyid) (name : option string) (dynamic : Dynamic) (value : option F) (unit_ : option string)
      (zOffset : F) (orientation : Orientation) (hOffset pitch roll : F) (height width : option F)
  | OpObject (s t : F) (ty : ObjectType + string) (subtype : option string)
      (id : option pyid) (name : option string) (dynamic : Dynamic) (zOffset : F) (orientation : Orientation)
      (hdg pitch roll : F) (width length height radius validLength : option F)
  | OpRepeat (o : ref) (len dist : F)
      (sStart tStart tEnd heightStart heightEnd zStart zEnd wStart wEnd lStart lEnd rStart rEnd : option F)
  (* opendrive.py *)
  | OpRoad (id : pyid) (pv lanes : ref) (ty : Z) (name rule : option string)
  | OpAddSuccessor (r : ref) (et : option ElementType) (id : pyid) (cp : option ContactPoint) (off : Z)
  | OpAddPredecessor (r : ref) (et : option ElementType) (id : pyid) (cp : option ContactPoint) (off : Z)
  | OpAddNeighbor (r : ref) (et : option ElementType) (id : pyid) (dir : option Direction)
  | OpAddObject (r : ref) (os : list ref)
  | OpAddSignal (r : ref) (os : list ref)
  | OpAddObjectRoadside (r proto : ref) (dist sOffset tOffset : F) (side : RoadSide)
  | OpOpenDrive (name : string)
  | OpAddRoad (d r : ref)
  | OpAddJunction (d j : ref)
  | OpAdjustStartpoints (d : ref)
  | OpAdjustRoadsAndLanes (d : ref)
  | OpAdjustRoadWrt (d : ref) (road_id neighbour_id : pyid) (cp : option ContactPoint) (kind : string)
  (* generators.py *)
  | OpStandardLane (offset : F) (m : roadmark F)
  | OpCreateRoad (gs : list ref) (id : pyid) (left_lanes right_lanes : nat) (ty : Z)
      (center_mark : roadmark F) (lane_width : F)
  | OpCreateStraightRoad (id : pyid) (length : F) (junction : Z) (n_lanes : nat) (lane_offset : F)
  | OpCreateClothArcCloth (arc_curv arc_angle cloth_angle : F) (id : pyid) (junction : Z)
      (cloth_start : F) (n_lanes : nat) (lane_offset : F)
  | OpCreateJunctionRoads (roads : list ref) (angles : list F) (r : F) (junction : Z) (sp ap : F) (startnum : Z)
  | OpCreateJunction (junction_roads : list ref) (id : pyid) (roads : list ref).

  (** what a call returns *)
  Inductive retval :=
  | RNone
  | RRef (r : ref)
  | RRefs (rs : list ref)
  | RPose (x y h : F) (length : option F).

  Definition as_ref (m : H (F:=F) ref) : H (F:=F) retval := let! r := m in ret (RRef r).
  Definition as_refs (m : H (F:=F) (list ref)) : H (F:=F) retval := let! r := m in ret (RRefs r).
  Definition as_unit (m : H (F:=F) unit) : H (F:=F) retval := m ;; ret RNone.
  Definition as_pose (m : H (F:=F) (F * F * F * option F)) : H (F:=F) retval :=
    let! r := m in let '(((x, y, h), l)) := r in ret (RPose x y h l).

  (** the call is only performed if the named objects exist *)
  Definition guarded (b : heap F → bool) (m : H (F:=F) retval) : H (F:=F) retval :=
    λ h, if b h then m h else (Err DanglingRef, h).

  Definition has {V} (f : heap F → gmap nat V) (r : ref) (h : heap F) : bool := bool_decide (is_Some (f h !! r)).
  Definition all_have {V} (f : heap F → gmap nat V) (rs : list ref) (h : heap F) : bool := forallb (λ r, has f r h) rs.

  Definition step (o : op) : H (F:=F) retval :=
    match o with
    | OpLine l => as_ref (new_geom (mk_line l))
    | OpSpiral cs ce l a c => as_ref (let! g := lift (mk_spiral cs ce l a c) in new_geom g)
    | OpArc c l a => as_ref (let! g := lift (mk_arc c l a) in new_geom g)
    | OpPoly au bu cu du av bv cv dv p l => as_ref (let! g := lift (mk_poly au bu cu du av bv cv dv p l) in new_geom g)
    | OpGetEndData g x y h => guarded (has h_geom g) (as_pose (eval_end g x y h))
    | OpGetStartData g x y h => guarded (has h_geom g) (as_pose (eval_start g x y h))
    | OpPlanView x y h => as_ref (let! p := lift (mk_planview x y h) in new_pv p)
    | OpAddGeometry pv g hd => guarded (λ h, has h_pv pv h && has h_geom g h) (as_unit (pv_add_geometry pv g hd))
    | OpSetStartPoint pv x y h => guarded (has h_pv pv) (as_unit (pv_set_start_point pv x y h))
    | OpAdjustGeometries pv b => guarded (has h_pv pv) (as_unit (adjust_geometries pv b))
    | OpLane ty a b c d s => as_ref (lane_ctor ty a b c d s)
    | OpLaneAddLink l ty id => guarded (has h_lane l) (as_unit (lane_add_link l (Some ty) id))
    | OpLaneAddRoadmark l m => guarded (has h_lane l) (as_unit (lane_add_roadmark l m))
    | OpLaneSection s c => guarded (has h_lane c) (as_ref (lanesection_ctor s c))
    | OpAddLeftLane sec l => guarded (λ h, has h_sec sec h && has h_lane l h) (as_unit (add_left_lane sec l))
    | OpAddRightLane sec l => guarded (λ h, has h_sec sec h && has h_lane l h) (as_unit (add_right_lane sec l))
    | OpLanes => as_ref lanes_ctor
    | OpAddLaneSection ls sec ks =>
      guarded (λ h, has h_lanes ls h && has h_sec sec h && all_have h_linker ks h) (as_unit (add_lanesection ls sec ks))
    | OpLaneLinker => as_ref linker_ctor
    | OpLinkerAddLink k p s c =>
      guarded (λ h, has h_linker k h && has h_lane p h && has h_lane s h) (as_unit (linker_add_link k p s c))
    | OpConnection i c cp id => as_ref (connection_ctor i c cp id)
    | OpAddLanelink c i o => guarded (has h_conn c) (as_unit (conn_add_lanelink c i o))
    | OpJunction n id => as_ref (junction_ctor n id)
    | OpAddConnection j c => guarded (λ h, has h_junc j h && has h_conn c h) (as_unit (add_connection j c))
    | OpCreateLaneLinks r1 r2 => guarded (λ h, has h_road r1 h && has h_road r2 h) (as_unit (create_lane_links r1 r2))
    | OpSignal s t c ty st id n dy v u z o ho p r he w =>
      as_ref (new_obj (signal_ctor s t c ty st id n dy v u z o ho p r he w))
    | OpObject s t ty st id n dy z o hd p r w l he ra vl =>
      as_ref (new_obj (object_ctor s t ty st id n dy z o hd p r w l he ra vl))
    | OpRepeat o len dist a b c d e f g i j k l m n =>
      guarded (has h_obj o)
        (as_unit (let! x := get_obj o in
                  (* Signal has no method repeat *)
                  match so_class x with
                  | CSignal => raise AttributeError
                  | CObject => object_repeat o len dist a b c d e f g i j k l m n
                  end))
    | OpRoad id pv ls ty n ru => guarded (λ h, has h_pv pv h && has h_lanes ls h) (as_ref (road_ctor id pv ls ty n ru))
    | OpAddSuccessor r et id cp off => guarded (has h_road r) (as_unit (add_successor r et id cp off))
    | OpAddPredecessor r et id cp off => guarded (has h_road r) (as_unit (add_predecessor r et id cp off))
    | OpAddNeighbor r et id d => guarded (has h_road r) (as_unit (add_neighbor r et id d))
    | OpAddObject r os => guarded (λ h, has h_road r h && all_have h_obj os h) (as_unit (add_object r os))
    | OpAddSignal r os => guarded (λ h, has h_road r h && all_have h_obj os h) (as_unit (add_signal r os))
    | OpAddObjectRoadside r p d s t side =>
      guarded (λ h, has h_road r h && has h_obj p h) (as_unit (add_object_roadside r p d s t side))
    | OpOpenDrive n => as_ref (odr_ctor n)
    | OpAddRoad d r => guarded (λ h, has h_odr d h && has h_road r h) (as_unit (add_road d r))
    | OpAddJunction d j => guarded (λ h, has h_odr d h && has h_junc j h) (as_unit (add_junction d j))
    | OpAdjustStartpoints d => guarded (has h_odr d) (as_unit (adjust_startpoints d))
    | OpAdjustRoadsAndLanes d => guarded (has h_odr d) (as_unit (adjust_roads_and_lanes d))
    | OpAdjustRoadWrt d k k2 cp kind => guarded (has h_odr d) (as_unit (adjust_road_wrt d k k2 cp kind))
    | OpStandardLane w m => as_ref (standard_lane w m)
    | OpCreateRoad gs id l r ty m w => guarded (all_have h_geom gs) (as_ref (create_road gs id l r ty m w))
    | OpCreateStraightRoad id l j n w => as_ref (create_straight_road id l j n w)
    | OpCreateClothArcCloth c a ca id j cs n w => as_ref (create_cloth_arc_cloth c a ca id j cs n w)
    | OpCreateJunctionRoads rs an r j sp ap n => guarded (all_have h_road rs) (as_refs (create_junction_roads rs an r j sp ap n))
    | OpCreateJunction jrs id rs =>
      guarded (λ h, all_have h_road jrs h && all_have h_road rs h) (as_ref (create_junction jrs id rs))
    end.

  (** the state after a history *)
  Definition run (h : heap F) (os : list op) : heap F := foldl (λ h o, (step o h).2) h os.

  (** states a program can reach *)
  Definition reachable (h : heap F) : Prop := ∃ os, h = run heap_init os.
End Api.
Arguments op : clear implicits.
Arguments retval : clear implicits.
