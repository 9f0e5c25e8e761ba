(** * The objects of pyodrx and the heap they live in

    Classes whose instances the API can share and mutate are stored in the heap under a
    reference; immutable values are plain records.  Attributes are those set by the
    classes' [__init__] (cited at each record). *)
From Verif.Model Require Export Py Num Enums.
From RecordUpdate Require Export RecordSet.
Export RecordSetNotations.

(** links.py:160-188 [_Link] (immutable after construction).  [link_type] is a Python str, or
    None in one corner case of [_create_links_connecting_road]. *)
Record link := mkLink {
  lk_type : option string;
  lk_id : pyid;                       (* element_id *)
  lk_etype : option ElementType;      (* element_type *)
  lk_contact : option ContactPoint;   (* contact_point *)
  lk_dir : option Direction           (* direction *)
}.
#[global] Instance link_eq_dec : EqDecision link. Proof. solve_decision. Defined.

(** links.py:251-259 [_lanelink] *)
Record lanelink := mkLanelink {
  ll_pred : ref;
  ll_succ : ref;
  ll_conn : option pyid;
  ll_used : bool
}.
#[global] Instance eta_lanelink : Settable lanelink :=
  settable! mkLanelink <ll_pred; ll_succ; ll_conn; ll_used>.

(** links.py:299-317 [Connection] *)
Record connection := mkConnection {
  cn_incoming : pyid;
  cn_connecting : pyid;
  cn_contact : ContactPoint;
  cn_id : option pyid;
  cn_links : list (Z * Z)
}.
#[global] Instance eta_connection : Settable connection :=
  settable! mkConnection <cn_incoming; cn_connecting; cn_contact; cn_id; cn_links>.
#[global] Instance connection_inhabited : Inhabited connection :=
  populate (mkConnection inhabitant inhabitant cp_start None []).

(** links.py:390-402 [Junction] *)
Record junction := mkJunction {
  jn_name : string;
  jn_id : pyid;
  jn_conns : list ref;
  jn_counter : Z
}.
#[global] Instance eta_junction : Settable junction :=
  settable! mkJunction <jn_name; jn_id; jn_conns; jn_counter>.
#[global] Instance junction_inhabited : Inhabited junction :=
  populate (mkJunction "" inhabitant [] 0).

(** opendrive.py:368-380 [OpenDrive]; [roads] is a dict keyed by [str(road.id)].  The [_Header] only holds the name. *)
Record opendrive := mkOpenDrive {
  od_name : string;
  od_roads : dict ref;
  od_junctions : list ref
}.
#[global] Instance eta_opendrive : Settable opendrive :=
  settable! mkOpenDrive <od_name; od_roads; od_junctions>.
#[global] Instance opendrive_inhabited : Inhabited opendrive := populate (mkOpenDrive "" [] []).

(** The classes that share the id tables of [_SignalObjectBase]. *)
Inductive sclass := CSignal | CObject.
#[global] Instance sclass_eq_dec : EqDecision sclass. Proof. solve_decision. Defined.
(** [self.__class__.__name__] *)
Definition sclass_name (c : sclass) : string :=
  match c with CSignal => "Signal" | CObject => "Object" end.

(** opendrive.py:120-153 [Road]; its [_Links] object is inlined. [adjusted] (never read) is dropped. *)
Record road := mkRoad {
  rd_id : pyid;
  rd_planview : ref;
  rd_lanes : ref;
  rd_type : Z;
  rd_name : option string;
  rd_rule : option string;
  rd_links : list link;
  rd_neighbors : nat;                    (* _neighbor_added *)
  rd_succ : option link;                 (* successor *)
  rd_pred : option link;                 (* predecessor *)
  rd_off_suc : Z;                        (* lane_offset_suc *)
  rd_off_pred : Z;                       (* lane_offset_pred *)
  rd_objects : list ref;
  rd_signals : list ref
}.
#[global] Instance eta_road : Settable road :=
  settable! mkRoad <rd_id; rd_planview; rd_lanes; rd_type; rd_name; rd_rule; rd_links;
    rd_neighbors; rd_succ; rd_pred; rd_off_suc; rd_off_pred; rd_objects; rd_signals>.
(** opendrive.py:120-153 *)
Definition road_new (id : pyid) (pv lanes : ref) (ty : Z) (name rule : option string) : road :=
  mkRoad id pv lanes ty name rule [] 0 None None 0 0 [] [].
#[global] Instance road_inhabited : Inhabited road := populate (road_new inhabitant 0 0 (-1) None None).

Section Records.
  Context (F : Type).

  (** geometry.py:336-337 [Line], 438-459 [Spiral], 559-582 [Arc], 770-808 [ParamPoly3].
      [Arc.length], [Arc.angle] and [ParamPoly3.length] are caches that evaluation mutates. *)
  Inductive geom :=
  | GLine (length : F)
  | GSpiral (curvstart curvend : F) (length : option F)
  | GArc (curvature : F) (length angle : option F)
  | GPoly (au bu cu du av bv cv dv : F) (prange : string) (length : option F).

  (** geometry.py:44-67 [_Geometry]: a placed ("adjusted") geometry. *)
  Record pgeom := mkPgeom {
    pg_s : option F;
    pg_x : F;
    pg_y : F;
    pg_h : F;
    pg_geom : ref;
    pg_length : option F
  }.

  (** geometry.py:148-177 [PlanView]; (x_start,y_start,h_start) and (x_end,y_end,h_end) are always
      assigned together and kept as one optional triple each. *)
  Record planview := mkPlanview {
    pv_x : F;                              (* present_x *)
    pv_y : F;                              (* present_y *)
    pv_h : F;                              (* present_h *)
    pv_s : F;                              (* present_s *)
    pv_fixed : bool;
    pv_start : option (F * F * F);
    pv_end : option (F * F * F);
    pv_raw : list ref;                     (* _raw_geometries *)
    pv_geoms : list pgeom;                 (* _adjusted_geometries *)
    pv_over : list F;                      (* _overridden_headings *)
    pv_adjusted : bool
  }.

  (** lane.py:373-400 [RoadLine] (immutable after construction) *)
  Record roadline := mkRoadline {
    rl_length : F;
    rl_space : F;
    rl_toffset : F;
    rl_rule : option MarkRule;
    rl_soffset : F;
    rl_width : F;
    rl_color : option RoadMarkColor
  }.

  (** lane.py:477-546 [RoadMark] (immutable after construction) *)
  Record roadmark := mkRoadmark {
    rm_type : RoadMarkType;
    rm_weight : RoadMarkWeight;
    rm_color : RoadMarkColor;
    rm_soffset : F;
    rm_height : F;
    rm_laneChange : option LaneChange;
    rm_width : option F;
    rm_length : option F;
    rm_space : option F;
    rm_toffset : option F;
    rm_rule : option MarkRule;
    rm_line : option roadline
  }.

  (** lane.py:229-262 [Lane]; its [_Links] object is only reachable through it, so the list is inlined. *)
  Record lane := mkLane {
    ln_id : option Z;
    ln_type : LaneType;
    ln_a : F; ln_b : F; ln_c : F; ln_d : F;
    ln_soffset : F;
    ln_roadmark : option roadmark;
    ln_links : list link
  }.

  (** lane.py:98-113 [LaneSection] *)
  Record lanesection := mkLaneSection {
    ls_s : F;
    ls_center : ref;
    ls_left : list ref;
    ls_right : list ref;
    ls_left_id : Z;
    ls_right_id : Z
  }.

  (** signals_objects.py:56-100 [_SignalObjectBase], 189-245 [Signal], 362-427 [Object]: one record,
      fields of the other class hold their defaults. *)
  Record sobj := mkSobj {
    so_class : sclass;
    so_s : F;
    so_t : F;
    so_id : option pyid;
    so_type : ObjectType + string;
    so_subtype : option string;
    so_dynamic : Dynamic;
    so_name : option string;
    so_zoffset : F;
    so_orientation : Orientation;
    so_pitch : F;
    so_roll : F;
    so_width : option F;
    so_height : option F;
    (* Signal only *)
    so_country : string;
    so_value : option F;
    so_unit : option string;
    so_hoffset : F;
    (* Object only *)
    so_validLength : option F;
    so_length : option F;
    so_hdg : F;
    so_radius : option F;
    so_repeats : list (dict string)
  }.

  (** The whole mutable state.  [h_ids] merges the two class-level dictionaries
      [_SignalObjectBase._usedIDs] and [._IDCounter] (signals_objects.py:53-54), which always have the same
      keys.  [h_next] is the next free address (one counter for all stores). *)
  Record heap := mkHeap {
    h_geom : gmap nat geom;
    h_pv : gmap nat planview;
    h_lane : gmap nat lane;
    h_sec : gmap nat lanesection;
    h_lanes : gmap nat (list ref);
    h_linker : gmap nat (list lanelink);
    h_conn : gmap nat connection;
    h_junc : gmap nat junction;
    h_obj : gmap nat sobj;
    h_road : gmap nat road;
    h_odr : gmap nat opendrive;
    h_ids : gmap string (list string * N);
    h_next : nat
  }.
End Records.

Arguments GLine {F}. Arguments GSpiral {F}. Arguments GArc {F}. Arguments GPoly {F}.
Arguments mkPgeom {F}. Arguments pg_s {F}. Arguments pg_x {F}. Arguments pg_y {F}.
Arguments pg_h {F}. Arguments pg_geom {F}. Arguments pg_length {F}.
Arguments mkPlanview {F}. Arguments pv_x {F}. Arguments pv_y {F}. Arguments pv_h {F}.
Arguments pv_s {F}. Arguments pv_fixed {F}. Arguments pv_start {F}. Arguments pv_end {F}.
Arguments pv_raw {F}. Arguments pv_geoms {F}. Arguments pv_over {F}. Arguments pv_adjusted {F}.
Arguments mkRoadline {F}. Arguments rl_length {F}. Arguments rl_space {F}.
Arguments rl_toffset {F}. Arguments rl_rule {F}. Arguments rl_soffset {F}. Arguments rl_width {F}.
Arguments rl_color {F}.
Arguments mkRoadmark {F}. Arguments rm_type {F}. Arguments rm_weight {F}. Arguments rm_color {F}.
Arguments rm_soffset {F}. Arguments rm_height {F}. Arguments rm_laneChange {F}.
Arguments rm_width {F}. Arguments rm_length {F}. Arguments rm_space {F}. Arguments rm_toffset {F}.
Arguments rm_rule {F}. Arguments rm_line {F}.
Arguments mkLane {F}. Arguments ln_id {F}. Arguments ln_type {F}. Arguments ln_a {F}.
Arguments ln_b {F}. Arguments ln_c {F}. Arguments ln_d {F}. Arguments ln_soffset {F}.
Arguments ln_roadmark {F}. Arguments ln_links {F}.
Arguments mkLaneSection {F}. Arguments ls_s {F}. Arguments ls_center {F}. Arguments ls_left {F}.
Arguments ls_right {F}. Arguments ls_left_id {F}. Arguments ls_right_id {F}.
Arguments mkSobj {F}. Arguments so_class {F}. Arguments so_s {F}. Arguments so_t {F}.
Arguments so_id {F}. Arguments so_type {F}. Arguments so_subtype {F}. Arguments so_dynamic {F}.
Arguments so_name {F}. Arguments so_zoffset {F}. Arguments so_orientation {F}.
Arguments so_pitch {F}. Arguments so_roll {F}. Arguments so_width {F}. Arguments so_height {F}.
Arguments so_country {F}. Arguments so_value {F}. Arguments so_unit {F}. Arguments so_hoffset {F}.
Arguments so_validLength {F}. Arguments so_length {F}. Arguments so_hdg {F}.
Arguments so_radius {F}. Arguments so_repeats {F}.
Arguments mkHeap {F}. Arguments h_geom {F}. Arguments h_pv {F}. Arguments h_lane {F}.
Arguments h_sec {F}. Arguments h_lanes {F}. Arguments h_linker {F}. Arguments h_conn {F}.
Arguments h_junc {F}. Arguments h_obj {F}. Arguments h_road {F}. Arguments h_odr {F}.
Arguments h_ids {F}. Arguments h_next {F}.

#[global] Instance eta_pgeom {F} : Settable (pgeom F) :=
  settable! (mkPgeom (F:=F)) <pg_s; pg_x; pg_y; pg_h; pg_geom; pg_length>.
#[global] Instance eta_planview {F} : Settable (planview F) :=
  settable! (mkPlanview (F:=F)) <pv_x; pv_y; pv_h; pv_s; pv_fixed; pv_start; pv_end; pv_raw; pv_geoms;
    pv_over; pv_adjusted>.
#[global] Instance eta_lane {F} : Settable (lane F) :=
  settable! (mkLane (F:=F)) <ln_id; ln_type; ln_a; ln_b; ln_c; ln_d; ln_soffset; ln_roadmark; ln_links>.
#[global] Instance eta_lanesection {F} : Settable (lanesection F) :=
  settable! (mkLaneSection (F:=F)) <ls_s; ls_center; ls_left; ls_right; ls_left_id; ls_right_id>.
#[global] Instance eta_sobj {F} : Settable (sobj F) :=
  settable! (mkSobj (F:=F)) <so_class; so_s; so_t; so_id; so_type; so_subtype; so_dynamic; so_name;
    so_zoffset; so_orientation; so_pitch; so_roll; so_width; so_height; so_country; so_value; so_unit;
    so_hoffset; so_validLength; so_length; so_hdg; so_radius; so_repeats>.
#[global] Instance eta_heap {F} : Settable (heap F) :=
  settable! (mkHeap (F:=F)) <h_geom; h_pv; h_lane; h_sec; h_lanes; h_linker; h_conn; h_junc; h_obj;
    h_road; h_odr; h_ids; h_next>.

Section HeapOps.
  Context {F : Type} `{!Num F}.

  #[global] Instance geom_inhabited : Inhabited (geom F) := populate (GLine (fofZ 0)).

  (** geometry.py:148-177: a PlanView constructed without arguments *)
  Definition planview_new : planview F :=
    mkPlanview (fofZ 0) (fofZ 0) (fofZ 0) (fofZ 0) false None None [] [] [] false.
  #[global] Instance planview_inhabited : Inhabited (planview F) := populate planview_new.

  (** lane.py:229-262 *)
  Definition lane_new (ty : LaneType) (a b c d soffset : F) : lane F :=
    mkLane None ty a b c d soffset None [].
  #[global] Instance lane_inhabited : Inhabited (lane F) :=
    populate (lane_new lt_driving (fofZ 0) (fofZ 0) (fofZ 0) (fofZ 0) (fofZ 0)).
  #[global] Instance lanesection_inhabited : Inhabited (lanesection F) :=
    populate (mkLaneSection (fofZ 0) 0 [] [] 1 (-1)).
  #[global] Instance sobj_inhabited : Inhabited (sobj F) :=
    populate (mkSobj CObject (fofZ 0) (fofZ 0) None (inl ot_none) None dyn_no None (fofZ 0) or_none
                (fofZ 0) (fofZ 0) None None "" None None (fofZ 0) None None (fofZ 0) None []).
  (** The state before any call. *)
  Definition heap_init : heap F := mkHeap ∅ ∅ ∅ ∅ ∅ ∅ ∅ ∅ ∅ ∅ ∅ ∅ 0.

  Definition H (A : Type) := M (heap F) A.

  (** reading an object *)
  Definition get_geom (r : ref) : H (geom F) := gets (λ h, h_geom h !!! r).
  Definition get_pv (r : ref) : H (planview F) := gets (λ h, h_pv h !!! r).
  Definition get_lane (r : ref) : H (lane F) := gets (λ h, h_lane h !!! r).
  Definition get_sec (r : ref) : H (lanesection F) := gets (λ h, h_sec h !!! r).
  Definition get_lanes (r : ref) : H (list ref) := gets (λ h, h_lanes h !!! r).
  Definition get_linker (r : ref) : H (list lanelink) := gets (λ h, h_linker h !!! r).
  Definition get_conn (r : ref) : H connection := gets (λ h, h_conn h !!! r).
  Definition get_junc (r : ref) : H junction := gets (λ h, h_junc h !!! r).
  Definition get_obj (r : ref) : H (sobj F) := gets (λ h, h_obj h !!! r).
  Definition get_road (r : ref) : H (road) := gets (λ h, h_road h !!! r).
  Definition get_odr (r : ref) : H opendrive := gets (λ h, h_odr h !!! r).

  (** mutating an object *)
  Definition upd_geom (r : ref) (f : geom F → geom F) : H unit :=
    modify (λ h, h <| h_geom := <[r := f (h_geom h !!! r)]> (h_geom h) |>).
  Definition upd_pv (r : ref) (f : planview F → planview F) : H unit :=
    modify (λ h, h <| h_pv := <[r := f (h_pv h !!! r)]> (h_pv h) |>).
  Definition upd_lane (r : ref) (f : lane F → lane F) : H unit :=
    modify (λ h, h <| h_lane := <[r := f (h_lane h !!! r)]> (h_lane h) |>).
  Definition upd_sec (r : ref) (f : lanesection F → lanesection F) : H unit :=
    modify (λ h, h <| h_sec := <[r := f (h_sec h !!! r)]> (h_sec h) |>).
  Definition upd_lanes (r : ref) (f : list ref → list ref) : H unit :=
    modify (λ h, h <| h_lanes := <[r := f (h_lanes h !!! r)]> (h_lanes h) |>).
  Definition upd_linker (r : ref) (f : list lanelink → list lanelink) : H unit :=
    modify (λ h, h <| h_linker := <[r := f (h_linker h !!! r)]> (h_linker h) |>).
  Definition upd_conn (r : ref) (f : connection → connection) : H unit :=
    modify (λ h, h <| h_conn := <[r := f (h_conn h !!! r)]> (h_conn h) |>).
  Definition upd_junc (r : ref) (f : junction → junction) : H unit :=
    modify (λ h, h <| h_junc := <[r := f (h_junc h !!! r)]> (h_junc h) |>).
  Definition upd_obj (r : ref) (f : sobj F → sobj F) : H unit :=
    modify (λ h, h <| h_obj := <[r := f (h_obj h !!! r)]> (h_obj h) |>).
  Definition upd_road (r : ref) (f : road → road) : H unit :=
    modify (λ h, h <| h_road := <[r := f (h_road h !!! r)]> (h_road h) |>).
  Definition upd_odr (r : ref) (f : opendrive → opendrive) : H unit :=
    modify (λ h, h <| h_odr := <[r := f (h_odr h !!! r)]> (h_odr h) |>).

  (** allocating an object *)
  Definition new_geom (x : geom F) : H ref :=
    λ h, (Ok (h_next h), h <| h_geom := <[h_next h := x]> (h_geom h) |> <| h_next := S (h_next h) |>).
  Definition new_pv (x : planview F) : H ref :=
    λ h, (Ok (h_next h), h <| h_pv := <[h_next h := x]> (h_pv h) |> <| h_next := S (h_next h) |>).
  Definition new_lane (x : lane F) : H ref :=
    λ h, (Ok (h_next h), h <| h_lane := <[h_next h := x]> (h_lane h) |> <| h_next := S (h_next h) |>).
  Definition new_sec (x : lanesection F) : H ref :=
    λ h, (Ok (h_next h), h <| h_sec := <[h_next h := x]> (h_sec h) |> <| h_next := S (h_next h) |>).
  Definition new_lanes (x : list ref) : H ref :=
    λ h, (Ok (h_next h), h <| h_lanes := <[h_next h := x]> (h_lanes h) |> <| h_next := S (h_next h) |>).
  Definition new_linker (x : list lanelink) : H ref :=
    λ h, (Ok (h_next h), h <| h_linker := <[h_next h := x]> (h_linker h) |> <| h_next := S (h_next h) |>).
  Definition new_conn (x : connection) : H ref :=
    λ h, (Ok (h_next h), h <| h_conn := <[h_next h := x]> (h_conn h) |> <| h_next := S (h_next h) |>).
  Definition new_junc (x : junction) : H ref :=
    λ h, (Ok (h_next h), h <| h_junc := <[h_next h := x]> (h_junc h) |> <| h_next := S (h_next h) |>).
  Definition new_obj (x : sobj F) : H ref :=
    λ h, (Ok (h_next h), h <| h_obj := <[h_next h := x]> (h_obj h) |> <| h_next := S (h_next h) |>).
  Definition new_road (x : road) : H ref :=
    λ h, (Ok (h_next h), h <| h_road := <[h_next h := x]> (h_road h) |> <| h_next := S (h_next h) |>).
  Definition new_odr (x : opendrive) : H ref :=
    λ h, (Ok (h_next h), h <| h_odr := <[h_next h := x]> (h_odr h) |> <| h_next := S (h_next h) |>).
End HeapOps.
