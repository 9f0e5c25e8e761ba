(** * A reader of OpenDRIVE element trees, and what a file should say about a network

    The first part knows nothing about the model: it reads a tree the way a consumer of the file would, finding
    attributes and children by name and rejecting trees with unknown or repeated attributes or misplaced elements.
    The second part says, field by field, what the reader should find for a given state. *)
From Coq Require Import ssreflect.
From Verif.Model Require Import Api Xml.
From Verif.Spec Require Export SpecState SpecHistory SpecLanes SpecEnums.
Local Open Scope general_if_scope.

(** ** Reading *)
(** the values of the named attributes (None: absent), if there are no others and none occurs twice *)
Definition read_attrs (ks : list string) (e : xml) : option (list (option string)) :=
  if bool_decide (NoDup (map fst (xattrs e)) ∧ Forall (λ k, k ∈ ks) (map fst (xattrs e)))
  then Some (map (dict_get (xattrs e)) ks) else None.
Definition tagged (t : string) (e : xml) : option xml := if bool_decide (xtag e = Some t) then Some e else None.
(** the children with a tag *)
Definition sub (t : string) (e : xml) : list xml := filter (λ c, xtag c = Some t) (xchildren e).
(** the only child with a tag *)
Definition the (t : string) (e : xml) : option xml := match sub t e with [c] => Some c | _ => None end.
(** the child with a tag that may be missing *)
Definition maybe {A} (t : string) (e : xml) (read : xml → option A) : option (option A) :=
  match sub t e with [] => Some None | [c] => Some <$> read c | _ => None end.
(** all children are tagged [t] and are read *)
Definition each {A} (t : string) (read : xml → option A) (e : xml) : option (list A) := mapM (λ c, c ← tagged t c; read c) (xchildren e).
Definition leaf (e : xml) : option () := match xchildren e with [] => Some () | _ => None end.

Notation values := (list (option string)) (only parsing).

Record mark_c := MarkC { mc_attrs : values; mc_line : option (values * values) }.
Record lane_c := LaneC { lc_attrs : values; lc_links : list (option string * values); lc_width : values; lc_mark : option mark_c }.
Record section_c := SectionC { sc_attrs : values; sc_left : list lane_c; sc_center : lane_c; sc_right : list lane_c }.
Record geometry_c := GeometryC { gc_attrs : values; gc_shape : option string * values }.
Record object_c := ObjectC { oc_attrs : values; oc_repeats : list values }.
Record road_c := RoadC { rc_attrs : values; rc_links : list (option string * values); rc_geometries : list geometry_c;
  rc_sections : list section_c; rc_signals : list values; rc_objects : list object_c }.
Record connection_c := ConnectionC { cc_attrs : values; cc_links : list values }.
Record junction_c := JunctionC { jc_attrs : values; jc_connections : list connection_c }.
Record network_c := NetworkC { nc_header : values; nc_roads : list road_c; nc_junctions : list junction_c }.

Definition link_keys := ["elementType"; "elementId"; "id"; "contactPoint"; "direction"].
Definition mark_keys := ["sOffset"; "type"; "weight"; "color"; "height"; "width"; "laneChange"].
Definition line_keys := ["length"; "space"; "tOffset"; "width"; "sOffset"; "rule"].
Definition poly_keys := ["a"; "b"; "c"; "d"; "sOffset"].
Definition place_keys := ["s"; "x"; "y"; "hdg"; "length"].
Definition shape_keys := ["curvStart"; "curvEnd"; "curvature"; "aU"; "bU"; "cU"; "dU"; "aV"; "bV"; "cV"; "dV"; "pRange"].
Definition common_keys := ["id"; "s"; "t"; "subtype"; "dynamic"; "zOffset"; "pitch"; "roll"; "width"; "height"; "name"; "type"; "orientation"].
Definition signal_keys := common_keys ++ ["country"; "hOffset"; "value"; "unit"].
Definition object_keys := common_keys ++ ["validLength"; "hdg"; "radius"; "length"].
Definition all_repeat_keys := ["length"; "distance"; "s"; "tStart"; "tEnd"; "heightStart"; "heightEnd"; "zOffsetStart"; "zOffsetEnd";
  "widthStart"; "widthEnd"; "lengthStart"; "lengthEnd"; "radiusStart"; "radiusEnd"].
Definition road_keys := ["name"; "rule"; "id"; "junction"; "length"].
Definition header_keys := ["name"; "revMajor"; "revMinor"; "date"; "north"; "south"; "east"; "west"].

Definition read_link (e : xml) : option (option string * values)  := _ ← leaf e; vs ← read_attrs link_keys e; Some (xtag e, vs).
Definition read_links (e : xml) : option (list (option string * values)) := _ ← read_attrs [] e; mapM read_link (xchildren e).
Definition read_line (e : xml) : option values  := _ ← leaf e; read_attrs line_keys e.
Definition read_mark_type (e : xml) : option (values * values) := l ← the "line" e; vs ← read_attrs ["name"; "width"] e; ws ← read_line l; Some (vs, ws).
Definition read_mark (e : xml) : option mark_c := vs ← read_attrs mark_keys e; l ← maybe "type" e read_mark_type; Some (MarkC vs l).
Definition read_lane (e : xml) : option lane_c :=
  vs ← read_attrs ["id"; "type"; "level"] e; k ← the "link" e; ks ← read_links k; w ← the "width" e; ws ← read_attrs poly_keys w;
  m ← maybe "roadMark" e read_mark; Some (LaneC vs ks ws m).
Definition read_side (t : string) (e : xml) : option (list lane_c) :=
  o ← maybe t e (λ c, _ ← read_attrs [] c; each "lane" read_lane c); Some (default [] o).
Definition read_section (e : xml) : option section_c :=
  vs ← read_attrs ["s"] e; l ← read_side "left" e; c ← the "center" e; cs ← each "lane" read_lane c; r ← read_side "right" e;
  match cs with [c] => Some (SectionC vs l c r) | _ => None end.
Definition read_shape (e : xml) : option (option string * values)  := _ ← leaf e; vs ← read_attrs shape_keys e; Some (xtag e, vs).
Definition read_geometry (e : xml) : option geometry_c :=
  vs ← read_attrs place_keys e; match xchildren e with [c] => sh ← read_shape c; Some (GeometryC vs sh) | _ => None end.
Definition read_signal (e : xml) : option values  := _ ← leaf e; read_attrs signal_keys e.
Definition read_repeat (e : xml) : option values  := _ ← leaf e; read_attrs all_repeat_keys e.
Definition read_object (e : xml) : option object_c := vs ← read_attrs object_keys e; rs ← each "repeat" read_repeat e; Some (ObjectC vs rs).
Definition read_road (e : xml) : option road_c :=
  vs ← read_attrs road_keys e; k ← the "link" e; ks ← read_links k; p ← the "planView" e; gs ← each "geometry" read_geometry p;
  l ← the "lanes" e; ss ← each "laneSection" read_section l;
  sg ← maybe "signals" e (each "signal" read_signal); ob ← maybe "objects" e (each "object" read_object);
  Some (RoadC vs ks gs ss (default [] sg) (default [] ob)).
Definition read_connection (e : xml) : option connection_c :=
  vs ← read_attrs ["incomingRoad"; "id"; "contactPoint"; "connectingRoad"] e;
  ls ← each "laneLink" (λ l, _ ← leaf l; read_attrs ["from"; "to"] l) e; Some (ConnectionC vs ls).
Definition read_junction (e : xml) : option junction_c := vs ← read_attrs ["name"; "id"] e; cs ← each "connection" read_connection e; Some (JunctionC vs cs).
Definition read_network (e : xml) : option network_c :=
  e ← tagged "OpenDRIVE" e; hd ← the "header" e; hs ← read_attrs header_keys hd;
  rs ← mapM read_road (sub "road" e); js ← mapM read_junction (sub "junction" e);
  if bool_decide (map xtag (xchildren e) = [Some "header"] ++ replicate (length rs) (Some "road") ++ replicate (length js) (Some "junction")) then Some (NetworkC hs rs js) else None.

(** ** What should be found *)
Section Content.
  Context {F : Type} `{!Num F}.
  Implicit Types (h : heap F).
  Local Notation num x := (Some (fstr x)).
  Local Notation num_opt x := (fstr <$> x).
  (** a value that is missing is written as None *)
  Local Notation or_None f x := (Some match x with Some y => f y | None => "None" end).
  Local Notation enum word x := (Some (word x)).
  Local Notation enum_opt word x := (word <$> x).

  Definition link_content (k : link) : option string * values :=
    (lk_type k,
     [enum_opt element_word (lk_etype k); (if lk_etype k then Some (pystr (lk_id k)) else None);
      (if lk_etype k then None else Some (pystr (lk_id k))); enum_opt contact_word (lk_contact k);
      if lk_contact k then None else if bool_decide (lk_type k = Some "neighbor") then enum_opt direction_word (lk_dir k) else None]).
  Definition line_content (l : roadline F) : values :=
    [num (rl_length l); num (rl_space l); num (rl_toffset l); num (rl_width l); num (rl_soffset l); enum_opt rule_word (rl_rule l)].
  Definition mark_content (m : roadmark F) : mark_c :=
    MarkC [num (rm_soffset m); enum mark_word (rm_type m); enum weight_word (rm_weight m); enum color_word (rm_color m);
           num (rm_height m); num_opt (rm_width m); enum_opt change_word (rm_laneChange m)]
          ((λ l, ([enum mark_word (rm_type m); or_None fstr (rm_width m)], line_content l)) <$> rm_line m).
  Definition lane_content (o : lane F) : lane_c :=
    LaneC [pretty <$> ln_id o; enum lane_word (ln_type o); Some "false"] (map link_content (ln_links o))
          [num (ln_a o); num (ln_b o); num (ln_c o); num (ln_d o); num (ln_soffset o)] (mark_content <$> ln_roadmark o).
  Definition section_content h (sec : ref) : section_c :=
    let s := h_sec h !!! sec in let lc l := lane_content (h_lane h !!! l) in
    SectionC [num (ls_s s)] (map lc (ls_left s)) (lc (ls_center s)) (map lc (ls_right s)).
  Definition shape_content (g : geom F) : option string * values :=
    match g with
    | GLine _ => (Some "line", [None; None; None; None; None; None; None; None; None; None; None; None])
    | GSpiral cs ce _ => (Some "spiral", [num cs; num ce; None; None; None; None; None; None; None; None; None; None])
    | GArc c _ _ => (Some "arc", [None; None; num c; None; None; None; None; None; None; None; None; None])
    | GPoly a b c d a' b' c' d' p _ => (Some "paramPoly3", [None; None; None; num a; num b; num c; num d; num a'; num b'; num c'; num d'; Some p])
    end.
  Definition geometry_content h (p : pgeom F) : geometry_c :=
    GeometryC [or_None fstr (pg_s p); num (pg_x p); num (pg_y p); num (pg_h p); or_None fstr (pg_length p)] (shape_content (h_geom h !!! pg_geom p)).
  Definition common_content (o : sobj F) (ty : string) : values :=
    [or_None pystr (so_id o); num (so_s o); num (so_t o); or_None id (so_subtype o); enum dynamic_word (so_dynamic o); num (so_zoffset o);
     (if fiszero (so_pitch o) then None else num (so_pitch o)); (if fiszero (so_roll o) then None else num (so_roll o));
     num_opt (so_width o); num_opt (so_height o); so_name o; Some ty;
     Some match so_orientation o with or_positive => "+" | or_negative => "-" | or_none => "none" end].
  (** every small letter replaced by the capital letter *)
  Definition alphabet : list (Ascii.ascii * Ascii.ascii) :=
    zip (list_ascii_of_string "abcdefghijklmnopqrstuvwxyz") (list_ascii_of_string "ABCDEFGHIJKLMNOPQRSTUVWXYZ").
  Definition in_capitals (s : string) : string := string_of_list_ascii (map (λ c,
    match list_find (λ ab, ab.1 = c) alphabet with Some (_, (_, b)) => b | None => c end) (list_ascii_of_string s)).
  Definition signal_content (o : sobj F) : values :=
    common_content o match so_type o with inl t => "ObjectType." +:+ object_word t | inr s => s end ++
    [Some (in_capitals (so_country o)); (if fiszero (so_hoffset o) then None else num (so_hoffset o)); num_opt (so_value o);
     (if so_value o then or_None id (so_unit o) else None)].
  Definition object_content (o : sobj F) : object_c :=
    ObjectC (common_content o match so_type o with inl t => object_word t | inr s => s end ++
             [num_opt (so_validLength o); num (so_hdg o); num_opt (so_radius o); (if so_radius o then None else num_opt (so_length o))])
            (map (λ d, map (dict_get d) all_repeat_keys) (so_repeats o)).
  Definition nonempty (s : option string) : option string := match s with Some "" => None | _ => s end.
  Definition road_content h (r : ref) : road_c :=
    let o := h_road h !!! r in let pv := h_pv h !!! rd_planview o in
    RoadC [nonempty (rd_name o); nonempty (rd_rule o); Some (pystr (rd_id o)); Some (pretty (rd_type o)); num (pv_s pv)]
          (map link_content (rd_links o)) (map (geometry_content h) (pv_geoms pv)) (map (section_content h) (sections h o))
          (map (λ x, signal_content (h_obj h !!! x)) (rd_signals o)) (map (λ x, object_content (h_obj h !!! x)) (rd_objects o)).
  Definition connection_content (c : connection) : connection_c :=
    ConnectionC [Some (pystr (cn_incoming c)); or_None pystr (cn_id c); enum contact_word (cn_contact c); Some (pystr (cn_connecting c))]
                (map (λ l : Z * Z, [Some (pretty l.1); Some (pretty l.2)]) (cn_links c)).
  Definition junction_content h (j : ref) : junction_c :=
    let o := h_junc h !!! j in JunctionC [Some (jn_name o); Some (pystr (jn_id o))] (map (λ c, connection_content (h_conn h !!! c)) (jn_conns o)).
  Definition network_content (date : string) h (d : ref) : network_c :=
    let o := h_odr h !!! d in
    NetworkC [Some (od_name o); Some "1"; Some "5"; Some date; Some "0.0"; Some "0.0"; Some "0.0"; Some "0.0"]
             (map (λ kr : string * ref, road_content h kr.2) (od_roads o)) (map (junction_content h) (od_junctions o)).

  (** the road carries Signals as signals and Objects as objects (the code does not check this) *)
  Definition well_classed h (r : ref) : Prop :=
    (∀ x, x ∈ rd_signals (h_road h !!! r) → so_class (h_obj h !!! x) = CSignal) ∧ (∀ x, x ∈ rd_objects (h_road h !!! r) → so_class (h_obj h !!! x) = CObject).
  (** the lanes that are written for a road, and for an OpenDrive *)
  Definition section_lanes h (sec : ref) : list ref := let s := h_sec h !!! sec in ls_left s ++ [ls_center s] ++ ls_right s.
  Definition road_lanes h (r : ref) : list ref := concat (map (section_lanes h) (sections h (h_road h !!! r))).
  Definition network_lanes h (d : ref) : list ref := concat (map (λ kr : string * ref, road_lanes h kr.2) (od_roads (h_odr h !!! d))).
  Definition has_id h (l : ref) : Prop := is_Some (ln_id (h_lane h !!! l)).
  Definition lanes_have_ids h (ls : list ref) : bool := forallb (λ l, bool_decide (is_Some (ln_id (h_lane h !!! l)))) ls.
End Content.

(** ** The roads of an OpenDrive *)
(** the different strings of a list, in the order in which they first occur *)
Fixpoint firsts (l : list string) : list string := match l with [] => [] | x :: l' => x :: filter (λ y, y ≠ x) (firsts l') end.
Section Adding.
  Context {F : Type} `{!Num F}.
  (** roads and junctions are added to an OpenDrive *)
  Definition add_call (d : ref) (a : ref + ref) : op F := match a with inl r => OpAddRoad d r | inr j => OpAddJunction d j end.
  Definition roads_added (adds : list (ref + ref)) : list ref := omap (λ a, match a with inl r => Some r | inr _ => None end) adds.
  Definition junctions_added (adds : list (ref + ref)) : list ref := omap (λ a, match a with inr j => Some j | inl _ => None end) adds.
  (** the id of a road as a string *)
  Definition road_key (h : heap F) (r : ref) : string := pystr (rd_id (h_road h !!! r)).
  (** [shown] has, for every different id in order of first addition, the road that was added last with this id *)
  Definition last_of_each_id (h : heap F) (added shown : list ref) : Prop :=
    Forall2 (λ k r, last (filter (λ r', road_key h r' = k) added) = Some r) (firsts (map (road_key h) added)) shown.
End Adding.
