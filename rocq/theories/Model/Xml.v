(** * The [get_element] / [get_attributes] methods: the element tree that is written

    [xml.etree.ElementTree.Element] is a tag, an (ordered) attribute dict and children.  The tag is
    optional only because a lane link can have link type None (links.py:211 with links.py:531). *)
From Verif.Model Require Export Generators.

Inductive xml := Elem (tag : option string) (attrs : dict string) (children : list xml).
Definition xtag (e : xml) : option string := let '(Elem t _ _) := e in t.
Definition xattrs (e : xml) : dict string := let '(Elem _ a _) := e in a.
Definition xchildren (e : xml) : list xml := let '(Elem _ _ c) := e in c.

Definition elem (tag : string) (attrs : dict string) (children : list xml) : xml := Elem (Some tag) attrs children.

(** links.py:190-205 [_Link.get_attributes]; a neighbor link always has a direction (links.py:180-182) *)
Definition link_attributes (k : link) : dict string :=
  match lk_etype k with
  | None => [("id", pystr (lk_id k))]
  | Some t => [("elementType", enum2str (ElementType_name t)); ("elementId", pystr (lk_id k))]
  end ++
  match lk_contact k with
  | Some c => [("contactPoint", enum2str (ContactPoint_name c))]
  | None =>
    match lk_dir k with
    | Some d => if bool_decide (lk_type k = Some "neighbor") then [("direction", enum2str (Direction_name d))] else []
    | None => []
    end
  end.

(** links.py:207-212 [_Link.get_element] *)
Definition link_element (k : link) : xml := Elem (lk_type k) (link_attributes k) [].

(** links.py:109-117 [_Links.get_element] *)
Definition links_element (ls : list link) : xml := elem "link" [] (map link_element ls).

(** links.py:339-357 [Connection.get_attributes], [Connection.get_element] *)
Definition connection_element (c : connection) : xml :=
  elem "connection"
    [("incomingRoad", pystr (cn_incoming c)); ("id", pystr_opt (cn_id c));
     ("contactPoint", enum2str (ContactPoint_name (cn_contact c))); ("connectingRoad", pystr (cn_connecting c))]
    (map (λ l : Z * Z, elem "laneLink" [("from", pretty l.1); ("to", pretty l.2)] []) (cn_links c)).

(** opendrive.py:44-66 [_Header.get_element]; [date] is [str(datetime.now())] *)
Definition header_element (name date : string) : xml :=
  elem "header" [("name", name); ("revMajor", "1"); ("revMinor", "5"); ("date", date);
                 ("north", "0.0"); ("south", "0.0"); ("east", "0.0"); ("west", "0.0")] [].

Section Xml.
  Context {F : Type} `{!Num F}.

  (** Line geometry.py:396-402, Spiral 514-526, Arc 691-703, ParamPoly3 886-909 *)
  Definition geom_element (g : geom F) : xml :=
    match g with
    | GLine _ => elem "line" [] []
    | GSpiral cs ce _ => elem "spiral" [("curvStart", fstr cs); ("curvEnd", fstr ce)] []
    | GArc c _ _ => elem "arc" [("curvature", fstr c)] []
    | GPoly au bu cu du av bv cv dv prange _ =>
      elem "paramPoly3" [("aU", fstr au); ("bU", fstr bu); ("cU", fstr cu); ("dU", fstr du);
                         ("aV", fstr av); ("bV", fstr bv); ("cV", fstr cv); ("dV", fstr dv);
                         ("pRange", prange)] []
    end.

  (** geometry.py:83-102 [_Geometry.get_attributes], [_Geometry.get_element] *)
  Definition pgeom_element (h : heap F) (p : pgeom F) : xml :=
    elem "geometry" [("s", fstr_opt (pg_s p)); ("x", fstr (pg_x p)); ("y", fstr (pg_y p));
                     ("hdg", fstr (pg_h p)); ("length", fstr_opt (pg_length p))]
      [geom_element (h_geom h !!! pg_geom p)].

  (** geometry.py:304-312 [PlanView.get_element] *)
  Definition planview_element (h : heap F) (pv : ref) : xml :=
    elem "planView" [] (map (pgeom_element h) (pv_geoms (h_pv h !!! pv))).

  (** lane.py:406-427 [RoadLine.get_attributes], [RoadLine.get_element] *)
  Definition roadline_element (l : roadline F) : xml :=
    elem "line" ([("length", fstr (rl_length l)); ("space", fstr (rl_space l)); ("tOffset", fstr (rl_toffset l));
                  ("width", fstr (rl_width l)); ("sOffset", fstr (rl_soffset l))]
                 ++ opt_attr "rule" (enum2str ∘ MarkRule_name <$> rl_rule l)) [].

  (** lane.py:548-574 [RoadMark.get_attributes], [RoadMark.get_element] *)
  Definition roadmark_element (m : roadmark F) : xml :=
    elem "roadMark"
      ([("sOffset", fstr (rm_soffset m)); ("type", enum2str (RoadMarkType_name (rm_type m)));
        ("weight", enum2str (RoadMarkWeight_name (rm_weight m)));
        ("color", enum2str (RoadMarkColor_name (rm_color m))); ("height", fstr (rm_height m))]
       ++ opt_attr "width" (fstr <$> rm_width m)
       ++ opt_attr "laneChange" (enum2str ∘ LaneChange_name <$> rm_laneChange m))
      match rm_line m with
      | None => []
      | Some l => [elem "type" [("name", enum2str (RoadMarkType_name (rm_type m))); ("width", fstr_opt (rm_width m))]
                     [roadline_element l]]
      end.

  (** lane.py:294-325 [Lane.get_attributes], [Lane.get_element] *)
  Definition lane_element (o : lane F) : res xml :=
    match ln_id o with
    | None => Err ValueError
    | Some i =>
      Ok (elem "lane" [("id", pretty i); ("type", enum2str (LaneType_name (ln_type o))); ("level", "false")]
            ([links_element (ln_links o);
              elem "width" [("a", fstr (ln_a o)); ("b", fstr (ln_b o)); ("c", fstr (ln_c o)); ("d", fstr (ln_d o));
                            ("sOffset", fstr (ln_soffset o))] []]
             ++ match ln_roadmark o with None => [] | Some m => [roadmark_element m] end))
    end.

  (** lane.py:138-168 [LaneSection.get_attributes], [LaneSection.get_element] *)
  Definition section_element (h : heap F) (sec : ref) : res xml :=
    let o := h_sec h !!! sec in
    let side (tag : string) (ls : list ref) : res (list xml) :=
      match ls with
      | [] => Ok []
      | _ => rbind (map_res (λ l, lane_element (h_lane h !!! l)) ls) (λ es, Ok [elem tag [] es])
      end in
    rbind (side "left" (ls_left o)) (λ l,
    rbind (lane_element (h_lane h !!! ls_center o)) (λ c,
    rbind (side "right" (ls_right o)) (λ r,
    Ok (elem "laneSection" [("s", fstr (ls_s o))] (l ++ [elem "center" [] [c]] ++ r))))).

  (** lane.py:55-62 [Lanes.get_element] *)
  Definition lanes_element (h : heap F) (ls : ref) : res xml :=
    rbind (map_res (section_element h) (h_lanes h !!! ls)) (λ es, Ok (elem "lanes" [] es)).

  (** signals_objects.py:262-264 [Signal.get_element], 510-518 [Object.get_element] *)
  Definition sobj_element (o : sobj F) : xml :=
    match so_class o with
    | CSignal => elem "signal" (signal_attributes o) []
    | CObject => elem "object" (object_attributes o) (map (λ d, elem "repeat" d []) (so_repeats o))
    end.

  (** signals_objects.py:267-300 [Dependency]: a pair of strings (both go through [str]) that is written as an element of its own; no other class
      holds or writes one *)
  Definition dependency_element (id type : pyid) : xml := elem "dependency" [("id", pystr id); ("type", pystr type)] [].

  (** opendrive.py:305-317 [Road.get_attributes]: an empty name or rule is not written *)
  Definition road_attributes (h : heap F) (o : road) : dict string :=
    let nonempty (s : option string) := match s with Some "" => None | _ => s end in
    opt_attr "name" (nonempty (rd_name o)) ++ opt_attr "rule" (nonempty (rd_rule o)) ++
    [("id", pystr (rd_id o)); ("junction", pretty (rd_type o));
     ("length", fstr (pv_total_length (h_pv h !!! rd_planview o)))].

  (** opendrive.py:319-336 [Road.get_element] *)
  Definition road_element (h : heap F) (r : ref) : res xml :=
    let o := h_road h !!! r in
    rbind (lanes_element h (rd_lanes o)) (λ ls,
    Ok (elem "road" (road_attributes h o)
          ([links_element (rd_links o); planview_element h (rd_planview o); ls]
           ++ match rd_signals o with
              | [] => []
              | ss => [elem "signals" [] (map (λ s, sobj_element (h_obj h !!! s)) ss)]
              end
           ++ match rd_objects o with
              | [] => []
              | ss => [elem "objects" [] (map (λ s, sobj_element (h_obj h !!! s)) ss)]
              end))).

  (** links.py:416-432 [Junction.get_attributes], [Junction.get_element] *)
  Definition junction_element (h : heap F) (j : ref) : xml :=
    let o := h_junc h !!! j in
    elem "junction" [("name", jn_name o); ("id", pystr (jn_id o))]
      (map (λ c, connection_element (h_conn h !!! c)) (jn_conns o)).

  (** opendrive.py:563-575 [OpenDrive.get_element] *)
  Definition odr_element (date : string) (h : heap F) (d : ref) : res xml :=
    let o := h_odr h !!! d in
    rbind (map_res (λ kv : string * ref, road_element h kv.2) (od_roads o)) (λ rs,
    Ok (elem "OpenDRIVE" [] ([header_element (od_name o) date] ++ rs ++ map (junction_element h) (od_junctions o)))).
End Xml.
