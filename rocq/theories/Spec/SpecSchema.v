(** * The part of the OpenDRIVE 1.5 schema that concerns the elements this library can write

    The first part knows nothing about the model of the library: it is the schema, written after the element and
    attribute tables of the OpenDRIVE 1.5 specification (Road, Junction, Signal and Object chapters), as predicates on element trees.
    Not expressed: ranges of numbers (a length is positive, ...), the pattern of dates, and elements and
    attributes that the library never writes where the schema makes them optional (they are listed below where
    they stand between others, or left out).  A number is whatever [str] makes of a number.
    The second part says which networks are meant to be written well. *)
From Coq Require Import ssreflect.
From Verif.Model Require Import Api Xml.
From Verif.Spec Require Export SpecXml.
Local Open Scope general_if_scope.

(** ** Words *)
Definition lane_types : list string :=
  ["none"; "driving"; "stop"; "shoulder"; "biking"; "sidewalk"; "border"; "restricted"; "parking"; "bidirectional"; "median"; "special1"; "special2";
   "special3"; "roadWorks"; "tram"; "rail"; "entry"; "exit"; "offRamp"; "onRamp"; "connectingRamp"; "bus"; "taxi"; "HOV"; "curb"; "mwyEntry"; "mwyExit"].
Definition mark_types : list string :=
  ["none"; "solid"; "broken"; "solid solid"; "solid broken"; "broken solid"; "broken broken"; "botts dots"; "grass"; "curb"; "custom"; "edge"].
Definition mark_colors : list string := ["standard"; "blue"; "green"; "red"; "white"; "yellow"; "orange"].
Definition object_types : list string :=
  ["none"; "obstacle"; "car"; "pole"; "tree"; "vegetation"; "barrier"; "building"; "parkingSpace"; "patch"; "railing"; "trafficIsland"; "crosswalk";
   "streetLamp"; "gantry"; "soundBarrier"; "van"; "bus"; "trailer"; "bike"; "motorbike"; "tram"; "train"; "pedestrian"; "wind"; "roadMark"].
Definition units : list string := ["m"; "km"; "ft"; "mile"; "m/s"; "mph"; "km/h"; "kg"; "t"; "%"].
(** a capital letter, a letter *)
Definition capital (c : Ascii.ascii) : bool := let n := Ascii.nat_of_ascii c in (65 <=? n)%nat && (n <=? 90)%nat.
Definition letter (c : Ascii.ascii) : bool := let n := Ascii.nat_of_ascii c in capital c || ((97 <=? n)%nat && (n <=? 122)%nat).
(** two or three characters of a kind: the country codes of ISO 3166 (alpha-2, alpha-3) *)
Definition code (ok : Ascii.ascii → bool) (s : string) : Prop :=
  match s with
  | String a (String b EmptyString) => ok a ∧ ok b
  | String a (String b (String c EmptyString)) => ok a ∧ ok b ∧ ok c
  | _ => False
  end.

(** ** The schema *)
Section Schema.
  Context (F : Type) `{!Num F}.
  Inductive kind := text | number | integer | word (ws : list string) | country.
  Definition of_kind (k : kind) (v : string) : Prop :=
    match k with
    | text => True
    | number => v = "0.0" ∨ ∃ x : F, v = fstr x
    | integer => ∃ z : Z, v = pretty z
    | word ws => v ∈ ws
    | country => code capital v
    end.
  (** the attributes: no name twice, the required ones are there, all are known and have values of their kinds *)
  Definition attributes (required optional : list (string * kind)) (a : dict string) : Prop :=
    NoDup (map fst a) ∧ (∀ k t, (k, t) ∈ required → ∃ v, (k, v) ∈ a) ∧
    (∀ k v, (k, v) ∈ a → ∃ t, (k, t) ∈ required ++ optional ∧ of_kind t v).
  Definition content := list xml → Prop.
  Definition empty : content := λ l, l = [].
  Definition one (P : xml → Prop) : content := λ l, ∃ x, l = [x] ∧ P x.
  Definition optional (P : xml → Prop) : content := λ l, l = [] ∨ one P l.
  Definition any (P : xml → Prop) : content := λ l, ∀ x, x ∈ l → P x.
  Definition some (P : xml → Prop) : content := λ l, l ≠ [] ∧ any P l.
  Definition next (C D : content) : content := λ l, ∃ l1 l2, l = l1 ++ l2 ∧ C l1 ∧ D l2.
  Local Infix ">>" := next (at level 51, right associativity).
  Definition either (Ps : list (xml → Prop)) (e : xml) : Prop := ∃ P, P ∈ Ps ∧ P e.
  Definition element (tag : string) (required opt : list (string * kind)) (C : content) (e : xml) : Prop :=
    match e with Elem t a c => t = Some tag ∧ attributes required opt a ∧ C c end.

  Definition v_header := element "header" [("revMajor", integer); ("revMinor", integer)]
    [("name", text); ("version", text); ("date", text); ("north", number); ("south", number); ("east", number); ("west", number); ("vendor", text)] empty.
  (** the links of roads: at most one of each kind, in this order *)
  Definition v_road_link tag := element tag [("elementId", text)]
    [("elementType", word ["road"; "junction"]); ("contactPoint", word ["start"; "end"]); ("elementS", number); ("elementDir", word ["+"; "-"])] empty.
  Definition v_road_links := element "link" [] [] (optional (v_road_link "predecessor") >> optional (v_road_link "successor")).
  (** the links of lanes: first predecessors, then successors *)
  Definition v_lane_link tag := element tag [("id", integer)] [] empty.
  Definition v_lane_links := element "link" [] [] (any (v_lane_link "predecessor") >> any (v_lane_link "successor")).
  Definition v_shapes : list (xml → Prop) :=
    [element "line" [] [] empty; element "spiral" [("curvStart", number); ("curvEnd", number)] [] empty; element "arc" [("curvature", number)] [] empty;
     element "paramPoly3" [("aU", number); ("bU", number); ("cU", number); ("dU", number); ("aV", number); ("bV", number); ("cV", number); ("dV", number);
                           ("pRange", word ["arcLength"; "normalized"])] [] empty].
  Definition v_geometry := element "geometry" [("s", number); ("x", number); ("y", number); ("hdg", number); ("length", number)] [] (one (either v_shapes)).
  Definition v_planView := element "planView" [] [] (some v_geometry).
  Definition v_width := element "width" [("sOffset", number); ("a", number); ("b", number); ("c", number); ("d", number)] [] empty.
  Definition v_line := element "line" [("length", number); ("space", number); ("tOffset", number); ("sOffset", number)]
    [("rule", word ["no passing"; "caution"; "none"]); ("width", number); ("color", word mark_colors)] empty.
  Definition v_mark_type := element "type" [("name", text); ("width", number)] [] (some v_line).
  Definition v_roadMark := element "roadMark" [("sOffset", number); ("type", word mark_types); ("color", word mark_colors)]
    [("weight", word ["standard"; "bold"]); ("material", text); ("width", number); ("laneChange", word ["increase"; "decrease"; "both"; "none"]); ("height", number)]
    (optional v_mark_type).
  Definition v_lane := element "lane" [("id", integer); ("type", word lane_types)] [("level", word ["true"; "false"])]
    (optional v_lane_links >> any v_width >> any v_roadMark).
  Definition v_side tag := element tag [] [] (some v_lane).
  Definition v_laneSection := element "laneSection" [("s", number)] [("singleSide", word ["true"; "false"])]
    (optional (v_side "left") >> one (element "center" [] [] (one v_lane)) >> optional (v_side "right")).
  Definition v_lanes := element "lanes" [] [] (some v_laneSection).
  Definition v_repeat := element "repeat" [("s", number); ("length", number); ("distance", number); ("tStart", number); ("tEnd", number); ("heightStart", number);
                                           ("heightEnd", number); ("zOffsetStart", number); ("zOffsetEnd", number)]
    [("widthStart", number); ("widthEnd", number); ("lengthStart", number); ("lengthEnd", number); ("radiusStart", number); ("radiusEnd", number)] empty.
  Definition v_object := element "object" [("id", text); ("s", number); ("t", number); ("zOffset", number)]
    [("type", word object_types); ("subtype", text); ("dynamic", word ["yes"; "no"]); ("name", text); ("validLength", number); ("orientation", word ["+"; "-"; "none"]);
     ("hdg", number); ("pitch", number); ("roll", number); ("height", number); ("length", number); ("width", number); ("radius", number)] (any v_repeat).
  Definition v_signal := element "signal" [("s", number); ("t", number); ("id", text); ("dynamic", word ["yes"; "no"]); ("orientation", word ["+"; "-"; "none"]);
                                           ("zOffset", number); ("type", text); ("subtype", text)]
    [("name", text); ("country", country); ("countryRevision", text); ("value", number); ("unit", word units); ("height", number); ("width", number); ("text", text);
     ("hOffset", number); ("pitch", number); ("roll", number)] empty.
  Definition v_objects := element "objects" [] [] (any v_object).
  Definition v_signals := element "signals" [] [] (any v_signal).
  (** the order of the parts of a road (of which the library does not write types, profiles, surface and railroad) *)
  Definition v_road := element "road" [("length", number); ("id", text); ("junction", text)] [("name", text); ("rule", word ["RHT"; "LHT"])]
    (optional v_road_links >> one v_planView >> one v_lanes >> optional v_objects >> optional v_signals).
  Definition v_laneLink := element "laneLink" [("from", integer); ("to", integer)] [] empty.
  Definition v_connection := element "connection" [("id", text)]
    [("type", word ["default"; "virtual"]); ("incomingRoad", text); ("connectingRoad", text); ("contactPoint", word ["start"; "end"])] (any v_laneLink).
  Definition v_junction := element "junction" [("id", text)] [("name", text); ("type", word ["default"; "virtual"])] (some v_connection).
  Definition v_OpenDRIVE := element "OpenDRIVE" [] [] (one v_header >> some v_road >> any v_junction).
End Schema.

(** ** What the user has to take care of *)
Section Fits.
  Context {F : Type} `{!Num F}.
  Implicit Types (h : heap F).
  Definition pre : option string := Some "predecessor".
  Definition suc : option string := Some "successor".
  (** a road was given no neighbor, at most one predecessor and successor, in this order, with element types *)
  Definition road_links_fit (ks : list link) : Prop :=
    map lk_type ks ∈ [[]; [pre]; [suc]; [pre; suc]] ∧ ∀ k, k ∈ ks → is_Some (lk_etype k).
  (** a lane got its predecessors before its successors, and they are lane numbers *)
  Definition lane_links_fit (ks : list link) : Prop :=
    (∃ ps ss, ks = ps ++ ss ∧ (∀ k, k ∈ ps → lk_type k = pre) ∧ (∀ k, k ∈ ss → lk_type k = suc)) ∧
    ∀ k, k ∈ ks → ∃ z : Z, pystr (lk_id k) = pretty z.
  (** a road mark with a line has a width *)
  Definition mark_fits (m : roadmark F) : Prop := is_Some (rm_line m) → is_Some (rm_width m).
  Definition lane_fits (o : lane F) : Prop := lane_links_fit (ln_links o) ∧ ∀ m, ln_roadmark o = Some m → mark_fits m.
  (** a geometry was placed completely; a polynomial has one of the two known ranges *)
  Definition geometry_fits h (p : pgeom F) : Prop :=
    is_Some (pg_s p) ∧ is_Some (pg_length p) ∧
    match h_geom h !!! pg_geom p with GPoly _ _ _ _ _ _ _ _ range _ => range ∈ ["arcLength"; "normalized"] | _ => True end.
  (** a signal has a country code, and a unit if it has a value *)
  Definition signal_fits (o : sobj F) : Prop :=
    so_class o = CSignal ∧ code letter (so_country o) ∧ (is_Some (so_value o) → ∃ u, so_unit o = Some u ∧ u ∈ units).
  (** an object is of a known type; its repetitions have heights *)
  Definition object_fits (o : sobj F) : Prop :=
    so_class o = CObject ∧ (∀ s, so_type o = inr s → s ∈ object_types) ∧
    ∀ d, d ∈ so_repeats o → dict_get d "heightStart" ≠ Some "None" ∧ dict_get d "heightEnd" ≠ Some "None".
  Definition road_fits h (r : ref) : Prop :=
    let o := h_road h !!! r in
    (∀ rule, rd_rule o = Some rule → rule ∈ [""; "RHT"; "LHT"]) ∧ road_links_fit (rd_links o) ∧
    pv_geoms (h_pv h !!! rd_planview o) ≠ [] ∧ (∀ p, p ∈ pv_geoms (h_pv h !!! rd_planview o) → geometry_fits h p) ∧
    sections h o ≠ [] ∧ (∀ l, l ∈ road_lanes h r → lane_fits (h_lane h !!! l)) ∧
    (∀ x, x ∈ rd_signals o → signal_fits (h_obj h !!! x)) ∧ (∀ x, x ∈ rd_objects o → object_fits (h_obj h !!! x)) ∧
    (* not both *) (rd_signals o = [] ∨ rd_objects o = []).
  Definition network_fits h (d : ref) : Prop :=
    let o := h_odr h !!! d in
    od_roads o ≠ [] ∧ (∀ k r, (k, r) ∈ od_roads o → road_fits h r) ∧ (∀ j, j ∈ od_junctions o → jn_conns (h_junc h !!! j) ≠ []).
End Fits.
