(** * Networks whose lane links come in the order of the schema, and what has to be there before the lanes are linked *)
From Coq Require Import ssreflect.
From Verif.Model Require Import Api.
From Verif.Spec Require Import SpecLinkOrder SpecXml SpecSchema.

Section SchemaOrder.
  Context {F : Type} `{!Num F}.
  Implicit Types (h : heap F).
  (** road [k] was added to the OpenDrive before road [k'] *)
  Definition added_before h (d : ref) (k k' : string) : Prop := ∃ i j, i < j ∧ net_keys h d !! i = Some k ∧ net_keys h d !! j = Some k'.
  (** the road that is the predecessor of a road was added before the road that is its successor *)
  Definition predecessors_first h (d : ref) : Prop := ∀ k kp ks o op os p s,
    road_named h d k = Some o → road_named h d kp = Some op → road_named h d ks = Some os →
    rd_pred o = Some p → lk_id p = rd_id op → rd_succ o = Some s → lk_id s = rd_id os → added_before h d kp ks.
  (** no two roads have a lane in common *)
  Definition lanes_apart h (d : ref) : Prop := ∀ k k' r r' l, (k, r) ∈ od_roads (h_odr h !!! d) → (k', r') ∈ od_roads (h_odr h !!! d) →
    l ∈ road_lanes h r → l ∈ road_lanes h r' → k = k'.
  Definition lanes_unlinked h (d : ref) : Prop := ∀ k r l, (k, r) ∈ od_roads (h_odr h !!! d) → l ∈ road_lanes h r → ln_links (h_lane h !!! l) = [].

  (** what the user has to take care of, apart from positions and lane links, which adjust_roads_and_lanes makes *)
  Definition road_given h (r : ref) : Prop :=
    let o := h_road h !!! r in
    (∀ rule, rd_rule o = Some rule → rule ∈ [""; "RHT"; "LHT"]) ∧ road_links_fit (rd_links o) ∧
    sections h o ≠ [] ∧ (∀ l m, l ∈ road_lanes h r → ln_roadmark (h_lane h !!! l) = Some m → mark_fits m) ∧
    (∀ x, x ∈ rd_signals o → signal_fits (h_obj h !!! x)) ∧ (∀ x, x ∈ rd_objects o → object_fits (h_obj h !!! x)) ∧ (rd_signals o = [] ∨ rd_objects o = []).
  Definition network_given h (d : ref) : Prop :=
    od_roads (h_odr h !!! d) ≠ [] ∧ (∀ k r, (k, r) ∈ od_roads (h_odr h !!! d) → road_given h r) ∧
    ∀ j, j ∈ od_junctions (h_odr h !!! d) → jn_conns (h_junc h !!! j) ≠ [].
  (** every road was placed, and its geometries have positions and lengths *)
  Definition network_placed h (d : ref) : Prop := ∀ k r, (k, r) ∈ od_roads (h_odr h !!! d) →
    pv_geoms (h_pv h !!! rd_planview (h_road h !!! r)) ≠ [] ∧ ∀ p, p ∈ pv_geoms (h_pv h !!! rd_planview (h_road h !!! r)) → geometry_fits h p.
End SchemaOrder.
