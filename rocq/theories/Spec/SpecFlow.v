(** * Networks in which the placing can always go from a road to the road behind it (for any arithmetic) *)
From Verif.Model Require Import OpenDrive.
From Verif.Spec Require Import SpecNetwork SpecLinkOrder SpecXml SpecSchema SpecSchemaOrder.

Section Flow.
  Context {F : Type} `{!Num F}.
  Implicit Types (h : heap F).

  (** [in_time h d k n]: road [k] is a root, or one of the first [n] roads and its predecessor is a road that is there before its turn comes, or
      it is named by a connecting road that is there in time *)
  Inductive in_time h (d : ref) : string → nat → Prop :=
  | it_root k n : root h d k → is_Some (road_named h d k) → in_time h d k n
  | it_own k n i o P : net_keys h d !! i = Some k → i < n → road_named h d k = Some o →
      rd_pred o = Some P → lk_etype P ≠ Some et_junction → in_time h d (pystr (lk_id P)) i → in_time h d k n
  | it_other c n o L k : in_time h d c n → ¬ root h d c → road_named h d c = Some o → rd_type o ≠ (-1)%Z →
      rd_pred o = Some L ∨ rd_succ o = Some L → pystr (lk_id L) = k → in_time h d k n.

  (** Every road that is not a root and has a road as successor is there before its turn comes, or its predecessor is;
      and connecting roads end where their successors start. *)
  Record flows_forward h (d : ref) : Prop := {
    fl_first : ∀ i k o S, net_keys h d !! i = Some k → road_named h d k = Some o → ¬ root h d k →
      rd_succ o = Some S → lk_etype S ≠ Some et_junction →
      in_time h d k i ∨ ∃ P, rd_pred o = Some P ∧ lk_etype P ≠ Some et_junction ∧ in_time h d (pystr (lk_id P)) i;
    fl_start : ∀ k o S, road_named h d k = Some o → ¬ root h d k → rd_type o ≠ (-1)%Z → rd_succ o = Some S →
      lk_contact S = Some cp_start
  }.

  (** every link of a road names a road, with a contact point unless it says that it leads to a junction *)
  Definition resolved h (d : ref) (o : road) : Prop := ∀ L, rd_pred o = Some L ∨ rd_succ o = Some L →
    is_Some (road_named h d (pystr (lk_id L))) ∧ (lk_etype L = Some et_junction ∨ lk_contact L ≠ None).

  (** One sweep over the roads places them all: every road is there in the end, and when its turn comes, it is there already, or it can be placed from its
      predecessor (and then, if it is a connecting road, its successor is a road), or at least all its links can be followed. *)
  Record one_sweep h (d : ref) : Prop := {
    os_all : ∀ k, k ∈ net_keys h d → in_time h d k (length (net_keys h d));
    os_turn : ∀ i k o, net_keys h d !! i = Some k → road_named h d k = Some o →
      in_time h d k i ∨
      (∃ P, rd_pred o = Some P ∧ lk_etype P ≠ Some et_junction ∧ lk_contact P ≠ None ∧ in_time h d (pystr (lk_id P)) i ∧
        (rd_type o ≠ (-1)%Z → ∀ S, rd_succ o = Some S → is_Some (road_named h d (pystr (lk_id S))))) ∨
      resolved h d o
  }.

  (** every road but the roots continues, with its predecessor, a road that was added to the OpenDrive before it *)
  Definition continues_earlier h (d : ref) : Prop := ∀ i k o, net_keys h d !! i = Some k → road_named h d k = Some o →
    root h d k ∨ ∃ P j, rd_pred o = Some P ∧ lk_etype P ≠ Some et_junction ∧ j < i ∧ net_keys h d !! j = Some (pystr (lk_id P)).

  (** every road has a geometry, and the polynomials have one of the two known ranges *)
  Definition drawn h (d : ref) : Prop := ∀ k o, road_named h d k = Some o →
    pv_raw (view h o) ≠ [] ∧
    ∀ g, g ∈ pv_raw (view h o) → match h_geom h !!! g with GPoly _ _ _ _ _ _ _ _ range _ => range ∈ ["arcLength"; "normalized"] | _ => True end.

  (** an ordinary road without any links, neither placed nor linked yet, with geometries, lanes and objects as the schema wants them *)
  Definition loose_road h (r : ref) : Prop := let o := h_road h !!! r in
    rd_type o = (-1)%Z ∧ rd_pred o = None ∧ rd_succ o = None ∧ rd_links o = [] ∧
    pv_adjusted (view h o) = false ∧ pv_geoms (view h o) = [] ∧ pv_s (view h o) = fofZ 0 ∧ pv_raw (view h o) ≠ [] ∧
    (∀ g, g ∈ pv_raw (view h o) → match h_geom h !!! g with GPoly _ _ _ _ _ _ _ _ range _ => range ∈ ["arcLength"; "normalized"] | _ => True end) ∧
    (∀ l, l ∈ road_lanes h r → ln_links (h_lane h !!! l) = []) ∧ road_given h r.
End Flow.
