(** * Vocabulary for the road generators *)
From Coq Require Import ssreflect.
From Verif.Model Require Import Api.
From Verif.Spec Require Export SpecState SpecHistory SpecLanes.
Local Open Scope general_if_scope.

Section Generate.
  Context {F : Type} `{!Num F}.
  Implicit Types (h : heap F).

  (** does a primitive have a length: a line always; a spiral, an arc or a polynomial if one was given or has been computed *)
  Definition knows_length (g : geom F) : Prop :=
    match g with
    | GLine _ => True
    | GSpiral _ _ length | GArc _ length _ | GPoly _ _ _ _ _ _ _ _ _ length => length ≠ None
    end.
  (** every object of the kind stored in [f] that exists in [h] is the same in [h'] *)
  Definition kept {V} (f : heap F → gmap nat V) h h' : Prop := ∀ r v, f h !! r = Some v → f h' !! r = Some v.
  (** no object is changed by going from [h] to [h']; there may be new ones *)
  Definition untouched h h' : Prop :=
    kept h_geom h h' ∧ kept h_pv h h' ∧ kept h_lane h h' ∧ kept h_sec h h' ∧ kept h_lanes h h' ∧ kept h_linker h h' ∧
    kept h_conn h h' ∧ kept h_junc h h' ∧ kept h_obj h h' ∧ kept h_road h h' ∧ kept h_odr h h' ∧ h_ids h' = h_ids h.

  (** object [r] of the kind stored in [f] is in [h'] and was not in [h] *)
  Definition is_new {V} (f : heap F → gmap nat V) h h' (r : ref) : Prop := f h !! r = None ∧ is_Some (f h' !! r).

  (** a driving lane at place [p]: numbered, of constant width, without links *)
  Definition plain_lane (p : place) (w : F) (o : lane F) : Prop :=
    ln_id o = Some (lane_number p) ∧ ln_type o = lt_driving ∧ ln_links o = [] ∧ ln_soffset o = fofZ 0 ∧
    ln_a o = w ∧ ln_b o = fofZ 0 ∧ ln_c o = fofZ 0 ∧ ln_d o = fofZ 0.
  (** the standard marks of generators.py: 0.2 wide, height 0.02, no explicit line *)
  Definition standard_mark (ty : RoadMarkType) : roadmark F :=
    mkRoadmark ty wgt_standard col_standard (fofZ 0) (fdec 2 2) None (Some (fdec 2 1)) None None None None None.
  (** is place [p] the outermost one of its side, in a section with [l] left and [r] right lanes *)
  Definition outermost (l r : nat) (p : place) : bool :=
    match p with Centre => false | LeftOf i => bool_decide (S i = l) | RightOf i => bool_decide (S i = r) end.

  (** Road [r] is new in [h']: unlinked, with id [id] and type [ty], not yet placed, its planview (without start point)
      holds the primitives [gs] in this order, and it has one lane section, at s = 0, with [l] left and [rr] right lanes, where
      the lane at place [p] is a new plain lane of width [width p] with mark [mark p]. *)
  Definition new_road_with h h' (r : ref) (id : pyid) (ty : Z) (gs : list ref) (l rr : nat)
    (width : place → F) (mark : place → roadmark F) : Prop :=
    ∃ pv ls sec s, is_new h_road h h' r ∧ is_new h_pv h h' pv ∧ is_new h_lanes h h' ls ∧ is_new h_sec h h' sec ∧
      h_road h' !! r = Some (mkRoad id pv ls ty None None [] 0 None None 0 0 [] []) ∧
      h_pv h' !! pv = Some (mkPlanview (fofZ 0) (fofZ 0) (fofZ 0) (fofZ 0) false None None gs [] [] false) ∧
      h_lanes h' !! ls = Some [sec] ∧ h_sec h' !! sec = Some s ∧ ls_s s = fofZ 0 ∧ lane_counts h' sec = (l, rr) ∧
      ∀ p x, lane_at h' sec p = Some x → is_new h_lane h h' x ∧
        ∃ o, h_lane h' !! x = Some o ∧ plain_lane p (width p) o ∧ ln_roadmark o = Some (mark p).

  (** the curvature of the arc of a cloth-arc-cloth road: the given one, to the right when the clothoid angle is negative; the
      angles and the curvature at the ends change sign with it *)
  Definition directed (curv ca x : F) : F := if fltb ca (fofZ 0) && fltb (fofZ 0) curv then fneg x else x.
End Generate.
