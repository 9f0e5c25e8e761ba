(** * Vocabulary for create_junction_roads *)
From Coq Require Import ssreflect.
From Verif.Model Require Import Api.
From Verif.Spec Require Export SpecState SpecHistory SpecLanes SpecGenerate.
Local Open Scope general_if_scope.
Local Open Scope nat_scope.

(** the pairs i < j < n, in the order in which the roads are connected *)
Definition pairs (n : nat) : list (nat * nat) := concat (map (λ i, map (λ j, (i, j)) (seq (S i) (n - S i))) (seq 0 n)).

Section JunctionRoads.
  Context {F : Type} `{!Num F}.
  Implicit Types (h : heap F).

  (** no object but the roads [rs] is changed by going from [h] to [h']; there may be new ones *)
  Definition untouched_but (rs : list ref) h h' : Prop :=
    kept h_geom h h' ∧ kept h_pv h h' ∧ kept h_lane h h' ∧ kept h_sec h h' ∧ kept h_lanes h h' ∧ kept h_linker h h' ∧
    kept h_conn h h' ∧ kept h_junc h h' ∧ kept h_obj h h' ∧
    (∀ r o, r ∉ rs → h_road h !! r = Some o → h_road h' !! r = Some o) ∧ kept h_odr h h' ∧ h_ids h' = h_ids h.

  (** a new road as in [new_road_with], but with predecessor and successor links and no lane offsets *)
  Definition new_road_joined h h' (r : ref) (id : pyid) (ty : Z) (gs : list ref) (l rr : nat)
    (width : place → F) (mark : place → roadmark F) (pred succ : link) : Prop :=
    ∃ pv ls sec s, is_new h_road h h' r ∧ is_new h_pv h h' pv ∧ is_new h_lanes h h' ls ∧ is_new h_sec h h' sec ∧
      h_road h' !! r = Some (mkRoad id pv ls ty None None [pred; succ] 0 (Some succ) (Some pred) 0 0 [] []) ∧
      h_pv h' !! pv = Some (mkPlanview (fofZ 0) (fofZ 0) (fofZ 0) (fofZ 0) false None None gs [] [] false) ∧
      h_lanes h' !! ls = Some [sec] ∧ h_sec h' !! sec = Some s ∧ ls_s s = fofZ 0 ∧ lane_counts h' sec = (l, rr) ∧
      ∀ p x, lane_at h' sec p = Some x → is_new h_lane h h' x ∧
        ∃ o, h_lane h' !! x = Some o ∧ plain_lane p (width p) o ∧ ln_roadmark o = Some (mark p).

  (** lane [x] is a lane of road [r]; two roads have a planview or a lane in common *)
  Definition has_lane h (r x : ref) : Prop := ∃ o sec p, h_road h !! r = Some o ∧ sec ∈ sections h o ∧ lane_at h sec p = Some x.
  Definition in_common h (r r' : ref) : Prop :=
    rd_planview (h_road h !!! r) = rd_planview (h_road h !!! r') ∨ ∃ x, has_lane h r x ∧ has_lane h r' x.

  (** the course of a connecting road: a line of length [ll] if it does not turn, otherwise clothoid, arc and clothoid of curvature
      1/r that turn by the given parts of the angle [turn], starting at curvature [STD_START_CLOTH] *)
  Definition connecting_course h h' (gs : list ref) (r ll sp ap turn : F) : Prop :=
    (∀ g, g ∈ gs → is_new h_geom h h' g) ∧
    if fiszero (fsign turn) then ∃ g, gs = [g] ∧ h_geom h' !! g = Some (GLine ll)
    else ∃ g1 g2 g3 x1 x3, gs = [g1; g2; g3] ∧
      let k := fdiv (fofZ 1) r in let cloth := fmul turn sp in let adj := directed k cloth in
      h_geom h' !! g1 = Some x1 ∧ h_geom h' !! g2 = Some (GArc (adj k) None (Some (adj (fmul turn ap)))) ∧ h_geom h' !! g3 = Some x3 ∧
      mk_spiral (adj STD_START_CLOTH) (adj k) None (Some (adj cloth)) None = Ok x1 ∧
      mk_spiral (adj k) (adj STD_START_CLOTH) None (Some (adj cloth)) None = Ok x3.

  (** the road's first and last lane sections have [l] left and [rr] right lanes *)
  Definition ends_with_lanes h (l rr : nat) (o : road) : Prop :=
    ∃ s1 s2, first_section h o = Some s1 ∧ last_section h o = Some s2 ∧ lane_counts h s1 = (l, rr) ∧ lane_counts h s2 = (l, rr).
  (** width of the innermost left lane of a section *)
  Definition left_width h (sec : ref) : F := match lane_at h sec (LeftOf 0) with Some x => ln_a (h_lane h !!! x) | None => fofZ 0 end.

  (** the links that create_junction_roads makes *)
  Definition junction_link (kind : string) (junction : Z) : link := mkLink (Some kind) (PInt junction) (Some et_junction) None None.
  Definition road_link (kind : string) (id : pyid) (cp : ContactPoint) : link := mkLink (Some kind) id (Some et_road) (Some cp) None.
  (** road number [i] after it has been attached to the junction: the first road at its end, the others at their start *)
  Definition attached (i : nat) (junction : Z) (o : road) : road :=
    if bool_decide (i = 0)
    then o <| rd_succ := Some (junction_link "successor" junction) |> <| rd_links := rd_links o ++ [junction_link "successor" junction] |> <| rd_off_suc := 0%Z |>
    else o <| rd_pred := Some (junction_link "predecessor" junction) |> <| rd_links := rd_links o ++ [junction_link "predecessor" junction] |> <| rd_off_pred := 0%Z |>.
End JunctionRoads.
