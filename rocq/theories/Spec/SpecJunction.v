(** * Vocabulary for create_junction *)
From Coq Require Import ssreflect.
From Verif.Model Require Import Api.
From Verif.Spec Require Export SpecState SpecHistory SpecLanes SpecGenerate.
Local Open Scope general_if_scope.

Section Junction.
  Context {F : Type} `{!Num F}.
  Implicit Types (h : heap F) (o : road).

  (** the first road of a list that has the given id *)
  Definition road_with_id h (roads : list ref) (id : pyid) : option road :=
    head (filter (λ o, rd_id o = id) (map (λ r, h_road h !!! r) roads)).

  (** the places of a section in the order in which create_junction goes through them: right lanes, then left lanes *)
  Definition junction_places h (sec : ref) : list place :=
    map RightOf (seq 0 (lane_counts h sec).2) ++ map LeftOf (seq 0 (lane_counts h sec).1).
  (** one (from, to) pair per lane: the numbers are equal, or opposite if the roads run in opposite directions, plus the offsets *)
  Definition junction_links h (sec : ref) (opp : bool) (from_off to_off : Z) : list (Z * Z) :=
    map (λ p, (lane_number p + from_off, (if opp then - lane_number p else lane_number p) + to_off)%Z) (junction_places h sec).

  (** connecting road [o] starts at and ends at (different) ordinary roads of the list [roads], and has lane sections *)
  Definition well_joined h (roads : list ref) o : Prop :=
    (∃ o' cp, road_with_id h roads (rd_id o') = Some o' ∧ joins o o' "successor" cp (rd_off_suc o)) ∧
    (∃ o' cp, road_with_id h roads (rd_id o') = Some o' ∧ joins o o' "predecessor" cp (rd_off_pred o)) ∧
    sections h o ≠ [].
End Junction.
