(** * Vocabulary for properties of histories *)
From Coq Require Import ssreflect.
From Verif.Model Require Import Api.
Local Open Scope general_if_scope.

(** the links of a road of a given kind ("successor", "predecessor", "neighbor") in order *)
Definition links_of (kind : string) (o : road) : list link := filter (λ l, lk_type l = Some kind) (rd_links o).

(** the places of a lane section *)
Inductive place := Centre | LeftOf (i : nat) | RightOf (i : nat).   (* i-th from the centre, from 0 *)
(** OpenDRIVE's numbering of the places *)
Definition lane_number (p : place) : Z :=
  match p with Centre => 0 | LeftOf i => Z.of_nat i + 1 | RightOf i => - (Z.of_nat i + 1) end.

Section History.
  Context {F : Type} `{!Num F}.
  Implicit Types (h : heap F).

  (** the lane at a place of a section *)
  Definition lane_at h (sec : ref) (p : place) : option ref :=
    match h_sec h !! sec with
    | None => None
    | Some s => match p with Centre => Some (ls_center s) | LeftOf i => ls_left s !! i | RightOf i => ls_right s !! i end
    end.

  (** the links of some LaneLinkers that have not been applied yet; a LaneLinker named twice counts once *)
  Fixpoint distinct (ks : list ref) (seen : list ref) : list ref :=
    match ks with
    | [] => []
    | k :: ks' => if decide (k ∈ seen) then distinct ks' seen else k :: distinct ks' (k :: seen)
    end.
  Definition pending h (ks : list ref) : list lanelink :=
    concat (map (λ k, filter (λ ll, ll_used ll = false) (h_linker h !!! k)) (distinct ks [])).
  (** the lane links that applying a list of LaneLinker links gives to lane [l] *)
  Definition lane_link (ty id : string) : link := mkLink (Some ty) (PStr id) None None None.
  Definition id_text (o : option Z) : string := match o with Some z => pretty z | None => "None" end.
  Definition links_given h (l : ref) (lls : list lanelink) : list link :=
    concat (map (λ ll,
      (if decide (ll_pred ll = l) then [lane_link "successor" (id_text (ln_id (h_lane h !!! ll_succ ll)))] else []) ++
      (if decide (ll_succ ll = l) then [lane_link "predecessor" (id_text (ln_id (h_lane h !!! ll_pred ll)))] else [])) lls).

  (** object (or signal) [o] has been added to some road *)
  Definition placed h (o : ref) : Prop := ∃ r R, h_road h !! r = Some R ∧ o ∈ rd_objects R ++ rd_signals R.
  (** the ids handed out so far to objects of a class *)
  Definition ids_used h (c : sclass) : list string := (default ([], 0%N) (h_ids h !! sclass_name c)).1.
End History.
