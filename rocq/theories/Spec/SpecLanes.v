(** * Vocabulary for lane links between roads *)
From Coq Require Import ssreflect.
From Verif.Model Require Import Api.
From Verif.Spec Require Export SpecState SpecHistory.
Local Open Scope general_if_scope.

Section Lanes.
  Context {F : Type} `{!Num F}.
  Implicit Types (h : heap F) (o : road).

  (** the lane sections of a road, in order of s *)
  Definition sections h o : list ref := h_lanes h !!! rd_lanes o.
  Definition first_section h o : option ref := head (sections h o).
  Definition last_section h o : option ref := last (sections h o).

  (** how many lanes a section has on either side *)
  Definition lane_counts h (sec : ref) : nat * nat := (length (ls_left (h_sec h !!! sec)), length (ls_right (h_sec h !!! sec))).

  (** the lanes of a section carry the numbers of their places *)
  Definition numbered h (sec : ref) : Prop := ∀ p l, lane_at h sec p = Some l → ln_id (h_lane h !!! l) = Some (lane_number p).

  (** the lanes of a section other than the centre lane *)
  Definition side_lanes h (sec : ref) : list ref := ls_left (h_sec h !!! sec) ++ ls_right (h_sec h !!! sec).

  (** the lane with one more link *)
  Definition with_link (l : lane F) (k : link) : lane F := l <| ln_links := ln_links l ++ [k] |>.

  (** the mutual links of two consecutive ordinary roads: the end of [o1] is the start of [o2] *)
  Definition follows o1 o2 : Prop :=
    rd_type o1 = (-1)%Z ∧ rd_type o2 = (-1)%Z ∧
    (∃ L, rd_succ o1 = Some L ∧ lk_etype L = Some et_road ∧ lk_id L = rd_id o2 ∧ lk_contact L = Some cp_start) ∧
    (∃ L, rd_pred o2 = Some L ∧ lk_etype L = Some et_road ∧ lk_id L = rd_id o1).

  (** road [o] does not link, with its successor / predecessor link, to anything with the id of road [o'] *)
  Definition succ_id_not o o' : Prop := ∀ L, rd_succ o = Some L → lk_id L ≠ rd_id o'.
  Definition pred_id_not o o' : Prop := ∀ L, rd_pred o = Some L → lk_id L ≠ rd_id o'.

  (** connecting road [c] (a road with a junction number) starts at ordinary road [o] ("predecessor") or ends at it
      ("successor"), touching [o] at its end [cp], with lane offset [off] *)
  Inductive joins (c o : road) : string → ContactPoint → Z → Prop :=
  | joins_start L cp : rd_type c ≠ (-1)%Z → rd_type o = (-1)%Z →
      rd_pred c = Some L → lk_id L = rd_id o → lk_contact L = Some cp → succ_id_not c o →
      joins c o "predecessor" cp (rd_off_pred c)
  | joins_end L cp : rd_type c ≠ (-1)%Z → rd_type o = (-1)%Z →
      rd_succ c = Some L → lk_id L = rd_id o → lk_contact L = Some cp → rd_pred c ≠ None → pred_id_not c o →
      joins c o "successor" cp (rd_off_suc c).

  (** the lane section of the connecting road at the joint *)
  Definition joint_section h (c : road) (kind : string) : option ref :=
    if bool_decide (kind = "predecessor") then first_section h c else last_section h c.

  (** a connecting road and the road it joins run in opposite directions when start meets start or end meets end *)
  Definition opposed (kind : string) (cp : ContactPoint) : bool :=
    bool_decide (kind = "predecessor" ∧ cp = cp_start ∨ kind = "successor" ∧ cp = cp_end).

  (** in the state [h'] nothing but lanes differs from [h], and no lane differs outside the list *)
  Definition only_lanes h (ls : list ref) h' : Prop :=
    h' = h <| h_lane := h_lane h' |> ∧ ∀ l, l ∉ ls → h_lane h' !! l = h_lane h !! l.
End Lanes.
