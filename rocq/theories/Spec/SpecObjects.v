(** * Vocabulary for objects at the roadside *)
From Coq Require Import ssreflect.
From Verif.Model Require Import Api.
From Verif.Spec Require Export SpecState SpecHistory SpecLanes SpecGenerate.
Local Open Scope general_if_scope.

Section Objects.
  Context {F : Type} `{!Num F}.
  Implicit Types (h : heap F) (o : road).

  (** where objects are wanted: (lane section, left side?) *)
  Definition roadside_places h o (side : RoadSide) : list (ref * bool) :=
    concat (map (λ sec, match side with side_left => [(sec, true)] | side_right => [(sec, false)] | side_both => [(sec, true); (sec, false)] end)
      (sections h o)).
  (** the widths of some lanes added up from the centre *)
  Definition width_of h (lanes : list ref) : F := foldl (λ w l, fadd w (ln_a (h_lane h !!! l))) (fofZ 0) lanes.

  (** the copy of the prototype that stands at a place; [total] is the length of the road *)
  Definition roadside_object h (proto : sobj F) (total dist sO tO : F) (pl : ref * bool) (id : option pyid) : sobj F :=
    let S := h_sec h !!! pl.1 in
    let s := fadd sO (ls_s S) in
    let t := if pl.2 then fmul (fadd (width_of h (ls_left S)) tO) (fofZ 1) else fmul (fadd (width_of h (ls_right S)) tO) (fofZ (-1)) in
    let hdg := if pl.2 then fdiv (fmul fpi (fofZ 2)) (fofZ 2) else fdiv (fmul fpi (fofZ 0)) (fofZ 2) in
    let height := match so_height proto with Some x => fstr x | None => "None" end in
    proto <| so_id := id |> <| so_s := s |> <| so_t := t |> <| so_hdg := hdg |>
      <| so_repeats := so_repeats proto ++ [[("length", fstr (fsub (fsub total sO) (ls_s S))); ("distance", fstr dist); ("s", fstr s);
           ("tStart", fstr t); ("tEnd", fstr t); ("heightStart", height); ("heightEnd", height);
           ("zOffsetStart", fstr (so_zoffset proto)); ("zOffsetEnd", fstr (so_zoffset proto))]] |>.
End Objects.
