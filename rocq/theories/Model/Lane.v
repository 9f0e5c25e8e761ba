(** * pyodrx/lane.py and the link containers of pyodrx/links.py *)
From Verif.Model Require Export Heap.

(** links.py:160-188 [_Link.__init__] *)
Definition mk_link (ty : option string) (id : pyid) (et : option ElementType) (cp : option ContactPoint)
  (dir : option Direction) : res link :=
  if bool_decide (ty = Some "neighbor") && bool_decide (dir = None) then Err ValueError
  else Ok (mkLink ty id et cp dir).

Section Lane.
  Context {F : Type} `{!Num F}.

  (** lane.py:229-262 [Lane.__init__] *)
  Definition lane_ctor (ty : LaneType) (a b c d soffset : F) : H (F:=F) ref :=
    new_lane (lane_new ty a b c d soffset).

  (** lane.py:266-275 [Lane.add_link]: the id is stored as [str(id)].  [link_type] may be None in one corner
      case of the caller links.py:500,510. *)
  Definition lane_add_link (l : ref) (ty : option string) (id : string) : H (F:=F) unit :=
    let! k := lift (mk_link ty (PStr id) None None None) in
    upd_lane l (λ o, o <| ln_links := ln_links o ++ [k] |>).

  (** lane.py:277-281 [Lane._set_lane_id] *)
  Definition lane_set_id (l : ref) (id : Z) : H (F:=F) unit :=
    upd_lane l (λ o, o <| ln_id := Some id |>).

  (** lane.py:283-291 [Lane.add_roadmark] *)
  Definition lane_add_roadmark (l : ref) (rm : roadmark F) : H (F:=F) unit :=
    upd_lane l (λ o, o <| ln_roadmark := Some rm |>).

  (** lane.py:98-113 [LaneSection.__init__] *)
  Definition lanesection_ctor (s : F) (center : ref) : H (F:=F) ref :=
    lane_set_id center 0 ;;
    new_sec (mkLaneSection s center [] [] 1 (-1)).

  (** lane.py:116-125 [LaneSection.add_left_lane] *)
  Definition add_left_lane (sec l : ref) : H (F:=F) unit :=
    let! o := get_sec sec in
    lane_set_id l (ls_left_id o) ;;
    upd_sec sec (λ o, o <| ls_left_id := (ls_left_id o + 1)%Z |>) ;;
    upd_sec sec (λ o, o <| ls_left := ls_left o ++ [l] |>).

  (** lane.py:127-136 [LaneSection.add_right_lane] *)
  Definition add_right_lane (sec l : ref) : H (F:=F) unit :=
    let! o := get_sec sec in
    lane_set_id l (ls_right_id o) ;;
    upd_sec sec (λ o, o <| ls_right_id := (ls_right_id o - 1)%Z |>) ;;
    upd_sec sec (λ o, o <| ls_right := ls_right o ++ [l] |>).

  (** links.py:230-235 [LaneLinker.__init__] *)
  Definition linker_ctor : H (F:=F) ref := new_linker [].
  (** links.py:237-249 [LaneLinker.add_link] *)
  Definition linker_add_link (k pred succ : ref) (conn : option pyid) : H (F:=F) unit :=
    upd_linker k (λ o, o ++ [mkLanelink pred succ conn false]).

  (** [str(lane.lane_id)]: 'None' before the lane is in a section *)
  Definition lane_id_str (o : option Z) : string :=
    match o with Some z => pretty z | None => "None" end.

  (** lane.py:44-51: the body of the loop over one LaneLinker, on its [i]-th link *)
  Definition use_lanelink (k : ref) (i : nat) : H (F:=F) unit :=
    let! o := get_linker k in
    match o !! i with
    | None => ret tt
    | Some ll =>
      if ll_used ll then ret tt
      else
        let! s := get_lane (ll_succ ll) in
        lane_add_link (ll_pred ll) (Some "successor") (lane_id_str (ln_id s)) ;;
        let! p := get_lane (ll_pred ll) in
        lane_add_link (ll_succ ll) (Some "predecessor") (lane_id_str (ln_id p)) ;;
        upd_linker k (alter (λ ll, ll <| ll_used := true |>) i)
    end.

  (** lane.py:23-27 [Lanes.__init__] *)
  Definition lanes_ctor : H (F:=F) ref := new_lanes [].

  (** lane.py:28-53 [Lanes.add_lanesection]; a single LaneLinker is passed as a one-element list *)
  Definition add_lanesection (ls sec : ref) (linkers : list ref) : H (F:=F) unit :=
    for_each (λ k,
      let! o := get_linker k in
      for_each (use_lanelink k) (seq 0 (length o))) linkers ;;
    upd_lanes ls (λ o, o ++ [sec]).

  (** lane.py:373-400 [RoadLine.__init__] *)
  Definition roadline_ctor (width length space toffset soffset : F) (rule : option MarkRule)
    (color : option RoadMarkColor) : roadline F :=
    mkRoadline length space toffset rule soffset width color.

  (** lane.py:477-546 [RoadMark.__init__] (the [print] at 541 has no effect on the state) *)
  Definition roadmark_ctor (ty : RoadMarkType) (width length space toffset : option F) (soffset : F)
    (rule : option MarkRule) (color : RoadMarkColor) (weight : RoadMarkWeight) (height : F)
    (laneChange : option LaneChange) : roadmark F :=
    if ftruthy_opt length || ftruthy_opt space || ftruthy_opt toffset || bool_decide (is_Some rule) then
      let '(len, spc) :=
        match ty with
        | rmt_broken => (f_or length (fofZ 3), f_or space (fofZ 3))
        | rmt_solid => (f_or length (fofZ 3), f_or space (fofZ 0))
        | _ => (f_or length (fofZ 0), f_or length (fofZ 0))
        end in
      let w := f_or width (fdec 2 1) in
      let t := f_or toffset (fofZ 0) in
      let r := default mr_none rule in
      mkRoadmark ty weight color soffset height laneChange (Some w) (Some len) (Some spc) (Some t) (Some r)
        (Some (roadline_ctor w len spc t soffset (Some r) (Some color)))
    else
      mkRoadmark ty weight color soffset height laneChange width length space toffset rule None.
End Lane.
