(** * pyodrx/opendrive.py: Road *)
From Verif.Model Require Export Geometry Links SignalsObjects.

Section Road.
  Context {F : Type} `{!Num F}.

  (** opendrive.py:120-153 [Road.__init__] *)
  Definition road_ctor (id : pyid) (pv lanes : ref) (ty : Z) (name rule : option string) : H (F:=F) ref :=
    new_road (road_new id pv lanes ty name rule).

  (** opendrive.py:155-171 [Road.add_successor] *)
  Definition add_successor (r : ref) (et : option ElementType) (id : pyid) (cp : option ContactPoint) (off : Z) : H (F:=F) unit :=
    let! o := get_road r in
    match rd_succ o with
    | Some _ => raise ValueError
    | None =>
      let! k := lift (mk_link (Some "successor") id et cp None) in
      upd_road r (λ o, o <| rd_succ := Some k |> <| rd_links := rd_links o ++ [k] |> <| rd_off_suc := off |>)
    end.

  (** opendrive.py:174-190 [Road.add_predecessor] *)
  Definition add_predecessor (r : ref) (et : option ElementType) (id : pyid) (cp : option ContactPoint) (off : Z) : H (F:=F) unit :=
    let! o := get_road r in
    match rd_pred o with
    | Some _ => raise ValueError
    | None =>
      let! k := lift (mk_link (Some "predecessor") id et cp None) in
      upd_road r (λ o, o <| rd_pred := Some k |> <| rd_links := rd_links o ++ [k] |> <| rd_off_pred := off |>)
    end.

  (** opendrive.py:193-209 [Road.add_neighbor] *)
  Definition add_neighbor (r : ref) (et : option ElementType) (id : pyid) (dir : option Direction) : H (F:=F) unit :=
    let! o := get_road r in
    if decide (1 < rd_neighbors o) then raise ValueError
    else
      let! k := lift (mk_link (Some "neighbor") id et None dir) in
      upd_road r (λ o, o <| rd_links := rd_links o ++ [k] |>) ;;
      upd_road r (λ o, o <| rd_neighbors := S (rd_neighbors o) |>).

  (** opendrive.py:210-224 [Road.add_object]: a single object behaves as a one-element list *)
  Definition add_object (r : ref) (os : list ref) : H (F:=F) unit :=
    for_each update_id os ;;
    upd_road r (λ o, o <| rd_objects := rd_objects o ++ os |>).

  (** opendrive.py:279-290 [Road.add_signal] *)
  Definition add_signal (r : ref) (os : list ref) : H (F:=F) unit :=
    for_each update_id os ;;
    upd_road r (λ o, o <| rd_signals := rd_signals o ++ os |>).

  (** opendrive.py:261-262 / 268-269: [total_widths[-1]], starting from 0 *)
  Fixpoint sum_widths (acc : F) (ls : list ref) : H (F:=F) F :=
    match ls with
    | [] => ret acc
    | l :: ls' => let! o := get_lane l in sum_widths (fadd acc (ln_a o)) ls'
    end.

  (** opendrive.py:255-269: one entry (section s, heading factor, total width, copy of the prototype) per requested side
      of each lane section *)
  Definition roadside_left (proto sec : ref) : H (F:=F) (list (F * Z * F * ref)) :=
    let! s := get_sec sec in
    let! p := get_obj proto in
    let! o := new_obj p in                    (* cpy.deepcopy *)
    let! w := sum_widths (fofZ 0) (ls_left s) in
    ret [(ls_s s, 1%Z, w, o)].
  Definition roadside_right (proto sec : ref) : H (F:=F) (list (F * Z * F * ref)) :=
    let! s := get_sec sec in
    let! p := get_obj proto in
    let! o := new_obj p in
    let! w := sum_widths (fofZ 0) (ls_right s) in
    ret [(ls_s s, (-1)%Z, w, o)].
  Fixpoint roadside_entries (proto : ref) (side : RoadSide) (secs : list ref) : H (F:=F) (list (F * Z * F * ref)) :=
    match secs with
    | [] => ret []
    | sec :: secs' =>
      let! l := (match side with side_right => ret [] | _ => roadside_left proto sec end) in
      let! r := (match side with side_left => ret [] | _ => roadside_right proto sec end) in
      let! rest := roadside_entries proto side secs' in
      ret (l ++ r ++ rest)
    end.

  (** opendrive.py:271-275 *)
  Definition roadside_finish (pv : ref) (dist sOffset tOffset : F) (e : F * Z * F * ref) : H (F:=F) unit :=
    let '(s, f, w, o) := e in
    upd_obj o (λ x, x <| so_t := fmul (fadd w tOffset) (fofZ f) |>
                      <| so_s := fadd sOffset s |>
                      <| so_hdg := fdiv (fmul fpi (fofZ (1 + f))) (fofZ 2) |>) ;;
    let! p := get_pv pv in
    let! x := get_obj o in
    (* a copy of a Signal has no method repeat *)
    (match so_class x with CSignal => raise AttributeError | CObject => ret tt end) ;;
    object_repeat o (fsub (fsub (pv_s p) sOffset) s) dist
      None None None None None None None None None None None None None.

  (** opendrive.py:226-277 [Road.add_object_roadside] *)
  Definition add_object_roadside (r proto : ref) (dist sOffset tOffset : F) (side : RoadSide) : H (F:=F) unit :=
    let! o := get_road r in
    let! p := get_pv (rd_planview o) in
    if negb (pv_adjusted p) then raise RoadsAndLanesNotAdjusted
    else
      let! secs := get_lanes (rd_lanes o) in
      let! es := roadside_entries proto side secs in
      for_each (roadside_finish (rd_planview o) dist sOffset tOffset) es ;;
      add_object r (map (λ e, e.2) es).

  (** opendrive.py:294-304 [Road.get_end_point] *)
  Definition road_get_end_point (r : ref) : H (F:=F) (F * F * F) :=
    let! o := get_road r in
    let! p := get_pv (rd_planview o) in
    ret (pv_x p, pv_y p, pv_h p).
End Road.
