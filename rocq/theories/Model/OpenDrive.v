(** * pyodrx/opendrive.py: OpenDrive *)
From Verif.Model Require Export Road.

Section OpenDrive.
  Context {F : Type} `{!Num F}.

  (** opendrive.py:368-380 [OpenDrive.__init__] *)
  Definition odr_ctor (name : string) : H (F:=F) ref := new_odr (mkOpenDrive name [] []).

  (** opendrive.py:382-393 [OpenDrive.add_road]: the ValueError at 391 is built but not raised *)
  Definition add_road (d r : ref) : H (F:=F) unit :=
    let! o := get_road r in
    upd_odr d (λ x, x <| od_roads := dict_set (od_roads x) (pystr (rd_id o)) r |>).

  (** opendrive.py:553-561 [OpenDrive.add_junction] *)
  Definition add_junction (d j : ref) : H (F:=F) unit :=
    upd_odr d (λ x, x <| od_junctions := od_junctions x ++ [j] |>).

  (** [self.roads[k]] *)
  Definition road_at (roads : dict ref) (k : string) : H (F:=F) ref :=
    or_raise KeyError (dict_get roads k).

  (** [self.roads[k].planview] *)
  Definition planview_at (roads : dict ref) (k : string) : H (F:=F) ref :=
    let! r := road_at roads k in
    let! o := get_road r in
    ret (rd_planview o).

  (** opendrive.py:435-439 (identical at 449-453): the pose the neighbour offers.  An omitted contact point leaves
      x,y,h unbound; a neighbour that is not adjusted has (None,None,None): [None + np.pi] at a start
      contact, [np.sin(None)] at an end contact, raise TypeError. *)
  Definition neighbour_pose (npv : ref) (cp : option ContactPoint) : H (F:=F) (F * F * F) :=
    let! p := get_pv npv in
    match cp with
    | Some cp_start =>
      let! q := or_raise TypeError (pv_get_start_point p) in
      let '(x, y, h) := q in ret (x, y, fadd h fpi)
    | Some cp_end => or_raise TypeError (pv_get_end_point p)
    | None => raise UnboundLocalError
    end.

  (** opendrive.py:440-442, 454-456: the lateral shift by [n] lanes of (hard-coded) width 3.
      In the predecessor case x = -n*3*sin(h) + x, y = n*3*cos(h) + y; in the successor case the signs are swapped. *)
  Definition shift_pred (n : Z) (p : F * F * F) : F * F * F :=
    let '(x, y, h) := p in
    (fadd (fmul (fmul (fofZ (- n)) (fofZ 3)) (fsin h)) x, fadd (fmul (fmul (fofZ n) (fofZ 3)) (fcos h)) y, h).
  Definition shift_succ (n : Z) (p : F * F * F) : F * F * F :=
    let '(x, y, h) := p in
    (fadd (fmul (fmul (fofZ n) (fofZ 3)) (fsin h)) x, fadd (fmul (fmul (fofZ (- n)) (fofZ 3)) (fcos h)) y, h).

  (** opendrive.py:412-458 [OpenDrive.adjust_road_wrt_neighbour]; the neighbour type is 'predecessor' ([true]) or 'successor'
      ([false]), other strings do nothing and are not used by the library *)
  Definition adjust_road_wrt_neighbour (d : ref) (road_id neighbour_id : string) (cp : option ContactPoint)
    (as_pred : bool) : H (F:=F) unit :=
    let! D := get_odr d in
    let! mr := road_at (od_roads D) road_id in
    let! m := get_road mr in
    let! npv := (match cp with
                 | None => raise UnboundLocalError       (* no branch assigns x,y,h; 441/455 fail *)
                 | Some _ => planview_at (od_roads D) neighbour_id
                 end) in
    let! q := neighbour_pose npv cp in
    let '(x, y, h) := if as_pred then shift_pred (rd_off_pred m) q else shift_succ (rd_off_suc m) q in
    pv_set_start_point (rd_planview m) x y h ;;
    adjust_geometries (rd_planview m) (negb as_pred).

  (** opendrive.py:412-458 the same method as called by a program: ids are strings or ints, the neighbour type any string *)
  Definition adjust_road_wrt (d : ref) (road_id neighbour_id : pyid) (cp : option ContactPoint) (kind : string) : H (F:=F) unit :=
    if String.eqb kind "predecessor" then adjust_road_wrt_neighbour d (pystr road_id) (pystr neighbour_id) cp true
    else if String.eqb kind "successor" then adjust_road_wrt_neighbour d (pystr road_id) (pystr neighbour_id) cp false
    else
      let! D := get_odr d in
      let! _ := road_at (od_roads D) (pystr road_id) in
      ret tt.

  (** [self.roads[str(link.element_id)].planview.adjusted] *)
  Definition link_target_adjusted (roads : dict ref) (k : link) : H (F:=F) bool :=
    let! pv := planview_at roads (pystr (lk_id k)) in
    let! p := get_pv pv in
    ret (pv_adjusted p).

  (** opendrive.py:503-505, 524-526: the three-part condition on a link (evaluated in this order: the lookup of the id
      precedes the element type test) *)
  Definition link_ready (roads : dict ref) (o : option link) : H (F:=F) bool :=
    match o with
    | None => ret false
    | Some k =>
      let! a := link_target_adjusted roads k in
      ret (a && negb (bool_decide (lk_etype k = Some et_junction)))
    end.

  (** opendrive.py:513-521: after placing a connecting road [k] from its predecessor, place its successor [s] *)
  Definition place_other_succ (d : ref) (k : string) (ty : Z) (o : option link) : H (F:=F) nat :=
    match o with
    | Some s =>
      if bool_decide (ty = -1)%Z then ret 0
      else
        let! D := get_odr d in
        let! a := link_target_adjusted (od_roads D) s in
        if a then ret 0
        else
          adjust_road_wrt_neighbour d (pystr (lk_id s)) k (Some cp_end)
            (bool_decide (lk_contact s = Some cp_start)) ;;
          ret 1
    | None => ret 0
    end.

  (** opendrive.py:534-542: after placing a connecting road [k] from its successor, place its predecessor *)
  Definition place_other_pred (d : ref) (k : string) (ty : Z) (o : option link) : H (F:=F) nat :=
    match o with
    | Some p =>
      if bool_decide (ty = -1)%Z then ret 0
      else
        let! D := get_odr d in
        let! a := link_target_adjusted (od_roads D) p in
        if a then ret 0
        else
          adjust_road_wrt_neighbour d (pystr (lk_id p)) k (Some cp_start)
            (bool_decide (lk_contact p = Some cp_start)) ;;
          ret 1
    | None => ret 0
    end.

  (** opendrive.py:500-542: one iteration of the inner loop; returns the number of roads adjusted *)
  Definition sweep_road (d : ref) (k : string) : H (F:=F) nat :=
    let! D := get_odr d in
    let! r := road_at (od_roads D) k in
    let! o := get_road r in
    let! p := get_pv (rd_planview o) in
    if pv_adjusted p then ret 0
    else
      let! bp := link_ready (od_roads D) (rd_pred o) in
      if bp then
        match rd_pred o with
        | None => ret 0
        | Some kp =>
          adjust_road_wrt_neighbour d k (pystr (lk_id kp)) (lk_contact kp) true ;;
          let! n := place_other_succ d k (rd_type o) (rd_succ o) in
          ret (1 + n)
        end
      else
        let! bs := link_ready (od_roads D) (rd_succ o) in
        if bs then
          match rd_succ o with
          | None => ret 0
          | Some ks =>
            adjust_road_wrt_neighbour d k (pystr (lk_id ks)) (lk_contact ks) false ;;
            let! n := place_other_pred d k (rd_type o) (rd_pred o) in
            ret (1 + n)
          end
        else ret 0.

  (** opendrive.py:496-542: one sweep; returns count_adjusted_roads *)
  Fixpoint sweep (d : ref) (ks : list string) : H (F:=F) nat :=
    match ks with
    | [] => ret 0
    | k :: ks' =>
      let! n := sweep_road d k in
      let! m := sweep d ks' in
      ret (n + m)
    end.

  (** opendrive.py:494-548: the while loop *)
  Fixpoint place_loop (fuel : nat) (d : ref) (total : nat) : H (F:=F) unit :=
    let! D := get_odr d in
    if decide (total < length (od_roads D)) then
      match fuel with
      | O => raise OutOfFuel
      | S fuel' =>
        let! n := sweep d (dict_keys (od_roads D)) in
        if decide (total + n ≠ length (od_roads D) ∧ n = 0) then raise UndefinedRoadNetwork
        else place_loop fuel' d (total + n)
      end
    else ret tt.

  (** opendrive.py:479-484: adjust the fixed roads; returns their number *)
  Fixpoint place_fixed (d : ref) (ks : list string) : H (F:=F) nat :=
    match ks with
    | [] => ret 0
    | k :: ks' =>
      let! D := get_odr d in
      let! pv := planview_at (od_roads D) k in
      let! p := get_pv pv in
      if pv_fixed p then
        adjust_geometries pv false ;;
        let! n := place_fixed d ks' in
        ret (S n)
      else place_fixed d ks'
    end.

  (** opendrive.py:461-548 [OpenDrive.adjust_startpoints] *)
  Definition adjust_startpoints (d : ref) : H (F:=F) unit :=
    let! D := get_odr d in
    let! n := place_fixed d (dict_keys (od_roads D)) in
    let! total :=
      (match n with
       | O =>
         (* 489: list(self.roads.keys())[0] *)
         let! k := or_raise IndexError (head (dict_keys (od_roads D))) in
         let! pv := planview_at (od_roads D) k in
         adjust_geometries pv false ;;
         ret 1
       | S _ => ret n
       end) in
    place_loop (S (length (od_roads D))) d total.

  (** opendrive.py:395-409 [OpenDrive.adjust_roads_and_lanes] *)
  Definition adjust_roads_and_lanes (d : ref) : H (F:=F) unit :=
    adjust_startpoints d ;;
    let! D := get_odr d in
    for_each (λ kk : string * string,
      let! r1 := road_at (od_roads D) kk.1 in
      let! r2 := road_at (od_roads D) kk.2 in
      create_lane_links r1 r2) (combinations2 (dict_keys (od_roads D))).
End OpenDrive.
