(** * pyodrx/links.py: junctions and automatic lane linking *)
From Verif.Model Require Export Lane.

(** links.py:42-108: the six getters of [_Links] are the same loop over [self.links]:
      retval = None
      for l in self.links:
          if l.link_type == ty: retval = l.attribute
      return retval                                                                                                     *)
Definition links_loop {A} (ty : string) (attribute : link → option A) (ls : list link) : option A :=
  foldl (λ retval l, if bool_decide (lk_type l = Some ty) then attribute l else retval) None ls.
(** links.py:86-96, 98-108 *)
Definition get_predecessor_id (ls : list link) : option pyid := links_loop "predecessor" (λ l, Some (lk_id l)) ls.
Definition get_successor_id (ls : list link) : option pyid := links_loop "successor" (λ l, Some (lk_id l)) ls.
(** links.py:64-74, 75-85 *)
Definition get_predecessor_type (ls : list link) : option ElementType := links_loop "predecessor" lk_etype ls.
Definition get_successor_type (ls : list link) : option ElementType := links_loop "successor" lk_etype ls.
(** links.py:42-52, 53-63 *)
Definition get_predecessor_contact_point (ls : list link) : option ContactPoint := links_loop "predecessor" lk_contact ls.
Definition get_successor_contact_point (ls : list link) : option ContactPoint := links_loop "successor" lk_contact ls.

Section Links.
  Context {F : Type} `{!Num F}.

  (** links.py:299-317 [Connection.__init__] *)
  Definition connection_ctor (incoming connecting : pyid) (cp : ContactPoint) (id : option pyid) : H (F:=F) ref :=
    new_conn (mkConnection incoming connecting cp id []).

  (** links.py:319-327 [Connection._set_id] *)
  Definition conn_set_id (c : ref) (id : Z) : H (F:=F) unit :=
    upd_conn c (λ o, match cn_id o with None => o <| cn_id := Some (PInt id) |> | Some _ => o end).

  (** links.py:329-338 [Connection.add_lanelink] *)
  Definition conn_add_lanelink (c : ref) (i o : Z) : H (F:=F) unit :=
    upd_conn c (λ x, x <| cn_links := cn_links x ++ [(i, o)] |>).

  (** links.py:390-402 [Junction.__init__] *)
  Definition junction_ctor (name : string) (id : pyid) : H (F:=F) ref :=
    new_junc (mkJunction name id [] 0).

  (** links.py:404-414 [Junction.add_connection] *)
  Definition add_connection (j c : ref) : H (F:=F) unit :=
    let! o := get_junc j in
    conn_set_id c (jn_counter o) ;;
    upd_junc j (λ o, o <| jn_counter := (jn_counter o + 1)%Z |>) ;;
    upd_junc j (λ o, o <| jn_conns := jn_conns o ++ [c] |>).

  (** links.py:437-444 [are_roads_consecutive] *)
  Definition are_roads_consecutive (r1 r2 : road) : bool :=
    match rd_succ r1, rd_pred r2 with
    | Some s, Some p =>
      bool_decide (lk_etype s = Some et_road) && bool_decide (lk_etype p = Some et_road) &&
      bool_decide (lk_id s = rd_id r2) && bool_decide (lk_id p = rd_id r1)
    | _, _ => false
    end.

  (** links.py:535-549: the first half of [_get_related_lanesection].  [ty] is the link type, [sign] and
      [idx] are the sign and lane section index. *)
  Definition related_base (r c : road) : option string * option Z * option Z :=
    let try_pred :=
      match rd_pred r with
      | Some p =>
        if bool_decide (lk_id p = rd_id c) then
          (Some "predecessor", Some (if bool_decide (lk_contact p = Some cp_start) then -1 else 1)%Z, Some 0%Z)
        else (None, None, None)
      | None => (None, None, None)
      end in
    match rd_succ r with
    | Some s =>
      if bool_decide (lk_id s = rd_id c) then
        (Some "successor", Some (if bool_decide (lk_contact s = Some cp_start) then 1 else -1)%Z, Some (-1)%Z)
      else try_pred
    | None => try_pred
    end.

  (** links.py:513-567 [_get_related_lanesection].  The tests at 554 and 561 compare a link type (a str)
      with a ContactPoint: always False, so the else branches are taken.  At 553, 560 a None
      predecessor / successor raises AttributeError; 561 reads [connected_road.predecessor], not None there. *)
  Definition get_related_lanesection (r c : road) : res (option string * option Z * option Z) :=
    let '(ty, sign, idx) := related_base r c in
    if bool_decide (rd_type c = -1)%Z then Ok (ty, sign, idx)
    else match rd_pred c with
         | None => Err AttributeError
         | Some p =>
           if bool_decide (lk_id p = rd_id r) then Ok (ty, Some 1%Z, Some 0%Z)
           else match rd_succ c with
                | None => Err AttributeError
                | Some s =>
                  if bool_decide (lk_id s = rd_id r) then Ok (ty, Some (-1)%Z, Some (-1)%Z)
                  else Ok (ty, sign, idx)
                end
         end.

  (** [road.lanes.lanesections[i]] *)
  Definition road_section (r : road) (i : option Z) : H (F:=F) (lanesection F) :=
    let! secs := get_lanes (rd_lanes r) in
    let! s := py_index_opt secs i in
    get_sec s.

  (** [lane.lane_id * sign] ([None] operands raise TypeError) *)
  Definition lane_id_times (l : ref) (sign : option Z) : H (F:=F) Z :=
    let! o := get_lane l in
    let! i := or_raise TypeError (ln_id o) in
    let! s := or_raise TypeError sign in
    ret (i * s)%Z.

  (** links.py:478-510 [_create_links_connecting_road] *)
  Definition create_links_connecting_road (connecting_ref road_ref : ref) : H (F:=F) unit :=
    let! connecting := get_road connecting_ref in
    let! road := get_road road_ref in
    let! t1 := lift (get_related_lanesection connecting road) in
    let! t2 := lift (get_related_lanesection road connecting) in
    let '(linktype, sign, connecting_lanesec) := t1 in
    let '(_, _, road_sec_id) := t2 in
    let offset := if bool_decide (linktype = Some "predecessor") then rd_off_pred connecting
                  else rd_off_suc connecting in
    match connecting_lanesec with
    | None => ret tt
    | Some _ =>
      let! csec := road_section connecting connecting_lanesec in
      (match ls_left csec with
       | [] => ret tt
       | _ =>
         (* 494: the range is that of the connecting road's section [road_lanesection_id] *)
         let! rngsec := road_section connecting road_sec_id in
         for_each (λ i,
           let! rsec := road_section road road_sec_id in
           let! rl := or_raise IndexError (ls_left rsec !! i) in
           let! k := lane_id_times rl sign in
           let! csec := road_section connecting connecting_lanesec in
           let! cl := or_raise IndexError (ls_left csec !! i) in
           lane_add_link cl linktype (pretty (k + offset)%Z)) (seq 0 (length (ls_left rngsec)))
       end) ;;
      let! csec := road_section connecting connecting_lanesec in
      (match ls_right csec with
       | [] => ret tt
       | _ =>
         for_each (λ i,
           let! rsec := road_section road road_sec_id in
           let! rl := or_raise IndexError (ls_right rsec !! i) in
           let! k := lane_id_times rl sign in
           let! csec := road_section connecting connecting_lanesec in
           let! cl := or_raise IndexError (ls_right csec !! i) in
           lane_add_link cl linktype (pretty (k + offset)%Z)) (seq 0 (length (ls_right csec)))
       end)
    end.

  (** links.py:569-599 [_create_links_roads] *)
  Definition create_links_roads (pre_ref suc_ref : ref) : H (F:=F) unit :=
    let! pre := get_road pre_ref in
    let! suc := get_road suc_ref in
    let! t1 := lift (get_related_lanesection pre suc) in
    let! t2 := lift (get_related_lanesection suc pre) in
    let '(pre_linktype, pre_sign, pre_sec) := t1 in
    let '(suc_linktype, _, suc_sec) := t2 in
    let! psec := road_section pre pre_sec in
    (* 581: compared with the LAST section of the successor road *)
    let! slast := road_section suc (Some (-1)%Z) in
    (if bool_decide (length (ls_left psec) = length (ls_left slast)) then
       for_each (λ i,
         let! psec := road_section pre pre_sec in
         let! pl := or_raise IndexError (ls_left psec !! i) in
         let! linkid := lane_id_times pl pre_sign in
         lane_add_link pl pre_linktype (pretty linkid) ;;
         let! ssec := road_section suc suc_sec in
         let! sl := or_raise IndexError (ls_left ssec !! i) in
         let! sg := or_raise TypeError pre_sign in
         lane_add_link sl suc_linktype (pretty (linkid * sg)%Z)) (seq 0 (length (ls_left psec)))
     else raise NotSameAmountOfLanesError) ;;
    let! psec := road_section pre pre_sec in
    let! slast := road_section suc (Some (-1)%Z) in
    (if bool_decide (length (ls_right psec) = length (ls_right slast)) then
       for_each (λ i,
         let! psec := road_section pre pre_sec in
         let! pl := or_raise IndexError (ls_right psec !! i) in
         let! o := get_lane pl in
         (* 595: no sign here; str(None) would be 'None' *)
         lane_add_link pl pre_linktype (lane_id_str (ln_id o)) ;;
         let! ssec := road_section suc suc_sec in
         let! sl := or_raise IndexError (ls_right ssec !! i) in
         lane_add_link sl suc_linktype (lane_id_str (ln_id o))) (seq 0 (length (ls_right psec)))
     else raise NotSameAmountOfLanesError).

  (** links.py:446-476 [create_lane_links] *)
  Definition create_lane_links (r1 r2 : ref) : H (F:=F) unit :=
    let! o1 := get_road r1 in
    let! o2 := get_road r2 in
    if bool_decide (rd_type o1 = -1)%Z && bool_decide (rd_type o2 = -1)%Z then
      if are_roads_consecutive o1 o2 then create_links_roads r1 r2
      else if are_roads_consecutive o2 o1 then create_links_roads r2 r1
      else ret tt
    else if negb (bool_decide (rd_type o1 = -1)%Z) then create_links_connecting_road r1 r2
    else create_links_connecting_road r2 r1.
End Links.
