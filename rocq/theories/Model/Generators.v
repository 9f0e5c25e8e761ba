(** * pyodrx/generators.py *)
From Verif.Model Require Export OpenDrive.

Section Generators.
  Context {F : Type} `{!Num F}.

  (** generators.py:18-20 *)
  Definition std_roadmark (ty : RoadMarkType) : roadmark F :=
    roadmark_ctor ty (Some (fdec 2 1)) None None None (fofZ 0) None col_standard wgt_standard (fdec 2 2) None.
  Definition STD_ROADMARK_SOLID : roadmark F := std_roadmark rmt_solid.
  Definition STD_ROADMARK_BROKEN : roadmark F := std_roadmark rmt_broken.
  Definition STD_START_CLOTH : F := fdiv (fofZ 1) (fofZ 1000000000).

  (** [Lane(a=width)] *)
  Definition lane_a (a : F) : H (F:=F) ref := lane_ctor lt_driving a (fofZ 0) (fofZ 0) (fofZ 0) (fofZ 0).

  (** generators.py:21-38 [standard_lane] *)
  Definition standard_lane (offset : F) (rm : roadmark F) : H (F:=F) ref :=
    let! l := lane_a offset in
    lane_add_roadmark l rm ;;
    ret l.

  (** generators.py:69-75: add the geometries to the planview; [raw_length += g.length] raises TypeError on None.  The sum
      itself is not used. *)
  Definition add_geometries (pv : ref) (gs : list ref) : H (F:=F) unit :=
    for_each (λ g,
      pv_add_geometry pv g None ;;
      let! o := get_geom g in
      let! _ := or_raise TypeError (geom_length o) in
      ret tt) gs.

  (** generators.py:83-88 / 90-95 *)
  Definition create_side (add : ref → ref → H (F:=F) unit) (sec : ref) (n : nat) (width : F) : H (F:=F) unit :=
    for_each (λ i : nat,
      let! l := standard_lane width
                  (if bool_decide (S i = n) then STD_ROADMARK_SOLID else STD_ROADMARK_BROKEN) in
      add sec l) (seq 0 n).

  (** generators.py:41-101 [create_road]; a single geometry behaves as a one-element list; negative lane counts behave as 0
      ([range] is empty) *)
  Definition create_road (gs : list ref) (id : pyid) (left_lanes right_lanes : nat) (ty : Z)
    (center_mark : roadmark F) (lane_width : F) : H (F:=F) ref :=
    let! pv := new_pv planview_new in
    add_geometries pv gs ;;
    let! lc := lane_a (fofZ 0) in
    lane_add_roadmark lc center_mark ;;
    let! sec := lanesection_ctor (fofZ 0) lc in
    create_side add_left_lane sec left_lanes lane_width ;;
    create_side add_right_lane sec right_lanes lane_width ;;
    let! ls := lanes_ctor in
    add_lanesection ls sec [] ;;
    road_ctor id pv ls ty None None.

  (** generators.py:128-130 / 183-185 *)
  Definition create_sides (sec : ref) (n : nat) (width : F) : H (F:=F) unit :=
    for_each (λ _ : nat,
      (let! l := standard_lane width STD_ROADMARK_BROKEN in add_right_lane sec l) ;;
      (let! l := standard_lane width STD_ROADMARK_BROKEN in add_left_lane sec l)) (seq 0 n).

  (** generators.py:103-137 [create_straight_road]; negative [n_lanes] behaves as 0 *)
  Definition create_straight_road (id : pyid) (length : F) (junction : Z) (n_lanes : nat) (lane_offset : F) : H (F:=F) ref :=
    let! g := new_geom (mk_line length) in
    let! pv := new_pv planview_new in
    pv_add_geometry pv g None ;;
    let! lc := standard_lane (fofZ 3) STD_ROADMARK_BROKEN in
    let! sec := lanesection_ctor (fofZ 0) lc in
    create_sides sec n_lanes lane_offset ;;
    let! ls := lanes_ctor in
    add_lanesection ls sec [] ;;
    road_ctor id pv ls junction None None.

  (** generators.py:140-190 [create_cloth_arc_cloth] *)
  Definition create_cloth_arc_cloth (arc_curv arc_angle cloth_angle : F) (id : pyid) (junction : Z)
    (cloth_start : F) (n_lanes : nat) (lane_offset : F) : H (F:=F) ref :=
    let! pv := new_pv planview_new in
    let flip := fltb cloth_angle (fofZ 0) && fltb (fofZ 0) arc_curv in
    let adj (x : F) := if flip then fneg x else x in
    let! g1 := lift (mk_spiral (adj cloth_start) (adj arc_curv) None (Some (adj cloth_angle)) None) in
    let! spiral1 := new_geom g1 in
    let! g2 := lift (mk_arc (adj arc_curv) None (Some (adj arc_angle))) in
    let! arc := new_geom g2 in
    let! g3 := lift (mk_spiral (adj arc_curv) (adj cloth_start) None (Some (adj cloth_angle)) None) in
    let! spiral2 := new_geom g3 in
    pv_add_geometry pv spiral1 None ;;
    pv_add_geometry pv arc None ;;
    pv_add_geometry pv spiral2 None ;;
    let! lc := standard_lane (fofZ 3) STD_ROADMARK_BROKEN in
    let! sec := lanesection_ctor (fofZ 0) lc in
    create_sides sec n_lanes lane_offset ;;
    let! ls := lanes_ctor in
    add_lanesection ls sec [] ;;
    road_ctor id pv ls junction None None.

  (** generators.py:192-220 [get_lanes_offset]; NotSameAmountOfLanesError is not imported in this module, so line 218 raises
      NameError *)
  Definition get_lanes_offset (r1 r2 : ref) (cp : ContactPoint) : H (F:=F) (nat * F) :=
    let! o1 := get_road r1 in
    let! o2 := get_road r2 in
    let! s1 := road_section o1 (Some (match cp with cp_end => 0 | cp_start => -1 end)%Z) in
    let! s2 := road_section o2 (Some 0%Z) in
    if bool_decide (length (ls_left s1) = length (ls_left s2)) &&
       bool_decide (length (ls_right s1) = length (ls_right s2)) then
      let! l := or_raise IndexError (head (ls_left s1)) in
      let! o := get_lane l in
      ret (length (ls_left s1), ln_a o)
    else raise NameError.

  (** generators.py:258-267: the length of the straight connecting roads *)
  Definition junction_linelength (r spiral_part : F) : res F :=
    let angle_cloth := fmul (fdiv fpi (fofZ 2)) spiral_part in
    let spiral_length := fmul (fofZ 2) (fabs (fmul angle_cloth r)) in
    if fiszero r then Err ZeroDivisionError
    else
      rbind (euler_create spiral_length STD_START_CLOTH (fdiv (fofZ 1) r)) (λ g,
        let '(X, Y, _) := euler_calc g spiral_length (fofZ 0) (fofZ 0) STD_START_CLOTH (fofZ 0) in
        let X0 := fsub X (fmul r (fsin angle_cloth)) in
        let Y0 := fsub Y (fmul r (fsub (fofZ 1) (fcos angle_cloth))) in
        Ok (fmul (fofZ 2) (fadd (fadd X0 r) Y0))).

  (** generators.py:282-306: the connecting road from road [i] to road [j] ([an1] at 290-291 is adjusted but no longer
      used afterwards) *)
  Definition junction_road (roads : list ref) (angles : list F) (r : F) (junction : Z) (spiral_part arc_part : F)
    (linelength : F) (cp : ContactPoint) (i : nat) (startnum : Z) (j : nat) : H (F:=F) ref :=
    let! aj := or_raise IndexError (angles !! j) in
    let! ai := or_raise IndexError (angles !! i) in
    let an1 := fsub (fsub aj ai) fpi in
    let an := fsign an1 in
    let angle_arc := fmul an1 arc_part in
    let angle_cloth := fmul an1 spiral_part in
    let! ri := or_raise IndexError (roads !! i) in
    let! rj := or_raise IndexError (roads !! j) in
    let! t := get_lanes_offset ri rj cp in
    let '(n_lanes, lanes_offset) := t in
    let! tmp :=
      (if fiszero an then create_straight_road (PInt startnum) linelength junction n_lanes lanes_offset
       else create_cloth_arc_cloth (fdiv (fofZ 1) r) angle_arc angle_cloth (PInt startnum) junction
              STD_START_CLOTH n_lanes lanes_offset) in
    let! oi := get_road ri in
    add_predecessor tmp (Some et_road) (rd_id oi) (Some cp) 0 ;;
    let! oj := get_road rj in
    add_successor tmp (Some et_road) (rd_id oj) (Some cp_start) 0 ;;
    ret tmp.

  (** generators.py:281-306 *)
  Fixpoint junction_inner (roads : list ref) (angles : list F) (r : F) (junction : Z) (sp ap ll : F)
    (cp : ContactPoint) (i : nat) (startnum : Z) (js : list nat) : H (F:=F) (list ref) :=
    match js with
    | [] => ret []
    | j :: js' =>
      let! tmp := junction_road roads angles r junction sp ap ll cp i startnum j in
      let! rest := junction_inner roads angles r junction sp ap ll cp i (startnum + 1)%Z js' in
      ret (tmp :: rest)
    end.

  (** generators.py:272-306 *)
  Fixpoint junction_outer (roads : list ref) (angles : list F) (r : F) (junction : Z) (sp ap ll : F)
    (startnum : Z) (is : list nat) : H (F:=F) (list ref) :=
    match is with
    | [] => ret []
    | i :: is' =>
      let! ri := or_raise IndexError (roads !! i) in
      (if bool_decide (i = 0) then add_successor ri (Some et_junction) (PInt junction) None 0
       else add_predecessor ri (Some et_junction) (PInt junction) None 0) ;;
      let cp := if bool_decide (i = 0) then cp_end else cp_start in
      let js := seq (S i) (length roads - S i) in
      let! row := junction_inner roads angles r junction sp ap ll cp i startnum js in
      let! rest := junction_outer roads angles r junction sp ap ll (startnum + Z.of_nat (length js))%Z is' in
      ret (row ++ rest)
    end.

  (** generators.py:225-311 [create_junction_roads] *)
  Definition create_junction_roads (roads : list ref) (angles : list F) (r : F) (junction : Z) (spiral_part arc_part : F)
    (startnum : Z) : H (F:=F) (list ref) :=
    let! ll := lift (junction_linelength r spiral_part) in
    let! js := junction_outer roads angles r junction spiral_part arc_part ll startnum (seq 0 (length roads - 1)) in
    let! rl := or_raise IndexError (last roads) in
    add_predecessor rl (Some et_junction) (PInt junction) None 0 ;;
    ret js.

  (** generators.py:313-333 [_create_junction_links] *)
  Definition create_junction_links (c : ref) (nlanes : nat) (r_or_l : Z) (sign : option Z) (from_offset to_offset : Z) : H (F:=F) unit :=
    for_each (λ i : nat,
      let! sg := or_raise TypeError sign in
      conn_add_lanelink c (r_or_l * Z.of_nat i + from_offset)%Z (r_or_l * sg * Z.of_nat i + to_offset)%Z)
      (seq 1 nlanes).

  (** generators.py:375-390 [get_road_by_id] *)
  Fixpoint get_road_by_id (roads : list ref) (id : pyid) : H (F:=F) (option ref) :=
    match roads with
    | [] => ret None
    | r :: roads' =>
      let! o := get_road r in
      if bool_decide (rd_id o = id) then ret (Some r) else get_road_by_id roads' id
    end.

  (** generators.py:360-365 / 368-372: one connection; [cp] is the contact point on the connecting road, [idx] the lane section.
      A missing road makes [_get_related_lanesection(jr, None)] raise AttributeError. *)
  Definition junction_connection (j : ref) (roads : list ref) (jr : road) (k : link) (cp : ContactPoint) (idx : Z)
    (from_offset to_offset : Z) : H (F:=F) unit :=
    let! c := connection_ctor (lk_id k) (rd_id jr) cp None in
    let! rr := get_road_by_id roads (lk_id k) in
    let! rr := or_raise AttributeError rr in
    let! ro := get_road rr in
    let! t := lift (get_related_lanesection jr ro) in
    let '(_, sign, _) := t in
    let! s := road_section jr (Some idx) in
    create_junction_links c (length (ls_right s)) (-1) sign from_offset to_offset ;;
    create_junction_links c (length (ls_left s)) 1 sign from_offset to_offset ;;
    add_connection j c.

  (** generators.py:336-373 [create_junction] *)
  Definition create_junction (junction_roads : list ref) (id : pyid) (roads : list ref) : H (F:=F) ref :=
    let! j := junction_ctor "my junction" id in
    for_each (λ r,
      let! jr := get_road r in
      let! ks := or_raise AttributeError (rd_succ jr) in
      junction_connection j roads jr ks cp_end (-1) 0 (rd_off_suc jr) ;;
      let! kp := or_raise AttributeError (rd_pred jr) in
      junction_connection j roads jr kp cp_start 0 (rd_off_pred jr) 0) junction_roads ;;
    ret j.
End Generators.
