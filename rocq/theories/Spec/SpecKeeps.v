(** * What an object keeps
    The part of an object that is given at its construction or added to it later, and that no later call takes away or changes. *)
From Coq Require Import ssreflect.
From Verif.Model Require Import Api.
Local Open Scope general_if_scope.

Section Keeps.
  Context {F : Type} `{!Num F}.
  (** the shape of a primitive: everything but the lengths and angles that evaluation computes *)
  Definition geom_keeps (g g' : geom F) : Prop :=
    match g, g' with
    | GLine l, GLine l' => l' = l
    | GSpiral cs ce l, GSpiral cs' ce' l' => cs' = cs ∧ ce' = ce ∧ l' = l
    | GArc c _ _, GArc c' _ _ => c' = c
    | GPoly au bu cu du av bv cv dv pr l, GPoly au' bu' cu' du' av' bv' cv' dv' pr' l' =>
      au' = au ∧ bu' = bu ∧ cu' = cu ∧ du' = du ∧ av' = av ∧ bv' = bv ∧ cv' = cv ∧ dv' = dv ∧ pr' = pr ∧ (pr ≠ "normalized" → l' = l)
    | _, _ => False
    end.
  (** where a placed geometry is *)
  Definition spot (p : pgeom F) : F * F * F * ref * option F := (pg_x p, pg_y p, pg_h p, pg_geom p, pg_length p).
  Record pv_keeps (p p' : planview F) : Prop := {
    pk_fixed : pv_fixed p' = pv_fixed p;
    pk_raw : pv_raw p `prefix_of` pv_raw p';
    pk_over : pv_over p `prefix_of` pv_over p';
    pk_placed : map spot (pv_geoms p) `prefix_of` map spot (pv_geoms p');
    pk_adjusted : pv_adjusted p = true → pv_adjusted p' = true;
    pk_start : pv_start p ≠ None → pv_start p' ≠ None;
    pk_end : pv_end p ≠ None → pv_end p' ≠ None
  }.
  Record lane_keeps (l l' : lane F) : Prop := {
    lnk_width : (ln_type l', ln_a l', ln_b l', ln_c l', ln_d l', ln_soffset l') = (ln_type l, ln_a l, ln_b l, ln_c l, ln_d l, ln_soffset l);
    lnk_links : ln_links l `prefix_of` ln_links l';
    lnk_mark : ln_roadmark l ≠ None → ln_roadmark l' ≠ None;
    lnk_numbered : ln_id l ≠ None → ln_id l' ≠ None
  }.
  Record section_keeps (s s' : lanesection F) : Prop := {
    sk_s : ls_s s' = ls_s s;
    sk_center : ls_center s' = ls_center s;
    sk_left : ls_left s `prefix_of` ls_left s';
    sk_right : ls_right s `prefix_of` ls_right s'
  }.
  (** a linker keeps its entries; an entry that was used stays used *)
  Definition linker_keeps (l l' : list lanelink) : Prop :=
    ∀ i k, l !! i = Some k → ∃ k', l' !! i = Some k' ∧ ll_pred k' = ll_pred k ∧ ll_succ k' = ll_succ k ∧ (ll_used k = true → ll_used k' = true).
  Record connection_keeps (c c' : connection) : Prop := {
    ck_roads : (cn_incoming c', cn_connecting c', cn_contact c') = (cn_incoming c, cn_connecting c, cn_contact c);
    ck_id : cn_id c ≠ None → cn_id c' = cn_id c;
    ck_links : cn_links c `prefix_of` cn_links c'
  }.
  Record junction_keeps (j j' : junction) : Prop := {
    jk_name : (jn_name j', jn_id j') = (jn_name j, jn_id j);
    jk_conns : jn_conns j `prefix_of` jn_conns j'
  }.
  (** everything of an object or signal but its id, its place and its repeat entries, which are only appended *)
  Record object_keeps (o o' : sobj F) : Prop := {
    ok_class : (so_class o', so_type o', so_subtype o', so_dynamic o', so_name o') = (so_class o, so_type o, so_subtype o, so_dynamic o, so_name o);
    ok_pose : (so_zoffset o', so_orientation o', so_pitch o', so_roll o', so_hoffset o') = (so_zoffset o, so_orientation o, so_pitch o, so_roll o, so_hoffset o);
    ok_size : (so_width o', so_height o', so_length o', so_radius o', so_validLength o') = (so_width o, so_height o, so_length o, so_radius o, so_validLength o);
    ok_sign : (so_country o', so_value o', so_unit o') = (so_country o, so_value o, so_unit o);
    ok_repeats : so_repeats o `prefix_of` so_repeats o'
  }.
  Record road_keeps (r r' : road) : Prop := {
    rk_ids : (rd_id r', rd_type r', rd_name r', rd_rule r') = (rd_id r, rd_type r, rd_name r, rd_rule r);
    rk_parts : (rd_planview r', rd_lanes r') = (rd_planview r, rd_lanes r);
    rk_links : rd_links r `prefix_of` rd_links r';
    rk_succ : rd_succ r ≠ None → rd_succ r' = rd_succ r ∧ rd_off_suc r' = rd_off_suc r;
    rk_pred : rd_pred r ≠ None → rd_pred r' = rd_pred r ∧ rd_off_pred r' = rd_off_pred r;
    rk_objects : rd_objects r `prefix_of` rd_objects r';
    rk_signals : rd_signals r `prefix_of` rd_signals r'
  }.
  (** an OpenDrive keeps the ids and the order of its roads (a road of the same id takes the place of an earlier one) *)
  Record opendrive_keeps (d d' : opendrive) : Prop := {
    dk_name : od_name d' = od_name d;
    dk_ids : map fst (od_roads d) `prefix_of` map fst (od_roads d');
    dk_junctions : od_junctions d `prefix_of` od_junctions d'
  }.

  (** all objects of a kind are still there and keep what they have *)
  Definition all_keep {V} (f : heap F → gmap nat V) (R : V → V → Prop) (h h' : heap F) : Prop :=
    ∀ r v, f h !! r = Some v → ∃ v', f h' !! r = Some v' ∧ R v v'.
  Record state_keeps (h h' : heap F) : Prop := {
    keep_geom : all_keep h_geom geom_keeps h h';
    keep_pv : all_keep h_pv pv_keeps h h';
    keep_lane : all_keep h_lane lane_keeps h h';
    keep_sec : all_keep h_sec section_keeps h h';
    keep_lanes : all_keep h_lanes prefix h h';
    keep_linker : all_keep h_linker linker_keeps h h';
    keep_conn : all_keep h_conn connection_keeps h h';
    keep_junc : all_keep h_junc junction_keeps h h';
    keep_obj : all_keep h_obj object_keeps h h';
    keep_road : all_keep h_road road_keeps h h';
    keep_odr : all_keep h_odr opendrive_keeps h h'
  }.
End Keeps.
