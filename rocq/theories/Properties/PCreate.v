(** * C62: constructors, C63: the methods that add one thing *)
From Coq Require Import ssreflect.
From Verif.Model Require Import Api.
From Verif.Inst Require Import Quarter.
From Verif.Spec Require Import SpecState SpecHistory SpecCreate.
From Verif.Proof Require Import Monad Reach Steps Invariants.
From Verif.Properties Require Import PHistory.
Local Open Scope general_if_scope.

Section Create.
  Context {F : Type} `{!Num F}.
  Implicit Types (h : heap F).

  Lemma added_insert {V} (f : heap F → gmap nat V) h h' P r v : stored f h P → h_next h ≤ r → f h' = <[r := v]> (f h) → added f h h' r v.
  Proof.
    intros Hs Hr E. split; [|split].
    - destruct (f h !! r) as [w|] eqn:Ew; [|done]. destruct (Hs r w Ew). lia.
    - by rewrite E lookup_insert.
    - intros x Hx. by rewrite E lookup_insert_ne.
  Qed.
  Lemma replaced_insert {V} (f : heap F → gmap nat V) h h' r v : exists_in f h r → f h' = <[r := v]> (f h) → replaced f h h' r v.
  Proof.
    intros Hs E. split; [done|split].
    - by rewrite E lookup_insert.
    - intros x Hx. by rewrite E lookup_insert_ne.
  Qed.
  Ltac others := let kk := fresh "kk" in let Hkk := fresh "Hkk" in intros kk Hkk; destruct kk; first [reflexivity|exfalso; apply Hkk; repeat constructor].
  Ltac creates := eexists _, _; split; [reflexivity|split; [others|]]; eapply added_insert; [done|simpl; lia|reflexivity].

  (** ** C62: a constructor creates one object, which holds what was given, and changes nothing else. *)
  Theorem C62_line h length : reachable h →
    ∃ g h', step (OpLine length) h = (Ok (RRef g), h') ∧ same_but [KGeometry] h h' ∧ added h_geom h h' g (GLine length).
  Proof. intros [] %reachable_no_dangling. creates. Qed.
  (** a spiral is given by exactly one of its length, its angle and its curvature change per length; the length is then
      2|angle| over the larger end curvature, or the curvature change over its rate (a given angle or rate of 0 gives no length) *)
  Theorem C62_spiral h cs ce (length angle cdot : option F) : reachable h →
    match length, angle, cdot with
    | None, None, None => step (OpSpiral cs ce length angle cdot) h = (Err NotEnoughInputArguments, h)
    | Some _, None, None | None, Some _, None | None, None, Some _ =>
      ∃ g h' l, step (OpSpiral cs ce length angle cdot) h = (Ok (RRef g), h') ∧ same_but [KGeometry] h h' ∧ added h_geom h h' g (GSpiral cs ce l) ∧
        l = match length, angle, cdot with
            | Some l, _, _ => Some l
            | _, Some a, _ => if fiszero a then None else Some (fdiv (fmul (fofZ 2) (fabs a)) (fmax (fabs ce) (fabs cs)))
            | _, _, Some c => if fiszero c then None else Some (fdiv (fsub ce cs) c)
            | _, _, _ => None
            end
    | _, _, _ => step (OpSpiral cs ce length angle cdot) h = (Err ToManyOptionalArguments, h)
    end.
  Proof.
    intros []%reachable_no_dangling. unfold step, mk_spiral, ftruthy_opt, ftruthy.
    destruct length as [l|], angle as [a|], cdot as [c|]; simpl; try reflexivity.
    2: destruct (fiszero a).
    4: destruct (fiszero c).
    all: (eexists _, _, _; split; [reflexivity|]; split; [others|]; split; [|reflexivity]; eapply added_insert; [done|simpl; lia|reflexivity]).
  Qed.
  Theorem C62_arc h c (length angle : option F) : reachable h →
    match length, angle with
    | None, None => step (OpArc c length angle) h = (Err NotEnoughInputArguments, h)
    | Some _, Some _ => step (OpArc c length angle) h = (Err ToManyOptionalArguments, h)
    | _, _ => if fiszero c then step (OpArc c length angle) h = (Err ValueError, h) else
      ∃ g h', step (OpArc c length angle) h = (Ok (RRef g), h') ∧ same_but [KGeometry] h h' ∧ added h_geom h h' g (GArc c length angle)
    end.
  Proof.
    intros []%reachable_no_dangling. unfold step, mk_arc. destruct length as [l|], angle as [a|]; try reflexivity; destruct (fiszero c); try reflexivity; creates.
  Qed.
  Theorem C62_parampoly3 h au bu cu du av bv cv dv prange (length : option F) : reachable h →
    if decide (prange = "arcLength" ∧ length = None) then step (OpPoly au bu cu du av bv cv dv prange length) h = (Err ValueError, h) else
    ∃ g h', step (OpPoly au bu cu du av bv cv dv prange length) h = (Ok (RRef g), h') ∧ same_but [KGeometry] h h' ∧
      added h_geom h h' g (GPoly au bu cu du av bv cv dv prange length).
  Proof.
    intros []%reachable_no_dangling. unfold step, mk_poly. destruct (decide _) as [[-> ->]|Hn]; [reflexivity|].
    assert ((prange =? "arcLength")%string && bool_decide (length = None) = false) as ->.
    { apply andb_false_iff. destruct (String.eqb_spec prange "arcLength"); [|by left]. right. apply bool_decide_eq_false_2. intros ->. by apply Hn. }
    creates.
  Qed.
  (** a plan view is fixed if it is given a start point; it is not placed *)
  Theorem C62_planview h (x y hd : option F) : reachable h →
    match x, y, hd with
    | Some x', Some y', Some hd' => ∃ pv h' p, step (OpPlanView x y hd) h = (Ok (RRef pv), h') ∧ same_but [KPlanView] h h' ∧ added h_pv h h' pv p ∧
        (pv_x p, pv_y p, pv_h p) = (x', y', hd') ∧ pv_fixed p = true ∧
        pv_s p = fofZ 0 ∧ pv_adjusted p = false ∧ pv_start p = None ∧ pv_end p = None ∧ pv_raw p = [] ∧ pv_geoms p = [] ∧ pv_over p = []
    | None, None, None => ∃ pv h' p, step (OpPlanView x y hd) h = (Ok (RRef pv), h') ∧ same_but [KPlanView] h h' ∧ added h_pv h h' pv p ∧
        (pv_x p, pv_y p, pv_h p) = (fofZ 0, fofZ 0, fofZ 0) ∧ pv_fixed p = false ∧
        pv_s p = fofZ 0 ∧ pv_adjusted p = false ∧ pv_start p = None ∧ pv_end p = None ∧ pv_raw p = [] ∧ pv_geoms p = [] ∧ pv_over p = []
    | _, _, _ => step (OpPlanView x y hd) h = (Err NotEnoughInputArguments, h)
    end.
  Proof.
    intros []%reachable_no_dangling. unfold step, mk_planview. destruct x as [x|], y as [y|], hd as [hd|]; try reflexivity;
      (eexists _, _, _; split; [reflexivity|]; split; [others|]; split; [eapply added_insert; [done|simpl; lia|reflexivity]|done]).
  Qed.
  Theorem C62_lane h ty (a b c d soffset : F) : reachable h →
    ∃ l h' o, step (OpLane ty a b c d soffset) h = (Ok (RRef l), h') ∧ same_but [KLane] h h' ∧ added h_lane h h' l o ∧
      ln_type o = ty ∧ ln_a o = a ∧ ln_b o = b ∧ ln_c o = c ∧ ln_d o = d ∧ ln_soffset o = soffset ∧ ln_id o = None ∧ ln_roadmark o = None ∧ ln_links o = [].
  Proof. intros []%reachable_no_dangling. eexists _, _, _. split; [reflexivity|]. split; [others|]. split; [eapply added_insert; [done|simpl; lia|reflexivity]|done]. Qed.
  (** standard_lane creates a driving lane of the given constant width, with the given mark *)
  Theorem C62_standard_lane h (width : F) (m : roadmark F) : reachable h →
    ∃ l h' o, step (OpStandardLane width m) h = (Ok (RRef l), h') ∧ same_but [KLane] h h' ∧ added h_lane h h' l o ∧
      ln_type o = lt_driving ∧ ln_a o = width ∧ ln_b o = fofZ 0 ∧ ln_c o = fofZ 0 ∧ ln_d o = fofZ 0 ∧ ln_soffset o = fofZ 0 ∧
      ln_id o = None ∧ ln_roadmark o = Some m ∧ ln_links o = [].
  Proof.
    intros []%reachable_no_dangling. eexists _, _, (mkLane _ _ _ _ _ _ _ _ _). split; [reflexivity|]. split; [others|].
    split; [eapply added_insert; [done| |]; [apply le_n|simpl; rewrite lookup_total_insert insert_insert; reflexivity]|done].
  Qed.
  (** the centre lane of a new section becomes lane 0 *)
  Theorem C62_section h s c (o : lane F) : reachable h → h_lane h !! c = Some o →
    ∃ x h' o' v, step (OpLaneSection s c) h = (Ok (RRef x), h') ∧ same_but [KSection; KLane] h h' ∧ added h_sec h h' x v ∧
      ls_s v = s ∧ ls_center v = c ∧ ls_left v = [] ∧ ls_right v = [] ∧
      replaced h_lane h h' c o' ∧ ln_id o' = Some 0%Z ∧ ln_type o' = ln_type o ∧ ln_a o' = ln_a o ∧ ln_b o' = ln_b o ∧ ln_c o' = ln_c o ∧ ln_d o' = ln_d o ∧
      ln_soffset o' = ln_soffset o ∧ ln_roadmark o' = ln_roadmark o ∧ ln_links o' = ln_links o.
  Proof.
    intros []%reachable_no_dangling Ho. assert (He : exists_in h_lane h c) by by eexists. eexists _, _, (o <| ln_id := Some 0%Z |>), _. split.
    { unfold step. rewrite guarded_true ?has_true //. }
    split; [others|]. split; [eapply added_insert; [done|simpl; lia|reflexivity]|]. split_and!; try done.
    eapply replaced_insert; [done|]. simpl. rewrite (lookup_total_correct _ _ _ Ho). reflexivity.
  Qed.
  Theorem C62_lanes h : reachable h → ∃ x h', step OpLanes h = (Ok (RRef x), h') ∧ same_but [KLanes] h h' ∧ added h_lanes h h' x [].
  Proof. intros []%reachable_no_dangling. creates. Qed.
  Theorem C62_linker h : reachable h → ∃ x h', step OpLaneLinker h = (Ok (RRef x), h') ∧ same_but [KLinker] h h' ∧ added h_linker h h' x [].
  Proof. intros []%reachable_no_dangling. creates. Qed.
  Theorem C62_connection h incoming connecting cp id : reachable h →
    ∃ x h' c, step (OpConnection incoming connecting cp id) h = (Ok (RRef x), h') ∧ same_but [KConnection] h h' ∧ added h_conn h h' x c ∧
      cn_incoming c = incoming ∧ cn_connecting c = connecting ∧ cn_contact c = cp ∧ cn_id c = id ∧ cn_links c = [].
  Proof. intros []%reachable_no_dangling. eexists _, _, _. split; [reflexivity|]. split; [others|]. split; [eapply added_insert; [done|simpl; lia|reflexivity]|done]. Qed.
  Theorem C62_junction h name id : reachable h →
    ∃ x h' j, step (OpJunction name id) h = (Ok (RRef x), h') ∧ same_but [KJunction] h h' ∧ added h_junc h h' x j ∧
      jn_name j = name ∧ jn_id j = id ∧ jn_conns j = [].
  Proof. intros []%reachable_no_dangling. eexists _, _, _. split; [reflexivity|]. split; [others|]. split; [eapply added_insert; [done|simpl; lia|reflexivity]|done]. Qed.
  Theorem C62_road h id pv ls ty name rule : reachable h → exists_in h_pv h pv → exists_in h_lanes h ls →
    ∃ x h' r, step (OpRoad id pv ls ty name rule) h = (Ok (RRef x), h') ∧ same_but [KRoad] h h' ∧ added h_road h h' x r ∧
      rd_id r = id ∧ rd_planview r = pv ∧ rd_lanes r = ls ∧ rd_type r = ty ∧ rd_name r = name ∧ rd_rule r = rule ∧
      rd_links r = [] ∧ rd_succ r = None ∧ rd_pred r = None ∧ rd_objects r = [] ∧ rd_signals r = [].
  Proof.
    intros []%reachable_no_dangling H1 H2. eexists _, _, _. split.
    { unfold step. rewrite guarded_true; [by rewrite !has_true|reflexivity]. }
    split; [others|]. split; [eapply added_insert; [done|simpl; lia|reflexivity]|done].
  Qed.
  Theorem C62_opendrive h name : reachable h →
    ∃ x h' d, step (OpOpenDrive name) h = (Ok (RRef x), h') ∧ same_but [KOpenDrive] h h' ∧ added h_odr h h' x d ∧
      od_name d = name ∧ od_roads d = [] ∧ od_junctions d = [].
  Proof. intros []%reachable_no_dangling. eexists _, _, _. split; [reflexivity|]. split; [others|]. split; [eapply added_insert; [done|simpl; lia|reflexivity]|done]. Qed.
  (** signals and objects are only registered in the table of used ids when they are added to a road *)
  Theorem C62_signal h s t country ty subtype id name dynamic value unit_ zOffset orientation hOffset pitch roll height width : reachable h →
    ∃ x h' o, step (OpSignal s t country ty subtype id name dynamic value unit_ zOffset orientation hOffset pitch roll height width) h = (Ok (RRef x), h') ∧
      same_but [KObject] h h' ∧ added h_obj h h' x o ∧ so_class o = CSignal ∧
      so_s o = s ∧ so_t o = t ∧ so_country o = country ∧ so_type o = ty ∧ so_subtype o = subtype ∧ so_id o = id ∧ so_name o = name ∧ so_dynamic o = dynamic ∧
      so_value o = value ∧ so_unit o = unit_ ∧ so_zoffset o = zOffset ∧ so_orientation o = orientation ∧ so_hoffset o = hOffset ∧ so_pitch o = pitch ∧
      so_roll o = roll ∧ so_height o = height ∧ so_width o = width.
  Proof. intros []%reachable_no_dangling. eexists _, _, _. split; [reflexivity|]. split; [others|]. split; [eapply added_insert; [done|simpl; lia|reflexivity]|done]. Qed.
  (** (the dimensions of an object are C48) *)
  Theorem C62_object h s t ty subtype id name dynamic zOffset orientation hdg pitch roll width length height radius validLength : reachable h →
    ∃ x h' o, step (OpObject s t ty subtype id name dynamic zOffset orientation hdg pitch roll width length height radius validLength) h = (Ok (RRef x), h') ∧
      same_but [KObject] h h' ∧ added h_obj h h' x o ∧ so_class o = CObject ∧
      so_s o = s ∧ so_t o = t ∧ so_type o = ty ∧ so_subtype o = subtype ∧ so_id o = id ∧ so_name o = name ∧ so_dynamic o = dynamic ∧
      so_zoffset o = zOffset ∧ so_orientation o = orientation ∧ so_hdg o = hdg ∧ so_pitch o = pitch ∧ so_roll o = roll ∧ so_height o = height ∧
      so_radius o = radius ∧ so_validLength o = validLength ∧ so_repeats o = [].
  Proof.
    intros []%reachable_no_dangling. eexists _, _, _. split; [reflexivity|]. split; [others|]. split; [eapply added_insert; [done|simpl; lia|reflexivity]|].
    unfold object_ctor. by destruct radius, width, length.
  Qed.

  (** ** C63: a method that adds one thing changes the one object, in the one place, and nothing else. *)
  Ltac changes1 He := eexists _, _; split; [unfold step; rewrite guarded_true; [by rewrite ?has_true|reflexivity]|]; split; [others|];
    split; [eapply replaced_insert; [exact He|simpl; rewrite ?insert_insert; reflexivity]|].
  Theorem C63_add_geometry h pv g (hd : option F) p : h_pv h !! pv = Some p → exists_in h_geom h g →
    ∃ h' p', step (OpAddGeometry pv g hd) h = (Ok RNone, h') ∧ same_but [KPlanView] h h' ∧ replaced h_pv h h' pv p' ∧
      pv_raw p' = pv_raw p ++ [g] ∧ pv_over p' = pv_over p ++ option_list hd ∧ pv_geoms p' = pv_geoms p ∧
      (pv_x p', pv_y p', pv_h p', pv_s p') = (pv_x p, pv_y p, pv_h p, pv_s p) ∧ pv_fixed p' = pv_fixed p ∧ pv_adjusted p' = pv_adjusted p ∧
      pv_start p' = pv_start p ∧ pv_end p' = pv_end p.
  Proof.
    intros Hp Hg. assert (He : exists_in h_pv h pv) by by eexists. changes1 He.
    rewrite lookup_total_insert (lookup_total_correct _ _ _ Hp). destruct hd; simpl; rewrite ?app_nil_r; done.
  Qed.
  Theorem C63_set_start_point h pv (x y hd : F) p : h_pv h !! pv = Some p →
    ∃ h' p', step (OpSetStartPoint pv x y hd) h = (Ok RNone, h') ∧ same_but [KPlanView] h h' ∧ replaced h_pv h h' pv p' ∧
      (pv_x p', pv_y p', pv_h p') = (x, y, hd) ∧ pv_s p' = pv_s p ∧
      pv_raw p' = pv_raw p ∧ pv_over p' = pv_over p ∧ pv_geoms p' = pv_geoms p ∧ pv_fixed p' = pv_fixed p ∧ pv_adjusted p' = pv_adjusted p ∧
      pv_start p' = pv_start p ∧ pv_end p' = pv_end p.
  Proof. intros Hp. assert (He : exists_in h_pv h pv) by by eexists. changes1 He. by rewrite (lookup_total_correct _ _ _ Hp). Qed.
  (** a lane takes a link of any kind but "neighbor" *)
  Theorem C63_lane_link h l kind id (o : lane F) : h_lane h !! l = Some o →
    if decide (kind = "neighbor") then step (OpLaneAddLink l kind id) h = (Err ValueError, h) else
    ∃ h' o', step (OpLaneAddLink l kind id) h = (Ok RNone, h') ∧ same_but [KLane] h h' ∧ replaced h_lane h h' l o' ∧
      ln_links o' = ln_links o ++ [mkLink (Some kind) (PStr id) None None None] ∧
      ln_id o' = ln_id o ∧ ln_type o' = ln_type o ∧ (ln_a o', ln_b o', ln_c o', ln_d o') = (ln_a o, ln_b o, ln_c o, ln_d o) ∧
      ln_soffset o' = ln_soffset o ∧ ln_roadmark o' = ln_roadmark o.
  Proof.
    intros Ho. assert (He : exists_in h_lane h l) by by eexists. destruct (decide _) as [->|Hn].
    - unfold step. rewrite guarded_true; [by rewrite has_true|]. reflexivity.
    - assert (El : mk_link (Some kind) (PStr id) None None None = Ok (mkLink (Some kind) (PStr id) None None None)).
      { unfold mk_link. rewrite (bool_decide_eq_false_2 (Some kind = _)) //. by intros [= ->]. }
      eexists _, _; split; [unfold step; rewrite guarded_true; [by rewrite ?has_true|unfold as_unit, lane_add_link; rewrite El; reflexivity]|]; split; [others|];
      split; [eapply replaced_insert; [exact He|simpl; reflexivity]|]. by rewrite (lookup_total_correct _ _ _ Ho).
  Qed.
  (** a lane has one road mark: the last one added *)
  Theorem C63_roadmark h l m (o : lane F) : h_lane h !! l = Some o →
    ∃ h' o', step (OpLaneAddRoadmark l m) h = (Ok RNone, h') ∧ same_but [KLane] h h' ∧ replaced h_lane h h' l o' ∧ ln_roadmark o' = Some m ∧
      ln_links o' = ln_links o ∧ ln_id o' = ln_id o ∧ ln_type o' = ln_type o ∧ (ln_a o', ln_b o', ln_c o', ln_d o') = (ln_a o, ln_b o, ln_c o, ln_d o) ∧
      ln_soffset o' = ln_soffset o.
  Proof. intros Hp. assert (He : exists_in h_lane h l) by by eexists. changes1 He. by rewrite (lookup_total_correct _ _ _ Hp). Qed.
  (** a linker records the pair of lanes, to be linked when the linker is used *)
  Theorem C63_linker h k a b conn ls : h_linker h !! k = Some ls → exists_in h_lane h a → exists_in h_lane h b →
    ∃ h' ls', step (OpLinkerAddLink k a b conn) h = (Ok RNone, h') ∧ same_but [KLinker] h h' ∧ replaced h_linker h h' k ls' ∧
      ls' = ls ++ [mkLanelink a b conn false].
  Proof. intros Hp Ha Hb. assert (He : exists_in h_linker h k) by by eexists. changes1 He. by rewrite (lookup_total_correct _ _ _ Hp). Qed.
  Theorem C63_lanelink h c i o x : h_conn h !! c = Some x →
    ∃ h' x', step (OpAddLanelink c i o) h = (Ok RNone, h') ∧ same_but [KConnection] h h' ∧ replaced h_conn h h' c x' ∧
      cn_links x' = cn_links x ++ [(i, o)] ∧ cn_id x' = cn_id x ∧ cn_incoming x' = cn_incoming x ∧ cn_connecting x' = cn_connecting x ∧ cn_contact x' = cn_contact x.
  Proof. intros Hp. assert (He : exists_in h_conn h c) by by eexists. changes1 He. by rewrite (lookup_total_correct _ _ _ Hp). Qed.
  (** a road of an id that the OpenDrive does not have is put last; one of an id it has takes the place of the earlier one *)
  Lemma dict_set_spec {V} (d : dict V) k v : NoDup (map fst d) → dict_set d k v =
    if decide (k ∈ map fst d) then map (λ kr : string * V, if decide (kr.1 = k) then (kr.1, v) else kr) d else d ++ [(k, v)].
  Proof.
    induction d as [|[k' v'] d IH]; simpl; intros Hn.
    - done.
    - apply NoDup_cons in Hn as [Hk Hn]. destruct (String.eqb_spec k k') as [->|Hne].
      + rewrite decide_True; [by left|]. rewrite decide_True //. f_equal. rewrite -{1}(map_id d). apply map_ext_in. intros [k2 v2] Hin. simpl.
        rewrite decide_False //. intros ->. apply Hk. apply elem_of_list_In in Hin. by apply (elem_of_list_fmap_1 fst) in Hin.
      + rewrite IH //. destruct (decide (k ∈ map fst d)) as [Hin|Hni].
        * rewrite decide_True; [by right|]. by rewrite (decide_False (P := k' = k)).
        * rewrite decide_False //. intros [?|?]%elem_of_cons; done.
  Qed.
  Theorem C63_add_road h d r x o : reachable h → h_odr h !! d = Some x → h_road h !! r = Some o →
    ∃ h' x', step (OpAddRoad d r) h = (Ok RNone, h') ∧ same_but [KOpenDrive] h h' ∧ replaced h_odr h h' d x' ∧
      od_name x' = od_name x ∧ od_junctions x' = od_junctions x ∧
      od_roads x' = if decide (pystr (rd_id o) ∈ map fst (od_roads x))
                    then map (λ kr : string * ref, if decide (kr.1 = pystr (rd_id o)) then (kr.1, r) else kr) (od_roads x)
                    else od_roads x ++ [(pystr (rd_id o), r)].
  Proof.
    intros Hr Hp Ho. assert (He : exists_in h_odr h d) by by eexists. assert (exists_in h_road h r) by by eexists.
    assert (Hn : NoDup (map fst (od_roads x))).
    { by destruct (reachable_odr h Hr d x Hp) as [Hn _]. }
    changes1 He. rewrite (lookup_total_correct _ _ _ Hp) (lookup_total_correct _ _ _ Ho). simpl. split_and!; [done|done|]. by apply dict_set_spec.
  Qed.
  Theorem C63_add_junction h d j x : h_odr h !! d = Some x → exists_in h_junc h j →
    ∃ h' x', step (OpAddJunction d j) h = (Ok RNone, h') ∧ same_but [KOpenDrive] h h' ∧ replaced h_odr h h' d x' ∧
      od_name x' = od_name x ∧ od_roads x' = od_roads x ∧ od_junctions x' = od_junctions x ++ [j].
  Proof. intros Hp Hj. assert (He : exists_in h_odr h d) by by eexists. changes1 He. by rewrite (lookup_total_correct _ _ _ Hp). Qed.
End Create.

(** ** A concrete state that meets the hypotheses: everything can be created from nothing, and added to *)
Section Example.
  Local Existing Instance QNum.
  Local Open Scope Z_scope.
  Definition some_objects : list (op Z) := [OpLine 10; OpPlanView None None None; OpLanes; OpRoad (PInt 1) 1%nat 2%nat (-1) (Some "a") None; OpOpenDrive "net";
    OpLane lt_driving 3 0 0 0 0; OpLaneLinker; OpConnection (PInt 1) (PInt 2) cp_end None; OpJunction "j" (PInt 5); OpAddRoad 4%nat 3%nat;
    OpRoad (PStr "1") 1%nat 2%nat (-1) None None].
  Example C63_example : let h := run heap_init some_objects in
    reachable h ∧ exists_in h_geom h 0%nat ∧ exists_in h_pv h 1%nat ∧ exists_in h_lane h 5%nat ∧ exists_in h_linker h 6%nat ∧ exists_in h_conn h 7%nat ∧ exists_in h_junc h 8%nat ∧
    od_roads (h_odr h !!! 4%nat) = [("1", 3%nat)] ∧ od_roads (h_odr (run h [OpAddRoad 4%nat 9%nat]) !!! 4%nat) = [("1", 9%nat)].
  Proof. split; [by exists some_objects|]. split_and!; try (eexists; vm_compute; reflexivity); vm_compute; reflexivity. Qed.
End Example.
Print Assumptions C62_spiral.
Print Assumptions C63_add_road.
