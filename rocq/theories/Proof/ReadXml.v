(** The reader of SpecXml finds the content of what the writer of Model/Xml writes. *)
From Coq Require Import ssreflect.
From Verif.Model Require Import Api Xml.
From Verif.Spec Require Import SpecState SpecHistory SpecLanes SpecXml.
From Verif.Proof Require Import Monad DictFacts Reach Invariants.
Local Open Scope general_if_scope.
Local Open Scope nat_scope.

(* the model writes the words of the format *)
Lemma w_rule x : enum2str (MarkRule_name x) = rule_word x. Proof. by destruct x. Qed.
Lemma w_lane x : enum2str (LaneType_name x) = lane_word x. Proof. by destruct x. Qed.
Lemma w_color x : enum2str (RoadMarkColor_name x) = color_word x. Proof. by destruct x. Qed.
Lemma w_weight x : enum2str (RoadMarkWeight_name x) = weight_word x. Proof. by destruct x. Qed.
Lemma w_mark x : enum2str (RoadMarkType_name x) = mark_word x. Proof. by destruct x. Qed.
Lemma w_change x : enum2str (LaneChange_name x) = change_word x. Proof. by destruct x. Qed.
Lemma w_element x : enum2str (ElementType_name x) = element_word x. Proof. by destruct x. Qed.
Lemma w_contact x : enum2str (ContactPoint_name x) = contact_word x. Proof. by destruct x. Qed.
Lemma w_direction x : enum2str (Direction_name x) = direction_word x. Proof. by destruct x. Qed.
Lemma w_object x : enum2str (ObjectType_name x) = object_word x. Proof. by destruct x. Qed.
Lemma w_object_name x : ObjectType_name x = object_word x. Proof. by destruct x. Qed.
Lemma w_dynamic x : enum2str (Dynamic_name x) = dynamic_word x. Proof. by destruct x. Qed.
Lemma w_rule_opt (o : option MarkRule) : enum2str ∘ MarkRule_name <$> o = rule_word <$> o. Proof. by destruct o as [[]|]. Qed.
Lemma w_change_opt (o : option LaneChange) : enum2str ∘ LaneChange_name <$> o = change_word <$> o. Proof. by destruct o as [[]|]. Qed.
Lemma w_type (ty : ObjectType + string) : match ty with inl t => enum2str (ObjectType_name t) | inr s => s end = match ty with inl t => object_word t | inr s => s end.
Proof. by destruct ty as [[]|]. Qed.
Lemma w_signal_type (ty : ObjectType + string) : match ty with inl t => "ObjectType." +:+ ObjectType_name t | inr s => s end = match ty with inl t => "ObjectType." +:+ object_word t | inr s => s end.
Proof. by destruct ty as [[]|]. Qed.
Ltac words := rewrite ?w_type ?w_signal_type ?w_rule_opt ?w_change_opt ?w_rule ?w_lane ?w_color ?w_weight ?w_mark ?w_change ?w_element ?w_contact ?w_direction ?w_object ?w_object_name ?w_dynamic.

Lemma link_attrs_read k : read_attrs link_keys (link_element k) = Some (link_content k).2.
Proof.
  unfold link_element, link_attributes, link_content. destruct (lk_etype k), (lk_contact k), (lk_dir k); words; simpl; try reflexivity;
    case_bool_decide; reflexivity.
Qed.
Lemma link_read k : read_link (link_element k) = Some (link_content k).
Proof. unfold read_link. rewrite link_attrs_read. done. Qed.
Lemma mapM_read {A B C} (f : A → B) (g : B → option C) (c : A → C) l : (∀ x, x ∈ l → g (f x) = Some (c x)) → mapM g (map f l) = Some (map c l).
Proof.
  induction l as [|x l IH]; intros H; simpl; [done|]. rewrite H; [apply elem_of_list_here|]. simpl. rewrite IH; [|done].
  intros y Hy. apply H. by apply elem_of_list_further.
Qed.
Lemma links_read ls : read_links (links_element ls) = Some (map link_content ls).
Proof. unfold read_links, links_element. simpl. apply mapM_read. intros k _. apply link_read. Qed.

Lemma filter_none {A} (P : A → Prop) `{∀ x, Decision (P x)} (l : list A) : (∀ x, x ∈ l → ¬ P x) → filter P l = [].
Proof.
  induction l as [|x l IH]; intros Hl; [done|]. rewrite filter_cons decide_False; [apply Hl, elem_of_list_here|]. apply IH.
  intros y Hy. apply Hl. by apply elem_of_list_further.
Qed.
Lemma filter_all {A} (P : A → Prop) `{∀ x, Decision (P x)} (l : list A) : (∀ x, x ∈ l → P x) → filter P l = l.
Proof.
  induction l as [|x l IH]; intros Hl; [done|]. rewrite filter_cons decide_True; [apply Hl, elem_of_list_here|]. f_equal. apply IH.
  intros y Hy. apply Hl. by apply elem_of_list_further.
Qed.
Lemma each_read {A C} t (f : A → xml) (g : xml → option C) (c : A → C) tag at_ l :
  (∀ x, x ∈ l → xtag (f x) = Some t ∧ g (f x) = Some (c x)) → each t g (Elem tag at_ (map f l)) = Some (map c l).
Proof.
  intros H. unfold each. simpl. apply mapM_read. intros x Hx. destruct (H x Hx) as [Ht Hg]. unfold tagged. rewrite bool_decide_true //.
Qed.

Lemma sublist_in {A} (l k : list A) x : sublist l k → x ∈ l → x ∈ k.
Proof. induction 1 as [|y l k _ IH|y l k _ IH]; [done| |]; rewrite ?elem_of_cons; [intros [->|?]; auto|auto]. Qed.
Lemma sublist_nodup {A} (l k : list A) : sublist l k → NoDup k → NoDup l.
Proof.
  induction 1 as [|y l k Hs IH|y l k _ IH]; [done| |]; rewrite NoDup_cons; intros [H1 H2]; [|auto]. apply NoDup_cons. split; [|auto].
  intros Hy. apply H1. by eapply sublist_in.
Qed.
Lemma Forall2_in {A B} (P Q : A → B → Prop) l k : Forall2 P l k → (∀ x y, x ∈ l → P x y → Q x y) → Forall2 Q l k.
Proof.
  induction 1 as [|x y l k Hx _ IH]; intros H; constructor; [apply H; [apply elem_of_list_here|done]|]. apply IH. intros ????. apply H; [by apply elem_of_list_further|done].
Qed.
Section Read.
  Context {F : Type} `{!Num F}.
  Implicit Types (h : heap F).

  Lemma line_read (l : roadline F) : read_line (roadline_element l) = Some (line_content l).
  Proof. unfold read_line, roadline_element, line_content. destruct (rl_rule l); words; reflexivity. Qed.
  Lemma mark_read (m : roadmark F) : read_mark (roadmark_element m) = Some (mark_content m).
  Proof.
    unfold read_mark, mark_content.
    assert (E : read_attrs mark_keys (roadmark_element m) = Some (mc_attrs (mark_content m))).
    { unfold roadmark_element, mark_content. words. destruct (rm_width m), (rm_laneChange m); words; reflexivity. }
    rewrite E. simpl. unfold maybe, sub, roadmark_element. simpl. destruct (rm_line m) as [l|]; [|done]. simpl.
    unfold read_mark_type, the, sub. simpl. rewrite (line_read l). words. done.
  Qed.
  Lemma lane_read (o : lane F) e : lane_element o = Ok e → xtag e = Some "lane" ∧ read_lane e = Some (lane_content o).
  Proof.
    unfold lane_element. destruct (ln_id o) as [i|] eqn:Ei; [|done]. intros [= <-]. split; [done|].
    unfold read_lane, lane_content. rewrite Ei. destruct (ln_roadmark o) as [m|]; simpl.
    - unfold the, sub. simpl. rewrite links_read. simpl. unfold maybe, sub. simpl. rewrite mark_read. words. done.
    - unfold the, sub. simpl. rewrite links_read. simpl. unfold maybe, sub. simpl. words. done.
  Qed.
  Lemma shape_read (g : geom F) : read_shape (geom_element g) = Some (shape_content g).
  Proof. destruct g; reflexivity. Qed.
  Lemma geometry_read h p : read_geometry (pgeom_element h p) = Some (geometry_content h p).
  Proof. unfold read_geometry, pgeom_element, geometry_content. simpl. rewrite shape_read. done. Qed.
  Lemma upper_capitals s : str_upper s = in_capitals s.
  Proof.
    unfold in_capitals. induction s as [|c s IH]; [done|]. cbn [str_upper list_ascii_of_string map string_of_list_ascii]. f_equal; [|exact IH].
    clear. destruct c as [[] [] [] [] [] [] [] []]; vm_compute; reflexivity.
  Qed.
  Lemma signal_read (o : sobj F) : so_class o = CSignal → read_signal (sobj_element o) = Some (signal_content o).
  Proof.
    intros Hc. unfold read_signal, sobj_element, signal_content, common_content, signal_attributes, common_attributes, ftruthy. rewrite Hc -upper_capitals. words.
    destruct (fiszero (so_pitch o)), (fiszero (so_roll o)), (so_width o), (so_height o), (so_name o); simpl;
      destruct (fiszero (so_hoffset o)), (so_value o); reflexivity.
  Qed.

  Lemma repeat_read (d : dict string) vs rest : length vs = 9 → sublist (map fst rest) optional_keys → d = zip repeat_keys vs ++ rest →
    read_repeat (elem "repeat" d []) = Some (map (dict_get d) all_repeat_keys).
  Proof.
    intros Hl Hs Ed. assert (Ek : map fst d = repeat_keys ++ map fst rest).
    { rewrite Ed map_app. f_equal. apply (fst_zip repeat_keys vs). rewrite Hl. simpl. lia. }
    clear Ed. unfold read_repeat. simpl. unfold read_attrs. cbn [xattrs elem]. rewrite Ek bool_decide_true; [|done].
    split.
    - apply (sublist_nodup _ (repeat_keys ++ optional_keys)); [by apply sublist_app|].
      apply (bool_decide_unpack _). vm_compute. exact I.
    - apply Forall_app. split; [repeat (constructor; [apply (bool_decide_unpack _); vm_compute; exact I|]); constructor|].
      apply Forall_forall. intros k Hk. change all_repeat_keys with (repeat_keys ++ optional_keys). apply elem_of_app. right.
      by eapply sublist_in.
  Qed.
  Lemma object_read (o : sobj F) : so_class o = CObject → obj_wf o → read_object (sobj_element o) = Some (object_content o).
  Proof.
    intros Hc [Hd Hr]. specialize (Hd Hc). unfold read_object.
    assert (Ea : read_attrs object_keys (sobj_element o) = Some (oc_attrs (object_content o))).
    { unfold sobj_element, object_content, common_content, object_attributes, common_attributes, ftruthy. rewrite Hc. words.
      destruct (so_radius o).
      - destruct Hd as [-> _]. destruct (fiszero (so_pitch o)), (fiszero (so_roll o)), (so_height o), (so_name o), (so_validLength o); reflexivity.
      - destruct (so_width o) eqn:Ew, (so_length o) eqn:El.
        + destruct (fiszero (so_pitch o)), (fiszero (so_roll o)), (so_height o), (so_name o), (so_validLength o); reflexivity.
        + exfalso. destruct Hd as [Hd _]. destruct (Hd (ltac:(by eexists))). done.
        + exfalso. destruct Hd as [_ Hd]. destruct (Hd (ltac:(by eexists))). done.
        + destruct (fiszero (so_pitch o)), (fiszero (so_roll o)), (so_height o), (so_name o), (so_validLength o); reflexivity. }
    rewrite Ea. unfold object_content. cbn [oc_attrs mbind option_bind]. unfold sobj_element. rewrite Hc. unfold elem.
    rewrite (each_read _ _ _ (λ d, map (dict_get d) all_repeat_keys)); [|done].
    intros d Hin. split; [done|]. destruct (Hr d Hin) as (vs & rest & H1 & H2 & H3). by eapply repeat_read.
  Qed.

  (** *** sections, roads *)
  Lemma map_res_ok {A B} (f : A → res B) l es : map_res f l = Ok es → Forall2 (λ x e, f x = Ok e) l es.
  Proof.
    revert es. induction l as [|x l IH]; intros es; simpl; [intros [= <-]; constructor|].
    destruct (f x) as [e|?] eqn:Ex; [|done]. simpl. destruct (map_res f l) as [es'|?]; [|done]. simpl. intros [= <-]. constructor; [done|by apply IH].
  Qed.
  Lemma mapM_read2 {A B C} (g : B → option C) (c : A → C) (R : A → B → Prop) l es :
    Forall2 R l es → (∀ x e, R x e → g e = Some (c x)) → mapM g es = Some (map c l).
  Proof. intros H HR. induction H as [|x e l es Hx _ IH]; simpl; [done|]. rewrite (HR _ _ Hx) /= IH. done. Qed.
  Lemma each_read2 {A C} t (g : xml → option C) (c : A → C) (f : A → res xml) l es tag at_ : map_res f l = Ok es →
    (∀ x e, f x = Ok e → xtag e = Some t ∧ g e = Some (c x)) → each t g (Elem tag at_ es) = Some (map c l).
  Proof.
    intros H%map_res_ok HR. unfold each. simpl. eapply mapM_read2; [exact H|]. intros x e Hx. destruct (HR x e Hx) as [Ht Hg].
    unfold tagged. rewrite bool_decide_true //.
  Qed.
  Definition side_element h (tag : string) (ls : list ref) : res (list xml) :=
    match ls with [] => Ok [] | _ => rbind (map_res (λ l, lane_element (h_lane h !!! l)) ls) (λ es, Ok [elem tag [] es]) end.
  Lemma section_read h sec e : section_element h sec = Ok e → xtag e = Some "laneSection" ∧ read_section e = Some (section_content h sec).
  Proof.
    unfold section_element. set (o := h_sec h !!! sec). change (match ls_left o with [] => _ | _ => _ end) with (side_element h "left" (ls_left o)).
    change (match ls_right o with [] => _ | _ => _ end) with (side_element h "right" (ls_right o)).
    assert (HS : ∀ tag ls es, side_element h tag ls = Ok es → ls = [] ∧ es = [] ∨ 
      ∃ x, es = [elem tag [] x] ∧ each "lane" read_lane (elem tag [] x) = Some (map (λ l, lane_content (h_lane h !!! l)) ls)).
    { intros tag ls es. unfold side_element. destruct ls as [|l ls]; [intros [= <-]; by left|].
      destruct (map_res _ _) as [x|] eqn:Ex; [|done]. simpl. intros [= <-]. right. exists x. split; [done|].
      apply (each_read2 "lane" read_lane (λ l, lane_content (h_lane h !!! l)) _ (l :: ls) x (Some tag) [] Ex). intros y ey. apply lane_read. }
    destruct (side_element h "left" (ls_left o)) as [l|] eqn:El; [|done].
    destruct (lane_element (h_lane h !!! ls_center o)) as [c|] eqn:Ec; [|done].
    destruct (side_element h "right" (ls_right o)) as [r|] eqn:Er; [|done]. cbn [rbind]. intros [= <-]. split; [done|].
    unfold read_section, section_content. fold o. destruct (lane_read _ _ Ec) as [Tc Rc].
    assert (Ecc : each "lane" read_lane (elem "center" [] [c]) = Some [lane_content (h_lane h !!! ls_center o)]).
    { unfold each. simpl. unfold tagged. rewrite bool_decide_true //. simpl. by rewrite Rc. }
    apply HS in El as [[-> ->]|(x & -> & Ex)], Er as [[-> ->]|(y & -> & Ey)]; simpl; unfold read_side, maybe, the, sub; simpl;
      rewrite ?Ex; simpl; rewrite ?Ecc; simpl; rewrite ?Ey; simpl; reflexivity.
  Qed.
  Lemma road_read h r e : (∀ x, obj_wf (h_obj h !!! x)) → well_classed h r → road_element h r = Ok e →
    xtag e = Some "road" ∧ read_road e = Some (road_content h r).
  Proof.
    intros Hw [Hs Ho]. unfold road_element. set (o := h_road h !!! r) in *. destruct (lanes_element h (rd_lanes o)) as [ls|] eqn:El; [|done].
    cbn [rbind]. intros [= <-]. split; [done|]. unfold lanes_element in El. destruct (map_res _ _) as [ss|] eqn:Es; [|done]. simpl in El. injection El as <-.
    pose proof (each_read2 "laneSection" read_section (section_content h) _ _ _ (Some "lanes") [] Es (section_read h)) as Rs.
    assert (Rg : each "geometry" read_geometry (planview_element h (rd_planview o)) = Some (map (geometry_content h) (pv_geoms (h_pv h !!! rd_planview o)))).
    { apply each_read. intros p _. split; [done|apply geometry_read]. }
    assert (Rsg : ∀ l, (∀ x, x ∈ l → so_class (h_obj h !!! x) = CSignal) → 
      each "signal" read_signal (elem "signals" [] (map (λ s, sobj_element (h_obj h !!! s)) l)) = Some (map (λ x, signal_content (h_obj h !!! x)) l)).
    { intros l Hl. apply (each_read _ _ _ (λ x, signal_content (h_obj h !!! x))). intros x Hx. split; [unfold sobj_element; by rewrite (Hl x Hx)|]. apply signal_read. auto. }
    assert (Rob : ∀ l, (∀ x, x ∈ l → so_class (h_obj h !!! x) = CObject) → 
      each "object" read_object (elem "objects" [] (map (λ s, sobj_element (h_obj h !!! s)) l)) = Some (map (λ x, object_content (h_obj h !!! x)) l)).
    { intros l Hl. apply (each_read _ _ _ (λ x, object_content (h_obj h !!! x))). intros x Hx. split; [unfold sobj_element; by rewrite (Hl x Hx)|]. apply object_read; auto. }
    specialize (Rsg _ Hs). specialize (Rob _ Ho). unfold read_road, road_content. fold o.
    match goal with |- context [read_attrs road_keys ?e] => assert (Ra : read_attrs road_keys e = Some (rc_attrs (road_content h r))) end.
    { unfold road_attributes, road_content. fold o. simpl. destruct (rd_name o) as [[]|], (rd_rule o) as [[]|]; reflexivity. }
    rewrite Ra. unfold road_content. fold o. cbn [rc_attrs mbind option_bind]. unfold sections, pv_total_length in *.
    destruct (rd_signals o) as [|s1 sl] eqn:E1, (rd_objects o) as [|o1 ol] eqn:E2; cbn [app map] in *; unfold the, maybe, sub; simpl;
      rewrite links_read; cbn [mbind option_bind]; rewrite Rg; cbn [mbind option_bind]; unfold elem in *; rewrite Rs; cbn [mbind option_bind];
      rewrite ?Rsg; cbn [mbind option_bind fmap option_fmap option_map]; rewrite ?Rob; done.
  Qed.
  Lemma connection_read (c : connection) : xtag (connection_element c) = Some "connection" ∧ read_connection (connection_element c) = Some (connection_content c).
  Proof.
    split; [done|]. unfold read_connection, connection_element, connection_content. simpl. unfold elem.
    rewrite (each_read _ _ _ (λ l : Z * Z, [Some (pretty l.1); Some (pretty l.2)])); [|words; done]. intros l _. split; reflexivity.
  Qed.
  Lemma junction_read h j : xtag (junction_element h j) = Some "junction" ∧ read_junction (junction_element h j) = Some (junction_content h j).
  Proof.
    split; [done|]. unfold read_junction, junction_element, junction_content. simpl. unfold elem.
    rewrite (each_read _ _ _ (λ c, connection_content (h_conn h !!! c))); [|done]. intros c _. apply connection_read.
  Qed.
  Lemma network_read date h d e : (∀ x, obj_wf (h_obj h !!! x)) → (∀ k r, (k, r) ∈ od_roads (h_odr h !!! d) → well_classed h r) →
    odr_element date h d = Ok e → read_network e = Some (network_content date h d).
  Proof.
    intros Hw Hc. unfold odr_element. set (o := h_odr h !!! d) in *. destruct (map_res _ _) as [rs|] eqn:Er; [|done]. cbn [rbind]. intros [= <-].
    assert (HF : Forall2 (λ (kr : string * ref) e, xtag e = Some "road" ∧ read_road e = Some (road_content h kr.2)) (od_roads o) rs).
    { apply map_res_ok in Er. eapply Forall2_in; [exact Er|]. intros [k r] e0 Hin Hk. simpl in *. apply road_read; eauto. }
    set (js := map (junction_element h) (od_junctions o)).
    assert (Tr : ∀ x, x ∈ rs → xtag x = Some "road").
    { intros x Hx. apply elem_of_list_lookup in Hx as [i Hi]. destruct (Forall2_lookup_r _ _ _ _ _ HF Hi) as (kr & _ & [Hk _]). done. }
    assert (Tj : ∀ x, x ∈ js → xtag x = Some "junction"). { intros x Hx. unfold js in Hx. apply elem_of_list_fmap in Hx as (j & -> & _). done. }
    set (hd := header_element (od_name o) date). set (E := elem "OpenDRIVE" [] ([hd] ++ rs ++ js)).
    assert (S1 : the "header" E = Some hd).
    { unfold the, sub. cbn [E elem xchildren app]. rewrite filter_cons_True; [done|]. rewrite filter_app !filter_none; [intros x Hx; by rewrite (Tr x Hx)|intros x Hx; by rewrite (Tj x Hx)|done]. }
    assert (S2 : sub "road" E = rs).
    { unfold sub. cbn [E elem xchildren app]. rewrite filter_cons_False; [done|]. rewrite filter_app filter_all // filter_none ?app_nil_r //. intros x Hx; by rewrite (Tj x Hx). }
    assert (S3 : sub "junction" E = js).
    { unfold sub. cbn [E elem xchildren app]. rewrite filter_cons_False; [done|]. rewrite filter_app filter_none; [intros x Hx; by rewrite (Tr x Hx)|]. by rewrite filter_all. }
    assert (R2 : mapM read_road rs = Some (map (λ kr : string * ref, road_content h kr.2) (od_roads o))).
    { eapply mapM_read2; [exact HF|]. intros kr x [_ Hx]. exact Hx. }
    assert (R3 : mapM read_junction js = Some (map (junction_content h) (od_junctions o))).
    { apply mapM_read. intros j _. apply junction_read. }
    unfold read_network, tagged. rewrite bool_decide_true; [done|]. cbn [mbind option_bind]. rewrite S1 S2 S3. cbn [mbind option_bind].
    replace (read_attrs header_keys hd) with (Some [Some (od_name o); Some "1"; Some "5"; Some date; Some "0.0"; Some "0.0"; Some "0.0"; Some "0.0"]) by reflexivity.
    cbn [mbind option_bind]. rewrite R2. cbn [mbind option_bind]. rewrite R3. cbn [mbind option_bind]. rewrite bool_decide_true; [|done].
    rewrite !map_length. change (xchildren E) with ([hd] ++ (rs ++ js)). rewrite (map_app xtag [hd]) (map_app xtag rs). f_equal. f_equal.
    - clear -HF. induction HF as [|kr x l k [Hx _] _ IH]; [done|]. simpl. by rewrite Hx IH.
    - unfold js. rewrite map_map. clear. induction (od_junctions o) as [|j l IH]; [done|]. simpl. by rewrite IH.
  Qed.
  
  (** *** when is there an element at all *)
  Lemma map_res_all {A B} (f : A → res B) (ok : A → bool) (x : exn) : ∀ l, (∀ a, a ∈ l → if ok a then ∃ e, f a = Ok e else f a = Err x) →
    if forallb ok l then ∃ es, map_res f l = Ok es else map_res f l = Err x.
  Proof.
    induction l as [|a l IH]; intros H; simpl; [by eexists|]. pose proof (H a (elem_of_list_here _ _)) as Ha. destruct (ok a); simpl.
    - destruct Ha as [e ->]. simpl. specialize (IH (λ b Hb, H b (elem_of_list_further _ _ _ Hb))). destruct (forallb ok l); [destruct IH as [es ->]; by eexists|by rewrite IH].
    - by rewrite Ha.
  Qed.
  Lemma lane_made h l : if bool_decide (is_Some (ln_id (h_lane h !!! l))) then ∃ e, lane_element (h_lane h !!! l) = Ok e else lane_element (h_lane h !!! l) = Err ValueError.
  Proof. unfold lane_element. destruct (ln_id _); case_bool_decide as Hi; [by eexists| | |done]; [exfalso; by apply Hi; eexists|by destruct Hi]. Qed.
  Lemma side_made h tag ls : if lanes_have_ids h ls then ∃ es, side_element h tag ls = Ok es else side_element h tag ls = Err ValueError.
  Proof.
    pose proof (map_res_all (λ l, lane_element (h_lane h !!! l)) (λ l, bool_decide (is_Some (ln_id (h_lane h !!! l)))) ValueError ls (λ l _, lane_made h l)) as G.
    unfold lanes_have_ids. destruct (forallb _ ls); unfold side_element; (destruct ls; [try (by eexists); try done|]).
    - destruct G as [es ->]. by eexists.
    - by rewrite G.
  Qed.
  Lemma section_made h sec : if lanes_have_ids h (section_lanes h sec) then ∃ e, section_element h sec = Ok e else section_element h sec = Err ValueError.
  Proof.
    unfold section_element, section_lanes. set (o := h_sec h !!! sec). change (match ls_left o with [] => _ | _ => _ end) with (side_element h "left" (ls_left o)).
    change (match ls_right o with [] => _ | _ => _ end) with (side_element h "right" (ls_right o)).
    pose proof (side_made h "left" (ls_left o)) as GL. pose proof (side_made h "right" (ls_right o)) as GR. pose proof (lane_made h (ls_center o)) as GC.
    unfold lanes_have_ids in *. rewrite forallb_app. cbn [app forallb].
    destruct (forallb _ (ls_left o)); [destruct GL as [l ->]|by rewrite GL]. cbn [andb].
    destruct (bool_decide _); [destruct GC as [c ->]|by rewrite GC]. cbn [andb].
    destruct (forallb _ (ls_right o)); [destruct GR as [r ->]; by eexists|by rewrite GR].
  Qed.
  Lemma forallb_concat {A B} (f : B → bool) (g : A → list B) l : forallb f (concat (map g l)) = forallb (λ x, forallb f (g x)) l.
  Proof. induction l as [|x l IH]; simpl; [done|]. by rewrite forallb_app IH. Qed.
  Lemma road_made h r : if lanes_have_ids h (road_lanes h r) then ∃ e, road_element h r = Ok e else road_element h r = Err ValueError.
  Proof.
    unfold road_element, road_lanes, lanes_element, sections, lanes_have_ids. rewrite forallb_concat.
    pose proof (map_res_all (section_element h) (λ s, lanes_have_ids h (section_lanes h s)) ValueError (h_lanes h !!! rd_lanes (h_road h !!! r)) (λ s _, section_made h s)) as G.
    unfold lanes_have_ids in G. destruct (forallb _ (h_lanes h !!! _)); [destruct G as [es ->]; by eexists|by rewrite G].
  Qed.
  Lemma network_made date h d : if lanes_have_ids h (network_lanes h d) then ∃ e, odr_element date h d = Ok e else odr_element date h d = Err ValueError.
  Proof.
    unfold odr_element, network_lanes, lanes_have_ids. rewrite forallb_concat.
    pose proof (map_res_all (λ kv : string * ref, road_element h kv.2) (λ kv, lanes_have_ids h (road_lanes h kv.2)) ValueError (od_roads (h_odr h !!! d)) (λ kv _, road_made h kv.2)) as G.
    unfold lanes_have_ids in G. destruct (forallb _ (od_roads _)); [destruct G as [es ->]; by eexists|by rewrite G].
  Qed.
End Read.
