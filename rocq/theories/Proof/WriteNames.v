(** The trees that the library makes have proper names. *)
From Coq Require Import ssreflect.
From Verif.Model Require Import Api Write.
From Verif.Spec Require Import SpecState SpecHistory SpecLanes SpecXml SpecWrite.
From Verif.Proof Require Import Monad DictFacts Reach Invariants ReadXml WriteXml.
Local Open Scope general_if_scope.
Local Open Scope nat_scope.

Definition simple_nameb (s : string) : bool :=
  match chars s with [] => false | c :: r => is_letter c && forallb (λ c', is_letter c' || is_digit c') r end.
Lemma simple_nameb_spec s : simple_nameb s = true → simple_name s.
Proof.
  unfold simple_nameb, simple_name. destruct (chars s) as [|c r]; [done|]. intros [H1 H2]%andb_prop. split; [done|]. intros c' Hc'.
  rewrite forallb_forall in H2. apply elem_of_list_In, H2 in Hc'. by apply orb_prop in Hc'.
Qed.
Definition nice (t : option string) (a : dict string) : Prop :=
  (∃ n, t = Some n ∧ simple_name n) ∧ NoDup (map fst a) ∧ ∀ k v, (k, v) ∈ a → simple_name k.
Lemma nice_named e : every nice e → well_named e ∧ all_tagged e.
Proof.
  intros H. split; (eapply every_impl; [|exact H]); intros t a [(n & -> & Hn) Ha]; [|by eexists]. split; [|done]. by intros n' [= <-].
Qed.
Lemma read_attrs_nice ks t a cs vs n : read_attrs ks (Elem t a cs) = Some vs → forallb simple_nameb ks = true → t = Some n → simple_nameb n = true → nice t a.
Proof.
  unfold read_attrs. simpl. case_bool_decide as H; [|done]. intros _ Hks -> Hn. destruct H as [H1 H2]. split; [eexists; split; [done|by apply simple_nameb_spec]|].
  split; [done|]. intros k v Hkv. rewrite Forall_forall in H2. apply simple_nameb_spec. rewrite forallb_forall in Hks. apply Hks, elem_of_list_In, H2.
  apply elem_of_list_fmap. by exists (k, v).
Qed.
Lemma nice_plain n : simple_nameb n = true → nice (Some n) [].
Proof. intros H. split; [eexists; split; [done|by apply simple_nameb_spec]|]. split; [constructor|]. intros k v Hkv. by apply elem_of_nil in Hkv. Qed.
Lemma every_leaf (P : option string → dict string → Prop) t a : P t a → every P (Elem t a []).
Proof. intros H. split; done. Qed.
Lemma every_node (P : option string → dict string → Prop) t a cs : P t a → Forall (every P) cs → every P (Elem t a cs).
Proof. intros. apply every_children. done. Qed.
Lemma Forall_map' {A B} (P : B → Prop) (f : A → B) l : (∀ x, x ∈ l → P (f x)) → Forall P (map f l).
Proof. intros H. apply Forall_forall. intros y Hy. apply elem_of_list_fmap in Hy as (x & -> & Hx). auto. Qed.

Lemma link_nice k : lane_link k ∨ lk_type k = Some "neighbor" → every nice (link_element k).
Proof.
  intros H. apply every_leaf. pose proof (link_attrs_read k) as E. unfold link_element in E.
  destruct H as [[Ht|Ht]|Ht]; (eapply read_attrs_nice; [exact E|vm_compute; reflexivity|exact Ht|vm_compute; reflexivity]).
Qed.
Lemma links_nice ks : (∀ k, k ∈ ks → lane_link k ∨ lk_type k = Some "neighbor") → every nice (links_element ks).
Proof. intros H. apply every_node; [by apply nice_plain|]. apply Forall_map'. intros k Hk. apply link_nice; auto. Qed.

Ltac by_attrs E := eapply read_attrs_nice; [exact E|vm_compute; reflexivity|reflexivity|vm_compute; reflexivity].
Section Names.
  Context {F : Type} `{!Num F}.
  Implicit Types (h : heap F).
  Lemma line_nice (l : roadline F) : every nice (roadline_element l).
  Proof. apply every_leaf. pose proof (line_read l) as E. unfold read_line in E. simpl in E. by_attrs E. Qed.
  Lemma mark_nice (m : roadmark F) : every nice (roadmark_element m).
  Proof.
    apply every_node.
    - assert (E : read_attrs mark_keys (roadmark_element m) = Some (mc_attrs (mark_content m))).
      { unfold roadmark_element, mark_content. words. destruct (rm_width m), (rm_laneChange m); words; reflexivity. }
      unfold roadmark_element in E. by_attrs E.
    - destruct (rm_line m) as [l|]; [|constructor]. constructor; [|constructor]. apply every_node.
      + assert (E : read_attrs ["name"; "width"] (elem "type" [("name", enum2str (RoadMarkType_name (rm_type m))); ("width", fstr_opt (rm_width m))] []) =
          Some [Some (enum2str (RoadMarkType_name (rm_type m))); Some (fstr_opt (rm_width m))]) by reflexivity. by_attrs E.
      + constructor; [apply line_nice|constructor].
  Qed.
  Lemma concrete_nice n ks (vs : list string) : length vs = length ks → bool_decide (NoDup ks) = true → forallb simple_nameb ks = true → simple_nameb n = true → nice (Some n) (zip ks vs).
  Proof.
    intros Hl Hd Hk Hn. apply bool_decide_eq_true in Hd. assert (E : map fst (zip ks vs) = ks) by (apply fst_zip; lia).
    split; [eexists; split; [done|by apply simple_nameb_spec]|]. rewrite E. split; [done|]. intros k v Hkv. apply simple_nameb_spec. rewrite forallb_forall in Hk. apply Hk, elem_of_list_In.
    rewrite -E. apply elem_of_list_fmap. by exists (k, v).
  Qed.
  Lemma lane_nice (o : lane F) e : (∀ k, k ∈ ln_links o → lane_link k) → lane_element o = Ok e → every nice e.
  Proof.
    intros Hk. unfold lane_element. destruct (ln_id o) as [i|]; [|done]. intros [= <-]. apply every_node.
    - apply (concrete_nice "lane" ["id"; "type"; "level"] [_; _; _]); [reflexivity|vm_compute; reflexivity..].
    - constructor; [apply links_nice; intros k H; left; auto|]. constructor; [apply every_leaf|].
      + apply (concrete_nice "width" poly_keys [_; _; _; _; _]); [reflexivity|vm_compute; reflexivity..].
      + destruct (ln_roadmark o) as [m|]; constructor; [apply mark_nice|constructor].
  Qed.
  Lemma geom_nice (g : geom F) : every nice (geom_element g).
  Proof. pose proof (shape_read g) as E. unfold read_shape in E. destruct g; simpl in E; apply every_leaf; (eapply (read_attrs_nice shape_keys _ _ []); [reflexivity|vm_compute; reflexivity|reflexivity|vm_compute; reflexivity]). Qed.
  Lemma pgeom_nice h p : every nice (pgeom_element h p).
  Proof.
    apply every_node; [apply (concrete_nice "geometry" place_keys [_; _; _; _; _]); [reflexivity|vm_compute; reflexivity..]|].
    constructor; [apply geom_nice|constructor].
  Qed.
  Lemma sobj_nice (o : sobj F) : obj_wf o → every nice (sobj_element o).
  Proof.
    intros Hw. destruct (so_class o) eqn:Ec.
    - pose proof (signal_read o Ec) as E. unfold read_signal, sobj_element in *. rewrite Ec in E |- *. simpl leaf in E. cbn [mbind option_bind] in E. apply every_leaf. by_attrs E.
    - pose proof (object_read o Ec Hw) as E. unfold read_object in E. destruct (read_attrs object_keys (sobj_element o)) as [vs|] eqn:Ea; [|done]. clear E.
      unfold sobj_element in *. rewrite Ec in Ea |- *. apply every_node; [by_attrs Ea|]. apply Forall_map'. intros d Hd. apply every_leaf.
      destruct (ow_repeats _ Hw d Hd) as (vs' & rest & H1 & H2 & H3). pose proof (repeat_read d vs' rest H1 H2 H3) as E. unfold read_repeat in E. simpl in E. by_attrs E.
  Qed.
  Lemma map_res_every {A} (P : xml → Prop) (f : A → res xml) l es : map_res f l = Ok es → (∀ x e, x ∈ l → f x = Ok e → P e) → Forall P es.
  Proof.
    intros H%map_res_ok HP. apply Forall_forall. intros e He. apply elem_of_list_lookup in He as [i Hi]. destruct (Forall2_lookup_r _ _ _ _ _ H Hi) as (x & Hx & Hf).
    eapply HP; [|exact Hf]. by eapply elem_of_list_lookup_2.
  Qed.
  Lemma section_nice h sec e : (∀ l k, l ∈ section_lanes h sec → k ∈ ln_links (h_lane h !!! l) → lane_link k) → section_element h sec = Ok e → every nice e.
  Proof.
    unfold section_element, section_lanes. set (o := h_sec h !!! sec). intros Hk. change (match ls_left o with [] => _ | _ => _ end) with (side_element h "left" (ls_left o)).
    change (match ls_right o with [] => _ | _ => _ end) with (side_element h "right" (ls_right o)).
    assert (HS : ∀ tag ls es, (∀ l, l ∈ ls → l ∈ ls_left o ++ [ls_center o] ++ ls_right o) → simple_nameb tag = true → side_element h tag ls = Ok es → Forall (every nice) es).
    { intros tag ls es Hin Ht. unfold side_element. destruct ls as [|l ls]; [intros [= <-]; constructor|].
      destruct (map_res _ _) as [x|] eqn:Ex; [|done]. simpl. intros [= <-]. constructor; [|constructor]. apply every_node; [by apply nice_plain|].
      eapply map_res_every; [exact Ex|]. intros l' e' Hl'. apply lane_nice. intros k. apply Hk. by apply Hin. }
    destruct (side_element h "left" (ls_left o)) as [l|] eqn:El; [|done].
    destruct (lane_element (h_lane h !!! ls_center o)) as [c|] eqn:Ec; [|done].
    destruct (side_element h "right" (ls_right o)) as [r|] eqn:Er; [|done]. cbn [rbind]. intros [= <-]. apply every_node.
    - apply (concrete_nice "laneSection" ["s"] [_]); [reflexivity|vm_compute; reflexivity..].
    - apply Forall_app. split; [apply (HS "left" (ls_left o) l); [intros; rewrite !elem_of_app; auto|vm_compute; reflexivity|exact El]|]. constructor.
      + apply every_node; [by apply nice_plain|]. constructor; [|constructor]. eapply lane_nice; [|exact Ec]. intros k. apply Hk. rewrite !elem_of_app elem_of_list_singleton. auto.
      + apply (HS "right" (ls_right o) r); [intros; rewrite !elem_of_app; auto|vm_compute; reflexivity|exact Er].
  Qed.
  Lemma road_nice h r e : (∀ x, obj_wf (h_obj h !!! x)) → (∀ k, k ∈ rd_links (h_road h !!! r) → lane_link k ∨ lk_type k = Some "neighbor") →
    (∀ l k, l ∈ road_lanes h r → k ∈ ln_links (h_lane h !!! l) → lane_link k) → road_element h r = Ok e → every nice e.
  Proof.
    intros Hw Hr Hk. unfold road_element, road_lanes, sections in *. set (o := h_road h !!! r) in *. destruct (lanes_element h (rd_lanes o)) as [ls|] eqn:El; [|done]. cbn [rbind]. intros [= <-].
    apply every_node.
    - assert (E : read_attrs road_keys (elem "road" (road_attributes h o) []) = Some (rc_attrs (road_content h r))).
      { unfold road_attributes, road_content. fold o. simpl. destruct (rd_name o) as [[]|], (rd_rule o) as [[]|]; reflexivity. }
      by_attrs E.
    - assert (HO : ∀ tag os, simple_nameb tag = true → Forall (every nice) match os with [] => [] | _ => [elem tag [] (map (λ s, sobj_element (h_obj h !!! s)) os)] end).
      { intros tag os Ht. destruct os; constructor; [|constructor]. apply every_node; [by apply nice_plain|]. apply Forall_map'. intros x _. by apply sobj_nice. }
      apply Forall_cons. split; [by apply links_nice|]. apply Forall_cons. split; [|apply Forall_cons; split].
      + apply every_node; [by apply nice_plain|]. apply Forall_map'. intros p _. apply pgeom_nice.
      + unfold lanes_element in El. destruct (map_res _ _) as [ss|] eqn:Es; [|done]. simpl in El. injection El as <-. apply every_node; [by apply nice_plain|].
        eapply map_res_every; [exact Es|]. intros s es Hs. apply section_nice. intros l k Hl. apply Hk. apply elem_of_list_In, in_concat. exists (section_lanes h s). split; [|by apply elem_of_list_In].
        apply in_map_iff. exists s. split; [done|by apply elem_of_list_In].
      + apply Forall_app; split; [pose proof (HO "signals" (rd_signals o) eq_refl) as G; destruct (rd_signals o); exact G|pose proof (HO "objects" (rd_objects o) eq_refl) as G; destruct (rd_objects o); exact G].
  Qed.
  Lemma junction_nice h j : every nice (junction_element h j).
  Proof.
    apply every_node; [apply (concrete_nice "junction" ["name"; "id"] [_; _]); [reflexivity|vm_compute; reflexivity..]|]. apply Forall_map'. intros c _.
    apply every_node; [apply (concrete_nice "connection" ["incomingRoad"; "id"; "contactPoint"; "connectingRoad"] [_; _; _; _]); [reflexivity|vm_compute; reflexivity..]|].
    apply Forall_map'. intros l _. apply every_leaf. apply (concrete_nice "laneLink" ["from"; "to"] [_; _]); [reflexivity|vm_compute; reflexivity..].
  Qed.
  Lemma network_nice date h d e : (∀ x, obj_wf (h_obj h !!! x)) →
    (∀ kr k, kr ∈ od_roads (h_odr h !!! d) → k ∈ rd_links (h_road h !!! kr.2) → lane_link k ∨ lk_type k = Some "neighbor") →
    (∀ l k, l ∈ network_lanes h d → k ∈ ln_links (h_lane h !!! l) → lane_link k) → odr_element date h d = Ok e → every nice e.
  Proof.
    intros Hw Hr Hk. unfold odr_element, network_lanes in *. set (o := h_odr h !!! d) in *. destruct (map_res _ _) as [rs|] eqn:Er; [|done]. cbn [rbind]. intros [= <-].
    apply every_node; [by apply nice_plain|]. constructor.
    - apply every_leaf. apply (concrete_nice "header" header_keys [_; _; _; _; _; _; _; _]); [reflexivity|vm_compute; reflexivity..].
    - apply Forall_app. split; [|apply Forall_map'; intros; apply junction_nice].
      eapply map_res_every; [exact Er|]. intros kr x Hkr. apply road_nice; [done|intros k; by apply Hr|]. intros l k Hl. apply Hk. apply elem_of_list_In, in_concat. exists (road_lanes h kr.2). split; [|by apply elem_of_list_In].
      apply in_map_iff. exists kr. split; [done|by apply elem_of_list_In].
  Qed.
End Names.
