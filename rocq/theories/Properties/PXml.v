(** * C39, C40, C41: the element trees *)
From Coq Require Import ssreflect.
From Verif.Model Require Import Api Xml.
From Verif.Inst Require Import Quarter.
From Verif.Spec Require Import SpecState SpecHistory SpecLanes SpecXml.
From Verif.Proof Require Import Monad DictFacts NetFrame Reach Steps History Invariants ReadXml.
From Verif.Properties Require Import PHistory PLaneLinks.
Local Open Scope general_if_scope.
Local Open Scope nat_scope.

Lemma firsts_in l x : x ∈ firsts l ↔ x ∈ l.
Proof.
  induction l as [|y l IH]; [done|]. cbn [firsts]. rewrite !elem_of_cons elem_of_list_filter IH. destruct (decide (x = y)); tauto.
Qed.
Lemma firsts_snoc l x : firsts (l ++ [x]) = if bool_decide (x ∈ l) then firsts l else firsts l ++ [x].
Proof.
  induction l as [|y l IH]; [done|]. cbn [firsts app]. rewrite IH. destruct (decide (x = y)) as [->|Hne].
  - rewrite (bool_decide_true (y ∈ y :: l)); [apply elem_of_list_here|]. case_bool_decide; [done|]. rewrite filter_app filter_cons_False; [naive_solver|]. by rewrite app_nil_r.
  - destruct (decide (x ∈ l)) as [Hi|Hi].
    + rewrite !bool_decide_true //. by apply elem_of_list_further.
    + rewrite !bool_decide_false //; [rewrite elem_of_cons; naive_solver|]. rewrite filter_app filter_cons_True //.
Qed.

Section Writing.
  Context {F : Type} `{!Num F}.
  Implicit Types (h : heap F).

  (** ** C39 *)
  Theorem C39_read h r e : reachable h → well_classed h r → road_element h r = Ok e →
    xtag e = Some "road" ∧ read_road e = Some (road_content h r).
  Proof. intros Hr. apply road_read. by apply reachable_obj_wf. Qed.
  Theorem C39_order h r e : road_element h r = Ok e →
    map xtag (xchildren e) = [Some "link"; Some "planView"; Some "lanes"] ++
      (if bool_decide (rd_signals (h_road h !!! r) = []) then [] else [Some "signals"]) ++ (if bool_decide (rd_objects (h_road h !!! r) = []) then [] else [Some "objects"]).
  Proof.
    unfold road_element, lanes_element. destruct (map_res _ _) as [ss|]; [|done]. cbn [rbind]. intros [= <-].
    destruct (rd_signals _) as [|s sl]; destruct (rd_objects _) as [|o ol]; done.
  Qed.

  (** a dependency element has the two values, and both can be told apart *)
  Theorem C39_dependency (id type : pyid) : let e := dependency_element id type in
    xtag e = Some "dependency" ∧ xchildren e = [] ∧ read_attrs ["id"; "type"] e = Some [Some (pystr id); Some (pystr type)].
  Proof. done. Qed.

  (** ** C41 *)
  Theorem C41_lane h l : match ln_id (h_lane h !!! l) with
    | None => lane_element (h_lane h !!! l) = Err ValueError
    | Some _ => ∃ e, lane_element (h_lane h !!! l) = Ok e ∧ xtag e = Some "lane" ∧ read_lane e = Some (lane_content (h_lane h !!! l))
    end.
  Proof.
    pose proof (lane_made h l) as G. destruct (ln_id _) eqn:E; case_bool_decide as Hb.
    - destruct G as [e He]. exists e. split; [done|]. by apply lane_read.
    - exfalso. apply Hb. by eexists.
    - by destruct Hb.
    - done.
  Qed.
  Lemma have_ids h ls : lanes_have_ids h ls = true ↔ ∀ l, l ∈ ls → has_id h l.
  Proof.
    unfold lanes_have_ids. rewrite forallb_forall. split; intros H l Hl.
    - apply elem_of_list_In, H in Hl. by apply bool_decide_eq_true in Hl.
    - apply bool_decide_eq_true, H. by apply elem_of_list_In.
  Qed.
  Theorem C41_section h sec : ((∀ l, l ∈ section_lanes h sec → has_id h l) → ∃ e, section_element h sec = Ok e) ∧
    ((∃ l, l ∈ section_lanes h sec ∧ ¬ has_id h l) → section_element h sec = Err ValueError).
  Proof.
    pose proof (section_made h sec) as G. pose proof (have_ids h (section_lanes h sec)) as W. destruct (lanes_have_ids h _); split; [done| | |done].
    - intros (l & Hl & Hn). destruct Hn. by apply W.
    - intros H. apply W in H. done.
  Qed.
  Theorem C41_road h r : ((∀ l, l ∈ road_lanes h r → has_id h l) → ∃ e, road_element h r = Ok e) ∧
    ((∃ l, l ∈ road_lanes h r ∧ ¬ has_id h l) → road_element h r = Err ValueError).
  Proof.
    pose proof (road_made h r) as G. pose proof (have_ids h (road_lanes h r)) as W. destruct (lanes_have_ids h _); split; [done| | |done].
    - intros (l & Hl & Hn). destruct Hn. by apply W.
    - intros H. apply W in H. done.
  Qed.
  Theorem C41_network date h d : ((∀ l, l ∈ network_lanes h d → has_id h l) → ∃ e, odr_element date h d = Ok e) ∧
    ((∃ l, l ∈ network_lanes h d ∧ ¬ has_id h l) → odr_element date h d = Err ValueError).
  Proof.
    pose proof (network_made date h d) as G. pose proof (have_ids h (network_lanes h d)) as W. destruct (lanes_have_ids h _); split; [done| | |done].
    - intros (l & Hl & Hn). destruct Hn. by apply W.
    - intros H. apply W in H. done.
  Qed.
  (** in fact the lanes of lane sections always have ids, so that an OpenDrive can always be written *)
  Theorem C41_reachable date h d : reachable h → exists_in h_odr h d → ∃ e, odr_element date h d = Ok e.
  Proof.
    intros Hr Hd. apply C41_network. intros l Hl. pose proof (reachable_no_dangling _ Hr) as N. unfold network_lanes in Hl. 
    apply elem_of_list_In, in_concat in Hl as (ls & Hls & Hl). apply in_map_iff in Hls as ([k r] & <- & Hkr). apply elem_of_list_In in Hkr.
    unfold road_lanes in Hl. apply in_concat in Hl as (ls & Hls & Hl). apply in_map_iff in Hls as (sec & <- & Hsec). apply elem_of_list_In in Hsec, Hl. simpl in Hsec.
    pose proof (nd_odr _ N _ _ (exists_at _ _ _ Hd)) as (_ & Hroads & _). pose proof (Hroads _ _ Hkr) as Hex.
    assert (Hs : exists_in h_sec h sec).
    { pose proof (nd_road _ N _ _ (exists_at _ _ _ Hex)) as (_ & _ & Hlanes & _). pose proof (nd_lanes _ N _ _ (exists_at _ _ _ Hlanes)) as (_ & HS). by apply HS. }
    assert (exists p, lane_at h sec p = Some l) as [p Hp].
    { unfold section_lanes in Hl. unfold lane_at. rewrite (exists_at _ _ _ Hs). rewrite !elem_of_app elem_of_list_singleton in Hl.
      destruct Hl as [Hl|[->|Hl]]; [apply elem_of_list_lookup in Hl as [i Hi]; by exists (LeftOf i)|by exists Centre|apply elem_of_list_lookup in Hl as [i Hi]; by exists (RightOf i)]. }
    destruct (si_ids _ (reachable_sec _ Hr) sec p l Hp) as (sec' & p' & _ & Hid). by eexists.
  Qed.

  (** ** C40 *)
  Definition put_roads h (rs : list ref) (d : dict ref) : dict ref := foldl (λ d r, dict_set d (road_key h r) r) d rs.
  Lemma put_keys h rs : map fst (put_roads h rs []) = firsts (map (road_key h) rs).
  Proof.
    induction rs as [|r rs IH] using rev_ind; [done|]. unfold put_roads. rewrite foldl_app. cbn [foldl]. fold (put_roads h rs []).
    rewrite map_app. cbn [map]. rewrite firsts_snoc -IH. case_bool_decide as Hk.
    - apply dict_set_old. by rewrite IH firsts_in.
    - apply dict_set_new. by rewrite IH firsts_in.
  Qed.
  Lemma put_get h rs k : dict_get (put_roads h rs []) k = last (filter (λ r, road_key h r = k) rs).
  Proof.
    induction rs as [|r rs IH] using rev_ind; [done|]. unfold put_roads. rewrite foldl_app. cbn [foldl]. fold (put_roads h rs []).
    rewrite filter_app. destruct (decide (road_key h r = k)) as [<-|Hne].
    - rewrite dict_get_set filter_cons_True // filter_nil last_snoc. done.
    - rewrite dict_get_set_ne // filter_cons_False // filter_nil app_nil_r. done.
  Qed.
  Lemma dict_get_in {V} (d : dict V) : NoDup (map fst d) → Forall2 (λ k v, dict_get d k = Some v) (map fst d) (map snd d).
  Proof.
    induction d as [|[k v] d IH]; [constructor|]. cbn [map fst snd]. rewrite NoDup_cons. intros [Hk Hn]. constructor; [simpl; by rewrite String.eqb_refl|].
    eapply Forall2_in; [exact (IH Hn)|]. intros k' v' Hk' Hg. simpl. destruct (String.eqb_spec k' k) as [->|]; [done|done].
  Qed.
  Lemma firsts_nodup l : NoDup (firsts l).
  Proof.
    induction l as [|x l IH]; [constructor|]. cbn [firsts]. apply NoDup_cons. split; [|by apply NoDup_filter]. rewrite elem_of_list_filter. naive_solver.
  Qed.
  Lemma adds_run h d adds x : h_odr h !! d = Some x → Forall (λ a, match a with inl r => exists_in h_road h r | inr j => exists_in h_junc h j end) adds →
    run h (map (add_call d) adds) = h <| h_odr := <[d := x <| od_roads := put_roads h (roads_added adds) (od_roads x) |>
      <| od_junctions := od_junctions x ++ junctions_added adds |>]> (h_odr h) |>.
  Proof.
    revert h x. induction adds as [|a adds IH]; intros h x Hx HF.
    { simpl. rewrite app_nil_r. replace (x <| od_roads := _ |> <| od_junctions := _ |>) with x by (by destruct x). rewrite insert_id //. by destruct h. }
    apply Forall_cons in HF as [Ha HF]. cbn [map]. 
    set (x1 := match a with inl r => x <| od_roads := dict_set (od_roads x) (road_key h r) r |> | inr j => x <| od_junctions := od_junctions x ++ [j] |> end).
    pose (h1 := h <| h_odr := <[d := x1]> (h_odr h) |>).
    assert (E1 : (step (add_call d a) h).2 = h1).
    { unfold add_call, x1, h1. destruct a as [r|j]; unfold step.
      - rewrite guarded_true; [by rewrite (has_true _ _ _ (mk_is_Some _ _ Hx)) (has_true _ _ _ Ha)|].
        unfold as_unit, add_road, get_road. unfold upd_odr, modify, bind, gets, ret. simpl. by rewrite (lookup_total_correct _ _ _ Hx).
      - rewrite guarded_true; [by rewrite (has_true _ _ _ (mk_is_Some _ _ Hx)) (has_true _ _ _ Ha)|].
        unfold as_unit, add_junction. unfold upd_odr, modify, bind, gets, ret. simpl. by rewrite (lookup_total_correct _ _ _ Hx). }
    change (run h (add_call d a :: map (add_call d) adds)) with (run (step (add_call d a) h).2 (map (add_call d) adds)). rewrite E1.
    rewrite (IH h1 x1); [|exact HF|].
    { unfold h1. simpl. apply lookup_insert. }
    unfold h1. simpl. rewrite insert_insert. unfold x1. destruct a as [r|j]; simpl; [|rewrite -app_assoc]; done.
  Qed.
  Theorem C40_written date h d x adds e : reachable h → h_odr h !! d = Some x → od_roads x = [] → od_junctions x = [] →
    Forall (λ a, match a with inl r => exists_in h_road h r ∧ well_classed h r | inr j => exists_in h_junc h j end) adds →
    odr_element date (run h (map (add_call d) adds)) d = Ok e →
    ∃ shown, last_of_each_id h (roads_added adds) shown ∧
      map xtag (xchildren e) = [Some "header"] ++ replicate (length shown) (Some "road") ++ replicate (length (junctions_added adds)) (Some "junction") ∧
      nc_roads <$> read_network e = Some (map (road_content h) shown) ∧
      nc_junctions <$> read_network e = Some (map (junction_content h) (junctions_added adds)) ∧
      nc_header <$> read_network e = Some [Some (od_name x); Some "1"; Some "5"; Some date; Some "0.0"; Some "0.0"; Some "0.0"; Some "0.0"].
  Proof.
    intros Hr Hx Er Ej HF He. pose proof (put_keys h (roads_added adds)) as Hk. pose proof (put_get h (roads_added adds)) as Hg.
    rewrite (adds_run h d adds x Hx) in He.
    { eapply Forall_impl; [exact HF|]. intros [r|j]; [by intros [? _]|done]. }
    rewrite Er Ej in He. set (D := put_roads h (roads_added adds) []) in *. cbn [app] in He.
    pose (h' := h <| h_odr := <[d := x <| od_roads := D |> <| od_junctions := junctions_added adds |>]> (h_odr h) |>). fold h' in He.
    exists (map snd D). split; [|].
    { unfold last_of_each_id. rewrite -Hk. eapply Forall2_impl; [apply dict_get_in; rewrite Hk; apply firsts_nodup|]. intros k r H. by rewrite -Hg. }
    assert (Hod : h_odr h' !!! d = x <| od_roads := D |> <| od_junctions := junctions_added adds |>) by (unfold h'; simpl; by rewrite lookup_total_insert).
    assert (Hin : ∀ k r, (k, r) ∈ D → r ∈ roads_added adds).
    { intros k r Hkr. assert (NoDup (map fst D)) as Hn by (rewrite Hk; apply firsts_nodup).
      apply elem_of_list_lookup in Hkr as [i Hi]. pose proof (dict_get_in D Hn) as F2.
      pose proof (Forall2_lookup_lr _ _ _ i k r F2) as G. rewrite !list_lookup_fmap Hi in G. specialize (G eq_refl eq_refl). rewrite Hg in G.
      apply last_Some in G as [l' El]. assert (Hr' : r ∈ filter (λ r', road_key h r' = k) (roads_added adds)) by (rewrite El; apply elem_of_app; right; by apply elem_of_list_singleton).
      by apply elem_of_list_filter in Hr' as [_ ?]. }
    assert (Hwc : ∀ k r, (k, r) ∈ od_roads (h_odr h' !!! d) → well_classed h' r).
    { rewrite Hod. simpl. intros k r Hkr. apply Hin in Hkr. unfold roads_added in Hkr. apply elem_of_list_omap in Hkr as ([r'|j] & Ha & [= <-]).
      rewrite Forall_forall in HF. destruct (HF _ Ha) as [_ Hw]. exact Hw. }
    assert (Rn : read_network e = Some (network_content date h' d)).
    { apply network_read; [|done|done]. intros y. apply (reachable_obj_wf h Hr y). }
    rewrite Rn. unfold network_content. rewrite Hod. cbn [fmap option_fmap option_map nc_roads nc_junctions nc_header]. simpl. rewrite map_map. split_and!; [|done..].
    unfold odr_element in He. rewrite Hod in He. simpl in He. destruct (map_res _ D) as [rs|] eqn:Em; [|done]. cbn [rbind] in He. injection He as <-.
    simpl. f_equal. rewrite map_app !map_length. f_equal.
    - apply map_res_ok in Em. clear -Em. induction Em as [|kr y l k Hy _ IH]; [done|]. simpl. rewrite IH. f_equal.
      unfold road_element in Hy. destruct (lanes_element _ _); [|done]. simpl in Hy. by injection Hy as <-.
    - rewrite map_map. clear. induction (junctions_added adds) as [|j l IH]; [done|]. simpl. by rewrite IH.
  Qed.
  (** in any reachable state, all that is written about an OpenDrive *)
  Theorem C40_read date h d : reachable h → exists_in h_odr h d → (∀ k r, (k, r) ∈ od_roads (h_odr h !!! d) → well_classed h r) →
    ∃ e, odr_element date h d = Ok e ∧ read_network e = Some (network_content date h d).
  Proof.
    intros Hr Hd Hw. destruct (C41_reachable date h d Hr Hd) as [e He]. exists e. split; [done|]. apply network_read; [|done|done]. by apply reachable_obj_wf.
  Qed.
  (** in every reachable state the ids of the roads of an OpenDrive are pairwise different, and written *)
  Theorem C40_distinct h d x : reachable h → h_odr h !! d = Some x → NoDup (map (λ kr : string * ref, road_key h kr.2) (od_roads x)) ∧
    ∀ k r, (k, r) ∈ od_roads x → k = road_key h r.
  Proof.
    intros Hr Hx. destruct (reachable_odr h Hr d x Hx) as [Hn Hk]. split; [|exact Hk].
    rewrite (_ : map _ (od_roads x) = map fst (od_roads x)) //. apply map_ext_in. intros [k r] Hkr. simpl. symmetry. apply Hk. by apply elem_of_list_In.
  Qed.
End Writing.

(** ** Concrete cases (arithmetic: quarter turns) *)
Section Examples.
  Local Existing Instance QNum.
  (* road 2 with one lane on each side, road 10 with the same id, road 18; a junction 24; an OpenDrive 25 *)
  Definition some_roads : list (op Z) := road_ops 0 (PInt 1) (-1) [(1, 1)] ++ road_ops 7 (PStr "1") (-1) [(2, 1)] ++ road_ops 15 (PInt 2) (-1) [(0, 1)] ++
    [OpJunction "j" (PInt 5); OpOpenDrive "net"].
  Definition some_adds : list (ref + ref) := [inl 2; inl 17; inr 21; inl 9].
  Example C40_example_hypotheses : let h := run heap_init some_roads in reachable h ∧ h_odr h !! 22 = Some (mkOpenDrive "net" [] []) ∧
    Forall (λ a, match a with inl r => exists_in h_road h r ∧ well_classed h r | inr j => exists_in h_junc h j end) some_adds.
  Proof.
    intros h. split; [by eexists|]. split; [vm_compute; reflexivity|].
    assert (W : ∀ r, rd_signals (h_road h !!! r) = [] → rd_objects (h_road h !!! r) = [] → well_classed h r).
    { intros r E1 E2. split; intros x; rewrite ?E1 ?E2; intros []%elem_of_nil. }
    repeat (apply Forall_cons; split); [split; [eexists; vm_compute; reflexivity|apply W; vm_compute; reflexivity]..| | |constructor].
    - eexists; vm_compute; reflexivity.
    - split; [eexists; vm_compute; reflexivity|apply W; vm_compute; reflexivity].
  Qed.
  (** the second road with id 1 is shown in the place of the first *)
  Example C40_example : let h := run (run heap_init some_roads) (map (add_call 22) some_adds) in
    last_of_each_id h (roads_added some_adds) [9; 17] ∧
    match odr_element "today" h 22 with
    | Ok e => map (λ c, (xtag c, dict_get (xattrs c) "id")) (xchildren e) =
        [(Some "header", None); (Some "road", Some "1"); (Some "road", Some "2"); (Some "junction", Some "5")] ∧
        read_network e = Some (network_content "today" h 22)
    | Err _ => False end.
  Proof.
    intros h. split; [|vm_compute; split; reflexivity]. unfold last_of_each_id.
    assert (E : firsts (map (road_key h) (roads_added some_adds)) = ["1"; "2"]) by (vm_compute; reflexivity). rewrite E.
    apply Forall2_cons. split; [vm_compute; reflexivity|]. apply Forall2_cons. split; [vm_compute; reflexivity|]. apply Forall2_nil. exact I.
  Qed.
  (** a road with signal and object, and its element *)
  Definition road_with_things : list (op Z) := road_ops 0 (PInt 1) (-1) [(1, 1)] ++
    [OpSignal 1%Z 2%Z "se" (inr "1000") None None None dyn_no (Some 5%Z) (Some "km/h") 0%Z or_positive 0%Z 0%Z 0%Z None None;
     OpObject 3%Z 4%Z (inl ot_pole) None None None dyn_no 0%Z or_none 0%Z 0%Z 0%Z None None None (Some 1%Z) None;
     OpAddSignal 2 [7]; OpAddObject 2 [8]; OpAddNeighbor 2 (Some et_road) (PInt 9) (Some dir_same)].
  Example C39_example : let h := run heap_init road_with_things in well_classed h 2 ∧
    match road_element h 2 with
    | Ok e => map xtag (xchildren e) = [Some "link"; Some "planView"; Some "lanes"; Some "signals"; Some "objects"] ∧ read_road e = Some (road_content h 2)
    | Err _ => False end.
  Proof.
    intros h. split; [|vm_compute; split; reflexivity].
    assert (E1 : rd_signals (h_road h !!! 2) = [7]) by (vm_compute; reflexivity). assert (E2 : rd_objects (h_road h !!! 2) = [8]) by (vm_compute; reflexivity).
    split; intros x; rewrite ?E1 ?E2; intros ->%elem_of_list_singleton; vm_compute; reflexivity.
  Qed.
  (** the hypothesis [well_classed] is needed: an Object passed to add_signal is written as an object among the signals *)
  Theorem C39_refuted_class : let h := run heap_init (road_with_things ++ [OpAddSignal 2 [8]]) in
    match road_element h 2 with
    | Ok e => map (λ c, map xtag (xchildren c)) (sub "signals" e) = [[Some "signal"; Some "object"]] ∧ read_road e = None
    | Err _ => False end.
  Proof. vm_compute. split; reflexivity. Qed.
  (** a lane that is in no section has no id and cannot be written *)
  Example C41_example : let h := run heap_init [OpLane lt_driving 3%Z 0%Z 0%Z 0%Z 0%Z] in exists_in h_lane h 0 ∧ lane_element (h_lane h !!! 0) = Err ValueError.
  Proof. split; [eexists; vm_compute; reflexivity|vm_compute; reflexivity]. Qed.
End Examples.

Print Assumptions C39_read.
Print Assumptions C39_order.
Print Assumptions C39_dependency.
Print Assumptions C40_written.
Print Assumptions C40_read.
Print Assumptions C40_distinct.
Print Assumptions C41_lane.
Print Assumptions C41_network.
Print Assumptions C41_reachable.
