(** * C70: networks that are written, and the OpenDRIVE schema *)
From Coq Require Import ssreflect.
From Verif.Model Require Import Api Xml Write.
From Verif.Inst Require Import Quarter.
From Verif.Spec Require Import SpecWrite SpecSchema.
From Verif.Proof Require Import Monad DictFacts Reach Steps History Invariants ReadXml WriteXml WriteNames SchemaFacts.
From Verif.Properties Require Import PHistory PLaneLinks PXml PWrite.
Local Open Scope general_if_scope.

Section Schema.
  Context {F : Type} `{!Num F}.
  Implicit Types (h : heap F).
  (** [str] of a number is not the text None *)
  Context (numbers : ∀ x : F, fstr x ≠ "None").

  (** exactly the networks described in SpecSchema are written well *)
  Theorem C70_exact date h d e : reachable h → odr_element date h d = Ok e → (v_OpenDRIVE F e ↔ network_fits h d).
  Proof. intros Hr He. symmetry. apply (network_valid date); [done|by apply reachable_bare|by apply reachable_obj_wf|done]. Qed.
  Theorem C70_exact_road h r e : reachable h → road_element h r = Ok e → (v_road F e ↔ road_fits h r).
  Proof. intros Hr He. symmetry. apply road_valid; [done|by apply reachable_bare|by apply reachable_obj_wf|done]. Qed.

  Lemma fits_directed h d : network_fits h d → directed_links h d.
  Proof.
    intros (_ & Hr & _) l k Hl Hk. unfold network_lanes in Hl. apply elem_concat in Hl as (ls & Hl & Hls). apply elem_of_list_fmap in Hls as ([k' r] & -> & Hkr).
    destruct (Hr _ _ Hkr) as (_ & _ & _ & _ & _ & Hlanes & _). destruct (Hlanes l Hl) as [[(ps & ss & E & Hp & Hs) _] _]. rewrite E in Hk.
    apply elem_of_app in Hk as [Hk|Hk]; [left; by apply Hp|right; by apply Hs].
  Qed.
  (** so the file, in both forms, is a document that satisfies the schema (if its strings have no control characters) *)
  Theorem C70_file date h d filename pretty_ fs e : reachable h → exists_in h_odr h d → network_fits h d → odr_element date h d = Ok e → all_values plain_char e →
    ∃ t doc, wrote fs (written_to h d filename) t (write_xml date h d filename pretty_ fs) ∧ read_document t = Some doc ∧ v_OpenDRIVE F doc.
  Proof.
    intros Hr Hd Hf He Hp. assert (Hv : v_OpenDRIVE F e) by (by apply (C70_exact date h d)).
    destruct (network_named date h d e Hr Hd (fits_directed h d Hf) He) as (H1 & H2 & a & cs & ->).
    unfold write_xml. rewrite He. unfold print_to_file. destruct pretty_.
    - rewrite rough_read //; [by apply plain_xml|]. rewrite (tagged_children _ a cs H2). eexists _, _. split; [apply put_wrote|]. split; [|exact Hv].
      rewrite to_pretty_read //; [by apply plain_xml|]. rewrite spaced_values_plain //.
    - eexists _, _. split; [apply put_wrote|]. split; [|exact Hv]. rewrite tree_write_read //; [by apply plain_xml|]. rewrite (tagged_children _ a cs H2) //.
  Qed.

  (** ** What is never written well *)
  (** a road with signals and objects: the signals are written first *)
  Theorem C70_refuted_order date h d e k r : reachable h → odr_element date h d = Ok e → (k, r) ∈ od_roads (h_odr h !!! d) →
    rd_signals (h_road h !!! r) ≠ [] → rd_objects (h_road h !!! r) ≠ [] → ¬ v_OpenDRIVE F e.
  Proof. intros Hr He Hk H1 H2 Hv. apply (C70_exact date h d e Hr He) in Hv as (_ & H & _). destruct (H _ _ Hk) as (_ & _ & _ & _ & _ & _ & _ & _ & [?|?]); done. Qed.
  (** a road with a neighbor *)
  Theorem C70_refuted_neighbor date h d e k r n : reachable h → odr_element date h d = Ok e → (k, r) ∈ od_roads (h_odr h !!! d) →
    n ∈ rd_links (h_road h !!! r) → lk_type n = Some "neighbor" → ¬ v_OpenDRIVE F e.
  Proof.
    intros Hr He Hk Hn Ht Hv. apply (C70_exact date h d e Hr He) in Hv as (_ & H & _). destruct (H _ _ Hk) as (_ & [Hl _] & _).
    assert (Hin : Some "neighbor" ∈ map lk_type (rd_links (h_road h !!! r))) by (rewrite -Ht; by apply elem_of_list_fmap_1).
    rewrite !elem_of_cons in Hl. destruct Hl as [E|[E|[E|[E|E]]]]; [rewrite E in Hin..|by apply elem_of_nil in E];
      unfold pre, suc in Hin; rewrite ?elem_of_cons in Hin; destruct_or? Hin; try done; by apply elem_of_nil in Hin.
  Qed.
  (** a successor that was given before the predecessor *)
  Theorem C70_refuted_links date h d e k r p s rest : reachable h → odr_element date h d = Ok e → (k, r) ∈ od_roads (h_odr h !!! d) →
    rd_links (h_road h !!! r) = s :: p :: rest → lk_type s = Some "successor" → ¬ v_OpenDRIVE F e.
  Proof.
    intros Hr He Hk Hl Hs Hv. apply (C70_exact date h d e Hr He) in Hv as (_ & H & _). destruct (H _ _ Hk) as (_ & [Hl' _] & _).
    rewrite Hl in Hl'. simpl in Hl'. rewrite Hs in Hl'. rewrite !elem_of_cons in Hl'. destruct_or? Hl'; try done. by apply elem_of_nil in Hl'.
  Qed.
  (** a lane whose links lead first to a successor, then to a predecessor *)
  Theorem C70_refuted_lanes date h d e k r l i j : reachable h → odr_element date h d = Ok e → (k, r) ∈ od_roads (h_odr h !!! d) → l ∈ road_lanes h r →
    (lk_type <$> ln_links (h_lane h !!! l)) !! i = Some (Some "successor") → (lk_type <$> ln_links (h_lane h !!! l)) !! j = Some (Some "predecessor") → i < j → ¬ v_OpenDRIVE F e.
  Proof.
    intros Hr He Hk Hl Hi Hj Hij Hv. apply (C70_exact date h d e Hr He) in Hv as (_ & H & _). destruct (H _ _ Hk) as (_ & _ & _ & _ & _ & H' & _).
    destruct (H' l Hl) as [[(ps & ss & E & Hp & Hs) _] _]. rewrite E in Hi. rewrite E in Hj. rewrite list_lookup_fmap in Hi. rewrite list_lookup_fmap in Hj.
    destruct ((ps ++ ss) !! i) as [ki|] eqn:Ei; [|done]. destruct ((ps ++ ss) !! j) as [kj|] eqn:Ej; [|done]. injection Hi as Hi. injection Hj as Hj.
    apply lookup_app_Some in Ei as [Ei|[Li Ei]].
    - apply elem_of_list_lookup_2, Hp in Ei. rewrite Hi in Ei. done.
    - apply lookup_app_Some in Ej as [Ej|[Lj Ej]]; [apply lookup_lt_Some in Ej; lia|]. apply elem_of_list_lookup_2, Hs in Ej. rewrite Hj in Ej. done.
  Qed.
  (** a signal with a value but no unit (the unit is written as None) *)
  Theorem C70_refuted_unit date h d e k r x : reachable h → odr_element date h d = Ok e → (k, r) ∈ od_roads (h_odr h !!! d) → x ∈ rd_signals (h_road h !!! r) →
    is_Some (so_value (h_obj h !!! x)) → so_unit (h_obj h !!! x) = None → ¬ v_OpenDRIVE F e.
  Proof.
    intros Hr He Hk Hx H1 H2 Hv. apply (C70_exact date h d e Hr He) in Hv as (_ & H & _). destruct (H _ _ Hk) as (_ & _ & _ & _ & _ & _ & H' & _).
    destruct (H' x Hx) as (_ & _ & Hu). destruct (Hu H1) as (u & E & _). by rewrite H2 in E.
  Qed.
  (** a repetition without a height, of an object without one (the height is written as None) *)
  Theorem C70_refuted_height date h d e k r x rep : reachable h → odr_element date h d = Ok e → (k, r) ∈ od_roads (h_odr h !!! d) → x ∈ rd_objects (h_road h !!! r) →
    rep ∈ so_repeats (h_obj h !!! x) → dict_get rep "heightStart" = Some "None" → ¬ v_OpenDRIVE F e.
  Proof.
    intros Hr He Hk Hx H1 H2 Hv. apply (C70_exact date h d e Hr He) in Hv as (_ & H & _). destruct (H _ _ Hk) as (_ & _ & _ & _ & _ & _ & _ & H' & _).
    destruct (H' x Hx) as (_ & _ & Hu). by destruct (Hu rep H1).
  Qed.
  (** the condition on road marks is met by all that the library makes *)
  Theorem C70_marks ty width len space toffset soffset rule color weight height laneChange :
    mark_fits (roadmark_ctor ty width len space toffset soffset rule color weight height laneChange : roadmark F).
  Proof. unfold mark_fits, roadmark_ctor. destruct (_ || _); [destruct ty|]; simpl; first [by eexists|by intros [? [=]]]. Qed.
End Schema.

(** ** Concrete cases (arithmetic: quarter turns) *)
Section Examples.
  Local Existing Instance QNum.
  Implicit Types (h : heap Z).
  (** the numbers of the examples are written as integers *)
  Lemma go_head x : ∀ s : string, String.get 0 s ≠ Some "N"%char → String.get 0 (pretty_N_go x s) ≠ Some "N"%char.
  Proof.
    induction x as [x IH] using (well_founded_ind N.lt_wf_0). intros s Hs. destruct (decide (0 < x)%N) as [Hx|Hx].
    - rewrite pretty_N_go_step //. apply IH; [by apply N.div_lt|]. simpl. unfold pretty_N_char. repeat case_match; done.
    - assert (x = 0%N) as -> by lia. by rewrite pretty_N_go_0.
  Qed.
  Lemma quarter_numbers (x : Z) : fstr x ≠ "None".
  Proof.
    assert (P : ∀ n : N, pretty n ≠ "None").
    { intros n E. destruct (decide (n = 0%N)) as [->|Hn]; [done|]. apply (go_head n ""); [done|]. unfold pretty, pretty_N in E. rewrite decide_False // in E. by rewrite E. }
    simpl. unfold pretty, pretty_Z. destruct x; [done|apply P|]. unfold pretty, pretty_positive. by intros [=].
  Qed.
  (** tests for the conditions *)
  Definition some_number (s : string) : bool := existsb (λ z, bool_decide (s = pretty z)) [-2; -1; 0; 1; 2]%Z.
  Definition lane_links_test (ks : list link) : bool :=
    bool_decide (ks = filter (λ k, lk_type k = pre) ks ++ filter (λ k, lk_type k = suc) ks) && forallb (λ k, some_number (pystr (lk_id k))) ks.
  Definition mark_test (m : roadmark Z) : bool := negb (bool_decide (is_Some (rm_line m))) || bool_decide (is_Some (rm_width m)).
  Definition lane_test (o : lane Z) : bool := lane_links_test (ln_links o) && match ln_roadmark o with Some m => mark_test m | None => true end.
  Definition geometry_test h (p : pgeom Z) : bool := bool_decide (is_Some (pg_s p) ∧ is_Some (pg_length p)) &&
    match h_geom h !!! pg_geom p with GPoly _ _ _ _ _ _ _ _ range _ => bool_decide (range ∈ ["arcLength"; "normalized"]) | _ => true end.
  Definition code_test (s : string) : bool := match s with String a (String b EmptyString) => letter a && letter b | _ => false end.
  Definition signal_test (o : sobj Z) : bool := bool_decide (so_class o = CSignal) && code_test (so_country o) &&
    match so_value o with Some _ => match so_unit o with Some u => bool_decide (u ∈ units) | None => false end | None => true end.
  Definition object_test (o : sobj Z) : bool := bool_decide (so_class o = CObject) && match so_type o with inr s => bool_decide (s ∈ object_types) | inl _ => true end &&
    forallb (λ d, bool_decide (dict_get d "heightStart" ≠ Some "None" ∧ dict_get d "heightEnd" ≠ Some "None")) (so_repeats o).
  Definition road_test h (r : ref) : bool :=
    let o := h_road h !!! r in
    match rd_rule o with Some rule => bool_decide (rule ∈ [""; "RHT"; "LHT"]) | None => true end &&
    bool_decide (map lk_type (rd_links o) ∈ [[]; [pre]; [suc]; [pre; suc]]) && forallb (λ k, bool_decide (is_Some (lk_etype k))) (rd_links o) &&
    negb (bool_decide (length (pv_geoms (h_pv h !!! rd_planview o)) = 0)) && forallb (geometry_test h) (pv_geoms (h_pv h !!! rd_planview o)) &&
    negb (bool_decide (sections h o = [])) && forallb (λ l, lane_test (h_lane h !!! l)) (road_lanes h r) &&
    forallb (λ x, signal_test (h_obj h !!! x)) (rd_signals o) && forallb (λ x, object_test (h_obj h !!! x)) (rd_objects o) &&
    (bool_decide (rd_signals o = []) || bool_decide (rd_objects o = [])).
  Definition network_test h (d : ref) : bool :=
    negb (bool_decide (od_roads (h_odr h !!! d) = [])) && forallb (λ kr : string * ref, road_test h kr.2) (od_roads (h_odr h !!! d)) &&
    forallb (λ j, negb (bool_decide (jn_conns (h_junc h !!! j) = []))) (od_junctions (h_odr h !!! d)).
  Lemma forallb_in {A} (f : A → bool) l x : forallb f l = true → x ∈ l → f x = true.
  Proof. rewrite forallb_forall. intros H Hx. apply H. by apply elem_of_list_In. Qed.
  Lemma lane_tested o : lane_test o = true → lane_fits o.
  Proof.
    unfold lane_test, lane_links_test. rewrite !andb_true_iff. intros [[H1 H2] H3]. apply bool_decide_eq_true in H1. split.
    - split.
      + eexists _, _. split; [exact H1|]. split; intros k Hk%elem_of_list_filter; apply Hk.
      + intros k Hk. pose proof (forallb_in _ _ _ H2 Hk) as H. unfold some_number in H. apply existsb_exists in H as (z & _ & Hz). exists z. by apply bool_decide_eq_true in Hz.
    - intros m Hm Hl. rewrite Hm in H3. unfold mark_test in H3. apply orb_true_iff in H3 as [H3|H3]; [|by apply bool_decide_eq_true in H3].
      apply negb_true_iff, bool_decide_eq_false in H3. done.
  Qed.
  Lemma road_tested h r : road_test h r = true → road_fits h r.
  Proof.
    unfold road_test. rewrite !andb_true_iff. intros [[[[[[[[[H1 H2] H3] H4] H5] H6] H7] H8] H9] H10]. split; [|split; [|split; [|split; [|split; [|split; [|split; [|split]]]]]]].
    - intros rule E. rewrite E in H1. by apply bool_decide_eq_true in H1.
    - split; [by apply bool_decide_eq_true in H2|]. intros k Hk. by apply (forallb_in _ _ _ H3), bool_decide_eq_true in Hk.
    - apply negb_true_iff, bool_decide_eq_false in H4. intros E. by rewrite E in H4.
    - intros p Hp. apply (forallb_in _ _ _ H5) in Hp. unfold geometry_test in Hp. apply andb_true_iff in Hp as [Ha Hb]. apply bool_decide_eq_true in Ha as [Ha1 Ha2].
      split; [done|]. split; [done|]. destruct (h_geom h !!! pg_geom p); try done. by apply bool_decide_eq_true in Hb.
    - by apply negb_true_iff, bool_decide_eq_false in H6.
    - intros l Hl. apply lane_tested. by apply (forallb_in _ _ _ H7) in Hl.
    - intros x Hx. apply (forallb_in _ _ _ H8) in Hx. unfold signal_test in Hx. rewrite !andb_true_iff in Hx. destruct Hx as [[Ha Hb] Hc]. split; [by apply bool_decide_eq_true in Ha|]. split.
      + unfold code_test in Hb. unfold code. destruct (so_country _) as [|a [|b [|c s]]]; try done. apply andb_true_iff in Hb as [-> ->]. done.
      + intros [v Ev]. rewrite Ev in Hc. destruct (so_unit _) as [u|]; [|done]. exists u. by apply bool_decide_eq_true in Hc.
    - intros x Hx. apply (forallb_in _ _ _ H9) in Hx. unfold object_test in Hx. rewrite !andb_true_iff in Hx. destruct Hx as [[Ha Hb] Hc]. split; [by apply bool_decide_eq_true in Ha|]. split.
      + intros s Es. rewrite Es in Hb. by apply bool_decide_eq_true in Hb.
      + intros d Hd. by apply (forallb_in _ _ _ Hc), bool_decide_eq_true in Hd.
    - apply orb_true_iff in H10 as [H|H]; apply bool_decide_eq_true in H; auto.
  Qed.
  Lemma network_tested h d : network_test h d = true → network_fits h d.
  Proof.
    unfold network_test. rewrite !andb_true_iff. intros [[H1 H2] H3]. split; [by apply negb_true_iff, bool_decide_eq_false in H1|]. split.
    - intros k r Hk. apply road_tested. by apply (forallb_in _ _ _ H2) in Hk.
    - intros j Hj. apply (forallb_in _ _ _ H3) in Hj. by apply negb_true_iff, bool_decide_eq_false in Hj.
  Qed.

  (** a chain of three roads (7, 15, 23) from the generator; the first with a signal, the second with a row of posts; [extra] calls, and the order in which
      the roads are added to the OpenDrive *)
  Definition chain (extra : list (op Z)) (order : list ref) : list (op Z) :=
    [OpCreateStraightRoad (PInt 1) 100%Z (-1) 1 3%Z; OpCreateStraightRoad (PInt 2) 100%Z (-1) 1 3%Z; OpCreateStraightRoad (PInt 3) 100%Z (-1) 1 3%Z;
     OpAddSuccessor 7 (Some et_road) (PInt 2) (Some cp_start) 0; OpAddPredecessor 15 (Some et_road) (PInt 1) (Some cp_end) 0;
     OpAddSuccessor 15 (Some et_road) (PInt 3) (Some cp_start) 0; OpAddPredecessor 23 (Some et_road) (PInt 2) (Some cp_end) 0;
     OpSignal 1%Z 2%Z "se" (inr "1000") None None None dyn_no (Some 5%Z) (Some "km/h") 0%Z or_positive 0%Z 0%Z 0%Z None None; OpAddSignal 7 [24];
     OpObject 3%Z 4%Z (inl ot_pole) None None None dyn_no 0%Z or_none 0%Z 0%Z 0%Z None None (Some 1%Z) (Some 1%Z) None; OpAddObject 15 [25];
     OpRepeat 25 50%Z 5%Z None None None None None None None None None None None None None; OpOpenDrive "net"] ++ extra ++ map (OpAddRoad 26) order ++ [OpAdjustRoadsAndLanes 26].
  Example C70_example : let h := run heap_init (chain [] [7; 15; 23]) in reachable h ∧ network_fits h 26 ∧ exists_in h_odr h 26 ∧
    ∃ e, odr_element "today" h 26 = Ok e ∧ v_OpenDRIVE Z e ∧ all_values plain_char e.
  Proof.
    intros h. assert (Hr : reachable h) by (by eexists). assert (Hf : network_fits h 26) by (apply network_tested; vm_compute; reflexivity).
    assert (Hd : exists_in h_odr h 26) by (eexists; vm_compute; reflexivity).
    assert (T : match odr_element "today" h 26 with Ok e => plain_test e | Err _ => false end = true) by (vm_compute; reflexivity).
    clearbody h. destruct (C41_reachable "today" h 26 Hr Hd) as [e He]. rewrite He in T. do 3 (split; [done|]). exists e. split; [done|].
    split; [by apply (C70_exact quarter_numbers "today" h 26 e)|]. by apply plain_tested.
  Qed.
  Lemma written_ill (h : heap Z) d : reachable h → exists_in h_odr h d → (∀ e, odr_element "today" h d = Ok e → ¬ v_OpenDRIVE Z e) → ∃ e, odr_element "today" h d = Ok e ∧ ¬ v_OpenDRIVE Z e.
  Proof. intros Hr Hd H. destruct (C41_reachable "today" h d Hr Hd) as [e He]. exists e. split; [done|auto]. Qed.
  (** ** The same network with the roads added in another order: a lane of the road in the middle is linked to its successor first *)
  Theorem C70_refuted_chain : let h := run heap_init (chain [] [15; 23; 7]) in reachable h ∧ ∃ e, odr_element "today" h 26 = Ok e ∧ ¬ v_OpenDRIVE Z e.
  Proof.
    intros h. assert (Hr : reachable h) by (by eexists). split; [done|]. apply written_ill; [done|eexists; vm_compute; reflexivity|].
    intros e He. apply (C70_refuted_lanes quarter_numbers "today" h 26 e "2" 15 12 0 1 Hr He).
    - apply (bool_decide_unpack _); vm_compute; exact I.
    - apply (bool_decide_unpack _); vm_compute; exact I.
    - vm_compute; reflexivity.
    - vm_compute; reflexivity.
    - lia.
  Qed.
  (** ** Networks that are not written well for one reason *)
  Definition with_signal : list (op Z) := [OpSignal 1%Z 2%Z "se" (inr "1000") None None None dyn_no None None 0%Z or_positive 0%Z 0%Z 0%Z None None; OpAddSignal 15 [27]].
  Definition with_neighbor : list (op Z) := [OpAddNeighbor 7 (Some et_road) (PInt 9) (Some dir_same)].
  Definition with_late_predecessor : list (op Z) := [OpAddPredecessor 7 (Some et_road) (PInt 9) (Some cp_end) 0].
  Definition without_unit : list (op Z) := [OpSignal 1%Z 2%Z "se" (inr "1000") None None None dyn_no (Some 5%Z) None 0%Z or_positive 0%Z 0%Z 0%Z None None; OpAddSignal 7 [27]].
  Definition without_height : list (op Z) := [OpObject 3%Z 4%Z (inl ot_pole) None None None dyn_no 0%Z or_none 0%Z 0%Z 0%Z None None None (Some 1%Z) None; OpAddObject 23 [27];
    OpRepeat 27 50%Z 5%Z None None None None None None None None None None None None None].
  Theorem C70_refuted_cases extra : extra ∈ [with_signal; with_neighbor; with_late_predecessor; without_unit; without_height] →
    let h := run heap_init (chain extra [7; 15; 23]) in reachable h ∧ exists_in h_odr h 26 ∧ ∃ e, odr_element "today" h 26 = Ok e ∧ ¬ v_OpenDRIVE Z e.
  Proof.
    intros Hx h. assert (Hr : reachable h) by (by eexists). split; [done|]. subst h.
    assert (Hd : exists_in h_odr (run heap_init (chain extra [7; 15; 23])) 26).
    { repeat (apply elem_of_cons in Hx as [->|Hx]; [eexists; vm_compute; reflexivity|]). by apply elem_of_nil in Hx. }
    split; [done|]. apply written_ill; [done|done|]. intros e He.
    repeat (apply elem_of_cons in Hx as [->|Hx]); [| | | | |by apply elem_of_nil in Hx].
    - apply (C70_refuted_order quarter_numbers "today" _ 26 e "2" 15 Hr He); apply (bool_decide_unpack _); vm_compute; exact I.
    - assert (T : Exists (λ n, lk_type n = Some "neighbor") (rd_links (h_road (run heap_init (chain with_neighbor [7; 15; 23])) !!! 7))) by (apply (bool_decide_unpack _); vm_compute; exact I).
      apply Exists_exists in T as (n & Hn & Ht). refine (C70_refuted_neighbor quarter_numbers "today" _ 26 e "1" 7 n Hr He _ Hn Ht). apply (bool_decide_unpack _); vm_compute; exact I.
    - eapply (C70_refuted_links quarter_numbers "today" _ 26 e "1" 7 _ _ _ Hr He).
      + apply (bool_decide_unpack _); vm_compute; exact I.
      + vm_compute; reflexivity.
      + vm_compute; reflexivity.
    - apply (C70_refuted_unit quarter_numbers "today" _ 26 e "1" 7 27 Hr He); apply (bool_decide_unpack _); vm_compute; exact I.
    - assert (T : Exists (λ d, dict_get d "heightStart" = Some "None") (so_repeats (h_obj (run heap_init (chain without_height [7; 15; 23])) !!! 27))) by (apply (bool_decide_unpack _); vm_compute; exact I).
      apply Exists_exists in T as (n & Hn & Ht). refine (C70_refuted_height quarter_numbers "today" _ 26 e "3" 23 27 n Hr He _ _ Hn Ht); apply (bool_decide_unpack _); vm_compute; exact I.
  Qed.
End Examples.

Print Assumptions C70_exact.
Print Assumptions C70_exact_road.
Print Assumptions C70_file.
Print Assumptions C70_marks.
Print Assumptions C70_refuted_order.
Print Assumptions C70_refuted_neighbor.
Print Assumptions C70_refuted_links.
Print Assumptions C70_refuted_lanes.
Print Assumptions C70_refuted_unit.
Print Assumptions C70_refuted_height.
Print Assumptions C70_example.
Print Assumptions C70_refuted_chain.
Print Assumptions C70_refuted_cases.
