(** * C53, C54: the file that is written *)
From Coq Require Import ssreflect.
From Verif.Model Require Import Api Write.
From Verif.Inst Require Import Quarter.
From Verif.Spec Require Import SpecState SpecHistory SpecLanes SpecXml SpecWrite.
From Verif.Proof Require Import Monad DictFacts NetFrame Reach Steps History Invariants ReadXml WriteXml WriteNames.
From Verif.Properties Require Import PHistory PLaneLinks PXml.
Local Open Scope general_if_scope.
Local Open Scope nat_scope.

Lemma put_wrote fs name t : wrote fs name t (Written (put_file fs name t)).
Proof.
  eexists. split; [done|]. unfold put_file. split; [apply dict_get_set|]. intros n Hn. rewrite dict_get_set_ne //.
Qed.
Lemma spaced_plain v : (∀ c, c ∈ v → plain_char c) → spaced v = v.
Proof.
  induction v as [|c v IH]; intros H; [done|]. pose proof (H c (elem_of_list_here _ _)) as Hc. unfold plain_char in Hc. simpl.
  destruct (decide (c = return_)) as [->|]; [exfalso; vm_compute in Hc; lia|]. destruct (decide (c = newline ∨ c = tab)) as [[->| ->]|]; [exfalso; vm_compute in Hc; lia..|].
  rewrite IH //. intros c' Hc'. apply H. by apply elem_of_list_further.
Qed.
Lemma spaced_values_plain e : all_values plain_char e → spaced_values e = e.
Proof.
  induction e as [t a cs IH] using xml_induction. unfold all_values. rewrite every_children. intros [Ha Hcs]. unfold spaced_values. simpl. f_equal.
  - clear -Ha. induction a as [|[k v] a IHa]; [done|]. simpl. rewrite spaced_plain; [apply (Ha k v), elem_of_list_here|]. rewrite str_chars IHa //. intros k' v' H. apply (Ha k' v'). by apply elem_of_list_further.
  - clear -IH Hcs. induction cs as [|c cs IHcs]; [done|]. apply Forall_cons in IH as [IH1 IH2]. apply Forall_cons in Hcs as [H1 H2]. simpl. rewrite IHcs //. f_equal. by apply IH1.
Qed.
Lemma plain_xml e : all_values plain_char e → all_values xml_char e.
Proof. apply every_impl. intros _ a H k v Hkv c Hc. left. by apply (H k v). Qed.
Lemma tagged_children t a cs : all_tagged (Elem (Some t) a cs) → flat_map dissolve cs = cs.
Proof. unfold all_tagged. rewrite every_children. intros [_ H]. by apply dissolve_all. Qed.

(** ** C53: any tree *)
(** The text of a tree, in the plain form, is read back as this tree; elements without a tag are lost, their children stay. *)
Theorem C53_plain_tree t a cs : let e := Elem (Some t) a cs in well_named e → all_values xml_char e → ∃ e', dissolve e = [e'] ∧ read_document (tree_write e) = Some e'.
Proof. intros e H1 H2. eexists. split; [reflexivity|]. by apply tree_write_read. Qed.
(** In the pretty form, tabs, newlines and returns in attribute values are read back as spaces. *)
Theorem C53_pretty_tree e name fs : well_named e → all_tagged e → all_values xml_char e → ∃ t, print_to_file e name true fs = Some (put_file fs name t) ∧ read_document t = Some (spaced_values e).
Proof.
  intros H1 H2 H3. destruct e as [[t|] a cs]. 2: { exfalso. unfold all_tagged in H2. rewrite every_children in H2. by destruct H2 as [[? ?] _]. }
  unfold print_to_file. rewrite rough_read // (tagged_children t a cs H2). eexists. split; [reflexivity|]. by apply to_pretty_read.
Qed.

Section Written.
  Context {F : Type} `{!Num F}.
  Implicit Types (h : heap F).
  Definition written_to h (d : ref) (filename : option string) : string := default (od_name (h_odr h !!! d) +:+ ".xodr") filename.

  Lemma network_named date h d e : reachable h → exists_in h_odr h d → directed_links h d → odr_element date h d = Ok e → well_named e ∧ all_tagged e ∧ ∃ a cs, e = Elem (Some "OpenDRIVE") a cs.
  Proof.
    intros Hr Hd Hk He. assert (N : every nice e).
    { eapply network_nice; [by apply reachable_obj_wf| |exact Hk|exact He]. intros [kk r] k Hkr Hl. simpl in *.
      pose proof (reachable_no_dangling _ Hr) as N. pose proof (nd_odr _ N _ _ (exists_at _ _ _ Hd)) as (_ & Hroads & _).
      pose proof (Hroads _ _ Hkr) as Hex. pose proof (reachable_road _ _ _ Hr (exists_at _ _ _ Hex)) as I. destruct (ri_kinds _ I k Hl) as [?|[?|?]]; [left; by right|left; by left|by right]. }
    apply nice_named in N as [N1 N2]. split; [done|]. split; [done|]. unfold odr_element in He. destruct (map_res _ _); [|done]. simpl in He. injection He as <-. by eexists _, _.
  Qed.

  (** ** C53: a network *)
  (** Whatever the form: a reader of the file finds the network, if its strings have no control characters. *)
  Theorem C53_file date h d filename pretty_ fs e : reachable h → exists_in h_odr h d → (∀ k r, (k, r) ∈ od_roads (h_odr h !!! d) → well_classed h r) →
    directed_links h d → odr_element date h d = Ok e → all_values plain_char e →
    ∃ t, wrote fs (written_to h d filename) t (write_xml date h d filename pretty_ fs) ∧ (read_document t ≫= read_network) = Some (network_content date h d).
  Proof.
    intros Hr Hd Hw Hk He Hp. destruct (network_named date h d e Hr Hd Hk He) as (H1 & H2 & a & cs & ->).
    destruct (C40_read date h d Hr Hd Hw) as (e' & He' & Hread). rewrite He in He'. injection He' as <-.
    unfold write_xml. rewrite He. unfold print_to_file. destruct pretty_.
    - rewrite rough_read //; [by apply plain_xml|]. rewrite (tagged_children _ a cs H2). eexists. split; [apply put_wrote|].
      rewrite to_pretty_read //; [by apply plain_xml|]. rewrite spaced_values_plain //.
    - eexists. split; [apply put_wrote|]. rewrite tree_write_read //; [by apply plain_xml|]. rewrite (tagged_children _ a cs H2) //.
  Qed.
  (** The plain form keeps tabs, newlines and returns too. *)
  Theorem C53_plain_file date h d filename fs e : reachable h → exists_in h_odr h d → (∀ k r, (k, r) ∈ od_roads (h_odr h !!! d) → well_classed h r) →
    directed_links h d → odr_element date h d = Ok e → all_values xml_char e →
    ∃ t, wrote fs (written_to h d filename) t (write_xml date h d filename false fs) ∧ (read_document t ≫= read_network) = Some (network_content date h d).
  Proof.
    intros Hr Hd Hw Hk He Hp. destruct (network_named date h d e Hr Hd Hk He) as (H1 & H2 & a & cs & ->).
    destruct (C40_read date h d Hr Hd Hw) as (e' & He' & Hread). rewrite He in He'. injection He' as <-.
    unfold write_xml. rewrite He. unfold print_to_file. eexists. split; [apply put_wrote|]. rewrite tree_write_read // (tagged_children _ a cs H2) //.
  Qed.
  (** So networks with different content give different files. *)
  Theorem C53_different_files date1 date2 h1 h2 d1 d2 f1 f2 p1 p2 fs1 fs2 e1 e2 t : reachable h1 → exists_in h_odr h1 d1 → (∀ k r, (k, r) ∈ od_roads (h_odr h1 !!! d1) → well_classed h1 r) →
    directed_links h1 d1 → odr_element date1 h1 d1 = Ok e1 → all_values plain_char e1 →
    reachable h2 → exists_in h_odr h2 d2 → (∀ k r, (k, r) ∈ od_roads (h_odr h2 !!! d2) → well_classed h2 r) →
    directed_links h2 d2 → odr_element date2 h2 d2 = Ok e2 → all_values plain_char e2 →
    wrote fs1 (written_to h1 d1 f1) t (write_xml date1 h1 d1 f1 p1 fs1) → wrote fs2 (written_to h2 d2 f2) t (write_xml date2 h2 d2 f2 p2 fs2) →
    network_content date1 h1 d1 = network_content date2 h2 d2.
  Proof.
    intros A1 A2 A3 A4 A5 A6 B1 B2 B3 B4 B5 B6 (x1 & E1 & G1 & _) (x2 & E2 & G2 & _).
    destruct (C53_file date1 h1 d1 f1 p1 fs1 e1 A1 A2 A3 A4 A5 A6) as (t1 & (y1 & E1' & G1' & _) & R1).
    destruct (C53_file date2 h2 d2 f2 p2 fs2 e2 B1 B2 B3 B4 B5 B6) as (t2 & (y2 & E2' & G2' & _) & R2).
    rewrite E1 in E1'. injection E1' as <-. rewrite E2 in E2'. injection E2' as <-. rewrite G1 in G1'. injection G1' as <-. rewrite G2 in G2'. injection G2' as <-.
    rewrite R1 in R2. by apply (inj Some) in R2.
  Qed.

  (** ** C54: when writing fails *)
  Theorem C54_pretty date h d filename fs e : reachable h → exists_in h_odr h d → directed_links h d → odr_element date h d = Ok e →
    (all_values xml_char e → ∃ t, wrote fs (written_to h d filename) t (write_xml date h d filename true fs) ∧ prettyprint e = Some t) ∧
    (¬ all_values xml_char e → write_xml date h d filename true fs = RaisedExpatError).
  Proof.
    intros Hr Hd Hk He. destruct (network_named date h d e Hr Hd Hk He) as (H1 & H2 & a & cs & ->).
    unfold write_xml. rewrite He. unfold print_to_file, prettyprint. split; intros H.
    - rewrite rough_read // serialize_read //. eexists. split; [apply put_wrote|done].
    - rewrite rough_illegal //.
  Qed.
  Theorem C54_plain date h d filename fs e : reachable h → exists_in h_odr h d → directed_links h d → odr_element date h d = Ok e → ¬ all_values xml_char e →
    ∃ t, wrote fs (written_to h d filename) t (write_xml date h d filename false fs) ∧ read_document t = None.
  Proof.
    intros Hr Hd Hk He H. destruct (network_named date h d e Hr Hd Hk He) as (H1 & H2 & _).
    unfold write_xml. rewrite He. eexists. split; [apply put_wrote|]. by apply tree_write_illegal.
  Qed.
  (** In a state where a lane of a section has no id (which no history of calls reaches, but an assignment to the field would give),
      writing raises a ValueError, and so writes nothing. *)
  Theorem C54_raises date h d filename pretty_ fs : (∃ l, l ∈ network_lanes h d ∧ ¬ has_id h l) → write_xml date h d filename pretty_ fs = Raised ValueError.
  Proof. intros H. unfold write_xml. rewrite (proj2 (C41_network date h d) H) //. Qed.
  (** the library raises no exception of its own *)
  Theorem C54_no_other date h d filename pretty_ fs x : reachable h → exists_in h_odr h d → write_xml date h d filename pretty_ fs ≠ Raised x.
  Proof.
    intros Hr Hd. destruct (C41_reachable date h d Hr Hd) as [e He]. unfold write_xml. rewrite He. by destruct (print_to_file _ _ _ _).
  Qed.
End Written.

Section Examples.
  Local Existing Instance QNum.
  (** tests for the hypotheses *)
  Fixpoint values_test (p : ascii → bool) (e : xml) : bool :=
    match e with Elem _ a cs => forallb (λ kv : string * string, forallb p (chars kv.2)) a && forallb (values_test p) cs end.
  Lemma values_tested p (P : ascii → Prop) e : (∀ c, p c = true → P c) → values_test p e = true → all_values P e.
  Proof.
    intros Hp. induction e as [t a cs IH] using xml_induction. unfold all_values. rewrite every_children. cbn [values_test]. rewrite andb_true_iff !forallb_forall. intros [H1 H2]. split.
    - intros k v Hkv c Hc. apply elem_of_list_In in Hkv. specialize (H1 _ Hkv). simpl in H1. rewrite forallb_forall in H1. by apply Hp, H1, elem_of_list_In.
    - rewrite Forall_forall in IH. apply Forall_forall. intros c Hc. apply (IH c Hc). by apply H2, elem_of_list_In.
  Qed.
  Definition plain_test (e : xml) : bool := values_test (λ c, 32 <=? code c) e.
  Lemma plain_tested e : plain_test e = true → all_values plain_char e.
  Proof. apply values_tested. intros c Hc. by apply Nat.leb_le. Qed.

  Definition q : string := str [quote].
  (* two linked roads; an OpenDrive with the given name, adjusted *)
  Definition named_network (name : string) : list (op Z) :=
    two_roads ++ [OpOpenDrive name; OpAddRoad 20 2; OpAddRoad 20 14; OpLaneAddLink 5 "successor" "-1"].
  Definition strange_name : string := "a<b & " +:+ q +:+ "c" +:+ q +:+ " > d; e".
  Lemma few_roads h : od_roads (h_odr h !!! 20) = [("1", 2); ("2", 14)] → rd_signals (h_road h !!! 2) = [] → rd_objects (h_road h !!! 2) = [] → rd_signals (h_road h !!! 14) = [] → rd_objects (h_road h !!! 14) = [] →
    ∀ k r, (k, r) ∈ od_roads (h_odr h !!! 20) → well_classed h r.
  Proof.
    intros E A1 A2 B1 B2 k r. rewrite E !elem_of_cons elem_of_nil. intros [[= -> ->]|[[= -> ->]|[]]]; (split; intros x; rewrite ?A1 ?A2 ?B1 ?B2; intros []%elem_of_nil).
  Qed.
  Definition directed_test (h : heap Z) (d : ref) : bool :=
    forallb (λ l, forallb (λ k, bool_decide (lk_type k = Some "predecessor") || bool_decide (lk_type k = Some "successor")) (ln_links (h_lane h !!! l))) (network_lanes h d).
  Lemma directed_tested h d : directed_test h d = true → directed_links h d.
  Proof.
    unfold directed_test. rewrite forallb_forall. intros H l k Hl Hk. apply elem_of_list_In in Hl. specialize (H l Hl). rewrite forallb_forall in H. apply elem_of_list_In in Hk. specialize (H k Hk).
    apply orb_true_iff in H as [H|H]; apply bool_decide_eq_true in H; [by left|by right].
  Qed.
  (** the hypotheses of C53_file hold for a network with a strange name ... *)
  Example C53_example_hypotheses : let h := run heap_init (named_network strange_name) in reachable h ∧ exists_in h_odr h 20 ∧
    (∀ k r, (k, r) ∈ od_roads (h_odr h !!! 20) → well_classed h r) ∧ directed_links h 20 ∧ (∃ l, l ∈ network_lanes h 20 ∧ ln_links (h_lane h !!! l) ≠ []) ∧
    ∃ e, odr_element "today" h 20 = Ok e ∧ all_values plain_char e.
  Proof.
    intros h. split; [by eexists|]. split; [eexists; vm_compute; reflexivity|]. split.
    { apply few_roads; vm_compute; reflexivity. }
    split; [apply directed_tested; vm_compute; reflexivity|]. split.
    { exists 5. split; [apply (bool_decide_unpack _); vm_compute; exact I|]. vm_compute. discriminate. }
    eexists. split; [vm_compute; reflexivity|]. apply plain_tested. vm_compute. reflexivity.
  Qed.
  (** ... and both forms of its file are read back *)
  Example C53_example : let h := run heap_init (named_network strange_name) in
    match write_xml "today" h 20 None true [], write_xml "today" h 20 (Some "x") false [("y", chars "other")] with
    | Written [(n1, t1)], Written [_; (n2, t2)] =>
      n1 = strange_name +:+ ".xodr" ∧ n2 = "x" ∧ t1 ≠ t2 ∧ (read_document t1 ≫= read_network) = Some (network_content "today" h 20) ∧
      (read_document t2 ≫= read_network) = Some (network_content "today" h 20)
    | _, _ => False end.
  Proof. vm_compute. split_and!; [reflexivity..|discriminate|reflexivity|reflexivity]. Qed.
  (** a newline in a name: the plain form keeps it, the pretty form does not *)
  Definition broken_name : string := "a" +:+ str [newline] +:+ "b".
  Theorem C53_refuted_newline : let h := run heap_init (named_network broken_name) in
    match write_xml "today" h 20 (Some "x") true [], write_xml "today" h 20 (Some "x") false [] with
    | Written [(_, t1)], Written [(_, t2)] =>
      (read_document t1 ≫= read_network) = Some (network_content "today" (run heap_init (named_network "a b")) 20) ∧ (read_document t2 ≫= read_network) = Some (network_content "today" h 20)
    | _, _ => False end.
  Proof. vm_compute. split; reflexivity. Qed.
  (** a control character: no file, or one that cannot be read *)
  Definition control_name : string := "a" +:+ str [ascii_of_nat 1].
  Example C54_example : let h := run heap_init (named_network control_name) in reachable h ∧ exists_in h_odr h 20 ∧ directed_links h 20 ∧
    (∃ e, odr_element "today" h 20 = Ok e ∧ ¬ all_values xml_char e) ∧
    write_xml "today" h 20 (Some "x") true [] = RaisedExpatError ∧
    match write_xml "today" h 20 (Some "x") false [] with Written [(_, t)] => read_document t = None | _ => False end.
  Proof.
    intros h. split; [by eexists|]. split; [eexists; vm_compute; reflexivity|]. split; [apply directed_tested; vm_compute; reflexivity|]. split.
    { eexists. split; [vm_compute; reflexivity|]. intros [_ [[H _] _]]. specialize (H "name" control_name). 
      destruct (H ltac:(apply elem_of_list_here) (ascii_of_nat 1)) as [X|[X|[X|X]]]; [vm_compute; apply elem_of_list_further, elem_of_list_here|vm_compute in X; lia|discriminate X..]. }
    split; vm_compute; reflexivity.
  Qed.
  (** the network above, but with the id of a lane removed *)
  Example C54_raises_example : let h0 := run heap_init (named_network "net") in
    let h := h0 <| h_lane := <[5 := (h_lane h0 !!! 5) <| ln_id := None |>]> (h_lane h0) |> in
    (∃ l, l ∈ network_lanes h 20 ∧ ¬ has_id h l) ∧ write_xml "today" h 20 None true [] = Raised ValueError.
  Proof.
    intros h0 h. split; [|vm_compute; reflexivity]. exists 5. split; [apply (bool_decide_unpack _); vm_compute; exact I|].
    apply eq_None_not_Some. vm_compute. reflexivity.
  Qed.
  (** A lane link that names neither predecessor nor successor is lost.  [create_lane_links] makes such links between two connecting
      roads of which only one names the other. *)
  Definition odd_roads : list (op Z) := road_ops 0 (PInt 1) 5 [(1, 1)] ++ road_ops 7 (PInt 2) 5 [(1, 1)] ++
    [OpAddPredecessor 2 (Some et_road) (PInt 8) (Some cp_end) 0; OpAddSuccessor 2 (Some et_road) (PInt 9) (Some cp_start) 0; OpAddPredecessor 9 (Some et_road) (PInt 1) (Some cp_end) 0; OpAddSuccessor 9 (Some et_road) (PInt 9) (Some cp_start) 0;
     OpOpenDrive "net"; OpAddRoad 14 2; OpAddRoad 14 9; OpCreateLaneLinks 2 9].
  Theorem C53_refuted_link : let h := run heap_init odd_roads in
    map lk_type (ln_links (h_lane h !!! 6)) = [None] ∧
    match write_xml "today" h 14 None false [] with
    | Written [(_, t)] => (read_document t ≫= read_network) ≠ Some (network_content "today" h 14)
    | _ => False end.
  Proof. vm_compute. split; [reflexivity|]. discriminate. Qed.
End Examples.

Print Assumptions C53_plain_tree.
Print Assumptions C53_pretty_tree.
Print Assumptions C53_file.
Print Assumptions C53_plain_file.
Print Assumptions C53_different_files.
Print Assumptions C54_pretty.
Print Assumptions C54_plain.
Print Assumptions C54_raises.
Print Assumptions C54_no_other.
