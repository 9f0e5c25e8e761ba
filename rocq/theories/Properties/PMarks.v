(** * C37, C38: road marks and the written form of enumerations *)
From Coq Require Import ssreflect.
From Verif.Model Require Import Api Xml.
From Verif.Inst Require Import Quarter.
From Verif.Spec Require Import SpecEnums.
From Verif.Proof Require Import DictFacts.
Local Open Scope general_if_scope.
Local Open Scope nat_scope.

(** ** C37 *)
Section Marks.
  Context {F : Type} `{!Num F}.

  (** a value that was given and is not zero *)
  Definition meaningful (o : option F) : Prop := ∃ v, o = Some v ∧ fiszero v = false.
  (** a given non-zero value, or else the default *)
  Definition or_default (o : option F) (d : F) : F := match o with Some v => if fiszero v then d else v | None => d end.
  (** the length and the space of a line by default *)
  Definition default_length (ty : RoadMarkType) : F := match ty with rmt_broken | rmt_solid => fofZ 3 | _ => fofZ 0 end.
  Definition default_space (ty : RoadMarkType) : F := match ty with rmt_broken => fofZ 3 | _ => fofZ 0 end.

  Lemma truthy_meaningful o : ftruthy_opt o = true ↔ meaningful o.
  Proof.
    destruct o as [v|]; simpl; split; try done.
    - unfold ftruthy. intros H. exists v. split; [done|by apply negb_true_iff].
    - intros (w & [= <-] & H). unfold ftruthy. by rewrite H.
    - intros (w & H & _). done.
  Qed.
  Lemma f_or_default o d : f_or o d = or_default o d.
  Proof. destruct o as [v|]; simpl; [|done]. unfold ftruthy. by destruct (fiszero v). Qed.

  Context (ty : RoadMarkType) (width len space toffset : option F) (soffset : F) (rule : option MarkRule)
    (color : RoadMarkColor) (weight : RoadMarkWeight) (height : F) (laneChange : option LaneChange).
  Let e : xml := roadmark_element (roadmark_ctor ty width len space toffset soffset rule color weight height laneChange).
  Let wants_line : Prop := meaningful len ∨ meaningful space ∨ meaningful toffset ∨ is_Some rule.

  Lemma wants_line_spec : (ftruthy_opt len || ftruthy_opt space || ftruthy_opt toffset || bool_decide (is_Some rule)) = true ↔ wants_line.
  Proof. rewrite !orb_true_iff !truthy_meaningful bool_decide_eq_true. unfold wants_line. tauto. Qed.

  (** the attributes of the mark itself *)
  Theorem C37_attributes : xtag e = Some "roadMark" ∧
    dict_get (xattrs e) "sOffset" = Some (fstr soffset) ∧ dict_get (xattrs e) "type" = Some (enum2str (RoadMarkType_name ty)) ∧
    dict_get (xattrs e) "weight" = Some (enum2str (RoadMarkWeight_name weight)) ∧ dict_get (xattrs e) "color" = Some (enum2str (RoadMarkColor_name color)) ∧
    dict_get (xattrs e) "height" = Some (fstr height) ∧ dict_get (xattrs e) "laneChange" = enum2str ∘ LaneChange_name <$> laneChange ∧
    (wants_line → dict_get (xattrs e) "width" = Some (fstr (or_default width (fdec 2 1)))) ∧
    (¬ wants_line → dict_get (xattrs e) "width" = fstr <$> width).
  Proof.
    unfold e, roadmark_ctor. pose proof wants_line_spec as W. destruct (ftruthy_opt len || ftruthy_opt space || ftruthy_opt toffset || bool_decide (is_Some rule)) eqn:E.
    - assert (wants_line) by (by apply W). destruct ty; (destruct laneChange; split_and!; try (intros; rewrite -?f_or_default; reflexivity); try done).
    - assert (¬ wants_line). { intros H. apply W in H. done. }
      destruct laneChange, width; split_and!; try (intros; reflexivity); try done.
  Qed.
  (** a line is written exactly when it is asked for *)
  Theorem C37_line_iff : xchildren e ≠ [] ↔ wants_line.
  Proof.
    rewrite -wants_line_spec. unfold e, roadmark_ctor. destruct (ftruthy_opt len || ftruthy_opt space || ftruthy_opt toffset || bool_decide (is_Some rule)) eqn:E.
    - split; [done|]. intros _. destruct ty; done.
    - split; [intros H|done]. by destruct H.
  Qed.
  (** its values are the given ones, or the defaults.  Deviation: the space of a mark that is neither broken nor solid is its length *)
  Theorem C37_line : wants_line → ∃ l, xchildren e = [elem "type" [("name", enum2str (RoadMarkType_name ty)); ("width", fstr (or_default width (fdec 2 1)))] [l]] ∧
    xtag l = Some "line" ∧ xchildren l = [] ∧
    dict_get (xattrs l) "length" = Some (fstr (or_default len (default_length ty))) ∧
    dict_get (xattrs l) "space" = Some (fstr match ty with rmt_broken | rmt_solid => or_default space (default_space ty) | _ => or_default len (fofZ 0) end) ∧
    dict_get (xattrs l) "tOffset" = Some (fstr (or_default toffset (fofZ 0))) ∧
    dict_get (xattrs l) "width" = Some (fstr (or_default width (fdec 2 1))) ∧
    dict_get (xattrs l) "sOffset" = Some (fstr soffset) ∧
    dict_get (xattrs l) "rule" = Some (enum2str (MarkRule_name match rule with Some r => r | None => mr_none end)).
  Proof.
    intros W%wants_line_spec. unfold e, roadmark_ctor. rewrite W -!f_or_default. destruct ty; (eexists; split; [reflexivity|]; split_and!; reflexivity).
  Qed.
End Marks.

Section MarkExamples.
  Local Existing Instance QNum.
  Example C37_example : let e := roadmark_element (roadmark_ctor rmt_broken None (Some 5%Z) None None 0%Z None col_white wgt_bold 1%Z None) in
    map (λ t, map xattrs (xchildren t)) (xchildren e) = [[[("length", "5"); ("space", "3"); ("tOffset", "0"); ("width", "2"); ("sOffset", "0"); ("rule", "none")]]].
  Proof. vm_compute. reflexivity. Qed.
  (** C37 is false for other types: the given space 5 is not written *)
  Theorem C37_refuted_space : let e := roadmark_element (roadmark_ctor rmt_solid_solid None None (Some 5%Z) None 0%Z None col_white wgt_bold 1%Z None) in
    map (λ t, map (λ l, dict_get (xattrs l) "space") (xchildren t)) (xchildren e) = [[Some "0"]].
  Proof. vm_compute. reflexivity. Qed.
  (** ... and an explicit zero is replaced by the default: a solid line given with length 0 and space 4 *)
  Theorem C37_refuted_zero : let e := roadmark_element (roadmark_ctor rmt_solid None (Some 0%Z) (Some 4%Z) None 0%Z None col_white wgt_bold 1%Z None) in
    map (λ t, map (λ l, (dict_get (xattrs l) "length", dict_get (xattrs l) "space")) (xchildren t)) (xchildren e) = [[(Some "3", Some "4")]].
  Proof. vm_compute. reflexivity. Qed.
End MarkExamples.

(** ** C38 *)
(** different members are written differently, and without underscore *)
Definition written_apart {A} (name : A → string) : Prop :=
  (∀ a b, enum2str (name a) = enum2str (name b) → a = b) ∧ ∀ a i, String.get i (enum2str (name a)) ≠ Some "_"%char.
Lemma no_underscore s i : String.get i (enum2str s) ≠ Some "_"%char.
Proof.
  revert i. unfold enum2str. induction s as [|c s IH]; intros i; simpl; [by destruct i|]. destruct i as [|i]; [|apply IH].
  destruct (Ascii.eqb c "_"%char) eqn:E; [done|]. intros [= ->]. done.
Qed.
Ltac apart := split; [intros a b; destruct a, b; try reflexivity; intros H; discriminate H|intros a i; apply no_underscore].
Theorem C38_names : written_apart MarkRule_name ∧ written_apart LaneType_name ∧ written_apart RoadMarkColor_name ∧ written_apart RoadMarkWeight_name ∧
  written_apart RoadMarkType_name ∧ written_apart LaneChange_name ∧ written_apart ElementType_name ∧ written_apart ContactPoint_name ∧
  written_apart Direction_name ∧ written_apart Orientation_name ∧ written_apart ObjectType_name ∧ written_apart Dynamic_name ∧ written_apart RoadSide_name.
Proof. split_and!; apart. Qed.

(** each member is written as its word in the OpenDRIVE format *)
Theorem C38_words : (∀ x, enum2str (MarkRule_name x) = rule_word x) ∧ (∀ x, enum2str (LaneType_name x) = lane_word x) ∧
  (∀ x, enum2str (RoadMarkColor_name x) = color_word x) ∧ (∀ x, enum2str (RoadMarkWeight_name x) = weight_word x) ∧
  (∀ x, enum2str (RoadMarkType_name x) = mark_word x) ∧ (∀ x, enum2str (LaneChange_name x) = change_word x) ∧
  (∀ x, enum2str (ElementType_name x) = element_word x) ∧ (∀ x, enum2str (ContactPoint_name x) = contact_word x) ∧
  (∀ x, enum2str (Direction_name x) = direction_word x) ∧ (∀ x, enum2str (ObjectType_name x) = object_word x) ∧
  (∀ x, enum2str (Dynamic_name x) = dynamic_word x).
Proof. split_and!; intros x; by destruct x. Qed.

(** the elements that are written tell the members apart *)
Section Elements.
  Context {F : Type} `{!Num F}.
  Lemma mark_attrs (m : roadmark F) :
    dict_get (xattrs (roadmark_element m)) "type" = Some (enum2str (RoadMarkType_name (rm_type m))) ∧
    dict_get (xattrs (roadmark_element m)) "weight" = Some (enum2str (RoadMarkWeight_name (rm_weight m))) ∧
    dict_get (xattrs (roadmark_element m)) "color" = Some (enum2str (RoadMarkColor_name (rm_color m))) ∧
    dict_get (xattrs (roadmark_element m)) "laneChange" = enum2str ∘ LaneChange_name <$> rm_laneChange m.
  Proof. destruct m as [????? [] []]; done. Qed.
  Theorem C38_roadmark (m1 m2 : roadmark F) : roadmark_element m1 = roadmark_element m2 →
    rm_type m1 = rm_type m2 ∧ rm_weight m1 = rm_weight m2 ∧ rm_color m1 = rm_color m2 ∧ rm_laneChange m1 = rm_laneChange m2 ∧
    (rl_rule <$> rm_line m1) = (rl_rule <$> rm_line m2).
  Proof.
    intros E. destruct C38_names as ([H1 _] & _ & [H2 _] & [H3 _] & [H4 _] & [H5 _] & _).
    destruct (mark_attrs m1) as (A1 & A2 & A3 & A4), (mark_attrs m2) as (B1 & B2 & B3 & B4). rewrite E in A1 A2 A3 A4.
    split_and!.
    - apply H4. congruence.
    - apply H3. congruence.
    - apply H2. congruence.
    - rewrite A4 in B4. destruct (rm_laneChange m1), (rm_laneChange m2); try done. simpl in B4. injection B4 as B4. f_equal. by apply H5.
    - assert (R : ∀ l : roadline F, dict_get (xattrs (roadline_element l)) "rule" = enum2str ∘ MarkRule_name <$> rl_rule l) by (intros l; simpl; by destruct (rl_rule l)).
      pose proof (f_equal (λ e, match xchildren e with [t] => match xchildren t with [l] => dict_get (xattrs l) "rule" | _ => None end | _ => None end) E) as R1.
      unfold roadmark_element, elem in R1. cbn [xchildren] in R1. apply (f_equal (λ e, length (xchildren e))) in E. unfold roadmark_element, elem in E. cbn [xchildren] in E.
      destruct (rm_line m1) as [l1|], (rm_line m2) as [l2|]; try done. cbn [xchildren] in R1. rewrite !R in R1. simpl. f_equal.
      destruct (rl_rule l1) as [r1|], (rl_rule l2) as [r2|]; try done. simpl in R1. injection R1 as R1. f_equal. by apply H1.
  Qed.
  Theorem C38_lane (o1 o2 : lane F) e : lane_element o1 = Ok e → lane_element o2 = Ok e → ln_type o1 = ln_type o2.
  Proof.
    unfold lane_element. intros E1 E2. destruct (ln_id o1), (ln_id o2); try done. injection E1 as <-. unfold elem in E2. injection E2 as E2 E3 _. 
    destruct C38_names as (_ & [HH _] & _). by apply HH.
  Qed.
  Theorem C38_link (k1 k2 : link) : link_element k1 = link_element k2 → lk_etype k1 = lk_etype k2 ∧ lk_contact k1 = lk_contact k2.
  Proof.
    assert (A : ∀ k, dict_get (xattrs (link_element k)) "elementType" = enum2str ∘ ElementType_name <$> lk_etype k).
    { intros k. simpl. unfold link_attributes. destruct (lk_etype k), (lk_contact k), (lk_dir k); try done; simpl; by case_bool_decide. }
    assert (B : ∀ k, dict_get (xattrs (link_element k)) "contactPoint" = enum2str ∘ ContactPoint_name <$> lk_contact k).
    { intros k. simpl. unfold link_attributes. destruct (lk_etype k), (lk_contact k), (lk_dir k); try done; simpl; by case_bool_decide. }
    intros E. destruct C38_names as (_ & _ & _ & _ & _ & _ & [H1 _] & [H2 _] & _). split.
    - pose proof (A k1) as A1. rewrite E A in A1. destruct (lk_etype k1), (lk_etype k2); try done. simpl in A1. injection A1 as A1. f_equal. symmetry. by apply H1.
    - pose proof (B k1) as A1. rewrite E B in A1. destruct (lk_contact k1), (lk_contact k2); try done. simpl in A1. injection A1 as A1. f_equal. symmetry. by apply H2.
  Qed.
  (** the direction of a neighbor *)
  Theorem C38_neighbor (k1 k2 : link) : link_element k1 = link_element k2 → lk_type k1 = Some "neighbor" → lk_contact k1 = None → lk_dir k1 = lk_dir k2.
  Proof.
    intros E T C. destruct (C38_link k1 k2 E) as [_ C2]. rewrite C in C2. 
    assert (T2 : lk_type k2 = Some "neighbor"). { unfold link_element in E. injection E as E _. congruence. }
    assert (A : ∀ k, lk_type k = Some "neighbor" → lk_contact k = None → dict_get (xattrs (link_element k)) "direction" = enum2str ∘ Direction_name <$> lk_dir k).
    { intros k Tk Ck. simpl. unfold link_attributes. rewrite Ck Tk. destruct (lk_etype k), (lk_dir k); simpl; by rewrite ?bool_decide_true. }
    pose proof (A k1 T C) as A1. rewrite E (A k2 T2 (eq_sym C2)) in A1. destruct C38_names as (_ & _ & _ & _ & _ & _ & _ & _ & [H _] & _).
    destruct (lk_dir k1), (lk_dir k2); try done. simpl in A1. injection A1 as A1. f_equal. symmetry. by apply H.
  Qed.
  Theorem C38_object (o1 o2 : sobj F) : sobj_element o1 = sobj_element o2 → so_class o1 = so_class o2 ∧ so_dynamic o1 = so_dynamic o2 ∧ so_orientation o1 = so_orientation o2 ∧
    ∀ t1 t2, so_type o1 = inl t1 → so_type o2 = inl t2 → t1 = t2.
  Proof.
    assert (A : ∀ o, dict_get (xattrs (sobj_element o)) "dynamic" = Some (enum2str (Dynamic_name (so_dynamic o))) ∧
      dict_get (xattrs (sobj_element o)) "orientation" = Some (match so_orientation o with or_positive => "+" | or_negative => "-" | or_none => "none" end) ∧
      ∀ t, so_type o = inl t → dict_get (xattrs (sobj_element o)) "type" = Some (match so_class o with CSignal => "ObjectType." +:+ ObjectType_name t | CObject => enum2str (ObjectType_name t) end)).
    { intros o. unfold sobj_element, signal_attributes, object_attributes, common_attributes.
      destruct (so_class o); simpl xattrs.
      - destruct (ftruthy (so_pitch o)), (ftruthy (so_roll o)), (so_width o), (so_height o), (so_name o), (ftruthy (so_hoffset o)), (so_value o), (so_orientation o); split_and!; try reflexivity; intros t ->; reflexivity.
      - destruct (ftruthy (so_pitch o)), (ftruthy (so_roll o)), (so_width o), (so_height o), (so_name o), (so_validLength o), (so_radius o), (so_length o), (so_orientation o); split_and!; try reflexivity; intros t ->; reflexivity. }
    intros E. assert (Ec : so_class o1 = so_class o2). { unfold sobj_element, elem in E. destruct (so_class o1), (so_class o2); try done. }
    destruct (A o1) as (A1 & A2 & A3), (A o2) as (B1 & B2 & B3). rewrite E in A1 A2 A3.
    destruct C38_names as (_ & _ & _ & _ & _ & _ & _ & _ & _ & _ & [H2 _] & [H1 _] & _). split_and!; [done| | |].
    - apply H1. congruence.
    - rewrite A2 in B2. destruct (so_orientation o1), (so_orientation o2); done.
    - intros t1 t2 T1 T2. specialize (A3 _ T1). specialize (B3 _ T2). rewrite A3 -Ec in B3. destruct (so_class o1); injection B3 as B3.
      + destruct t1, t2; try reflexivity; discriminate B3.
      + by apply H2.
  Qed.
End Elements.

Print Assumptions C37_attributes.
Print Assumptions C37_line_iff.
Print Assumptions C37_line.
Print Assumptions C38_names.
Print Assumptions C38_words.
Print Assumptions C38_object.
