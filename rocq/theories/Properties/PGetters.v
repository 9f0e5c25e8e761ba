(** * C61: the link getters *)
From Coq Require Import ssreflect.
From Verif.Model Require Import Api.
From Verif.Inst Require Import Quarter.
From Verif.Spec Require Import SpecState SpecHistory SpecLanes SpecKeeps SpecGetters.
From Verif.Proof Require Import Monad Reach Steps History Invariants KeepFacts.
From Verif.Properties Require Import PHistory PLaneLinks.
Local Open Scope general_if_scope.

Section Loop.
  Context {A : Type}.
  Lemma loop_app kind (f : link → option A) ls ls' acc :
    foldl (λ r l, if bool_decide (lk_type l = Some kind) then f l else r) acc (ls ++ ls') =
    foldl (λ r l, if bool_decide (lk_type l = Some kind) then f l else r) (foldl (λ r l, if bool_decide (lk_type l = Some kind) then f l else r) acc ls) ls'.
  Proof. apply foldl_app. Qed.
  Lemma loop_none kind (f : link → option A) ls acc : no_link kind ls →
    foldl (λ r l, if bool_decide (lk_type l = Some kind) then f l else r) acc ls = acc.
  Proof.
    revert acc. induction ls as [|l ls IH]; intros acc H; [done|]. simpl. rewrite bool_decide_eq_false_2; [apply H; by left|].
    apply IH. intros k Hk. apply H. by right.
  Qed.
  Lemma loop_last kind (f : link → option A) ls l : last_link kind ls l → links_loop kind f ls = f l.
  Proof.
    intros (Hl & b & a & -> & Ha). unfold links_loop. rewrite !foldl_app. simpl. rewrite bool_decide_eq_true_2 //. by apply loop_none.
  Qed.
  Lemma loop_no kind (f : link → option A) ls : no_link kind ls → links_loop kind f ls = None.
  Proof. apply loop_none. Qed.
  Lemma loop_snoc_other kind (f : link → option A) ls l : lk_type l ≠ Some kind → links_loop kind f (ls ++ [l]) = links_loop kind f ls.
  Proof. intros H. unfold links_loop. rewrite foldl_app. simpl. by rewrite bool_decide_eq_false_2. Qed.
End Loop.
Lemma last_snoc kind ls l : lk_type l = Some kind → last_link kind (ls ++ [l]) l.
Proof. intros H. split; [done|]. exists ls, []. split; [by rewrite app_nil_r|]. by intros k ?%elem_of_nil. Qed.

(** For any list of links: the getters report the last link of their kind, and None if there is none. *)
Theorem C61_last ls l :
  (last_link "predecessor" ls l → reports_predecessor ls (Some (lk_id l)) (lk_etype l) (lk_contact l)) ∧
  (last_link "successor" ls l → reports_successor ls (Some (lk_id l)) (lk_etype l) (lk_contact l)).
Proof. split; intros H; split_and!; exact (loop_last _ _ ls l H). Qed.
Theorem C61_none ls :
  (no_link "predecessor" ls → reports_predecessor ls None None None) ∧ (no_link "successor" ls → reports_successor ls None None None).
Proof. split; intros H; split_and!; exact (loop_no _ _ ls H). Qed.

Lemma succ_snoc ls l : lk_type l = Some "successor" → get_successor_id (ls ++ [l]) = Some (lk_id l) ∧ get_predecessor_id (ls ++ [l]) = get_predecessor_id ls.
Proof. intros H. split; [by apply C61_last, last_snoc|]. apply loop_snoc_other. by rewrite H. Qed.
Lemma pred_snoc ls l : lk_type l = Some "predecessor" → get_predecessor_id (ls ++ [l]) = Some (lk_id l) ∧ get_successor_id (ls ++ [l]) = get_successor_id ls.
Proof. intros H. split; [by apply C61_last, last_snoc|]. apply loop_snoc_other. by rewrite H. Qed.
Section Getters.
  Context {F : Type} `{!Num F}.
  Implicit Types (h : heap F).
  Lemma reach_step h x v h' : reachable h → step x h = (v, h') → reachable h'.
  Proof. intros Hr E. replace h' with (run h [x]); [by apply run_reachable|]. change (run h [x]) with (step x h).2. by rewrite E. Qed.

  Lemma of_single kind (o : road) l : links_of kind o = [l] → last_link kind (rd_links o) l.
  Proof.
    unfold links_of. intros H. assert (l ∈ filter (λ l, lk_type l = Some kind) (rd_links o)) as [Hl Hin]%elem_of_list_filter by (rewrite H; by left).
    split; [done|]. apply elem_of_list_split in Hin as (b & a & E). exists b, a. split; [done|].
    intros k Hk Hkt. rewrite E filter_app filter_cons_True // in H.
    assert (Hf : k ∈ filter (λ l, lk_type l = Some kind) a) by by apply elem_of_list_filter.
    apply (f_equal length) in H. rewrite app_length in H. simpl in H. destruct (filter _ a); [by apply elem_of_nil in Hf|]. simpl in H. lia.
  Qed.
  Lemma of_nil kind (o : road) : links_of kind o = [] → no_link kind (rd_links o).
  Proof.
    unfold links_of. intros H k Hk Hkt. assert (k ∈ filter (λ l, lk_type l = Some kind) (rd_links o)) as Hf by by apply elem_of_list_filter.
    rewrite H in Hf. by apply elem_of_nil in Hf.
  Qed.
  Lemma reports_succ (o : road) (l : option link) : links_of "successor" o = option_list l →
    reports_successor (rd_links o) (lk_id <$> l) (l ≫= lk_etype) (l ≫= lk_contact).
  Proof. destruct l as [l|]; intros H; [by apply C61_last, of_single|by apply C61_none, of_nil]. Qed.
  Lemma reports_pred (o : road) (l : option link) : links_of "predecessor" o = option_list l →
    reports_predecessor (rd_links o) (lk_id <$> l) (l ≫= lk_etype) (l ≫= lk_contact).
  Proof. destruct l as [l|]; intros H; [by apply C61_last, of_single|by apply C61_none, of_nil]. Qed.

  (** In every reachable state the getters of a road's links agree with its attributes [successor] and [predecessor]. *)
  Theorem C61_road h r o : reachable h → h_road h !! r = Some o →
    reports_successor (rd_links o) (lk_id <$> rd_succ o) (rd_succ o ≫= lk_etype) (rd_succ o ≫= lk_contact) ∧
    reports_predecessor (rd_links o) (lk_id <$> rd_pred o) (rd_pred o ≫= lk_etype) (rd_pred o ≫= lk_contact).
  Proof. intros Hr Ho. destruct (C21_history h r o Hr Ho) as (E1 & E2 & _). split; [by apply reports_succ|by apply reports_pred]. Qed.

  (** A successor that was added is what the getters report from then on, whatever happens later. *)
  Theorem C61_successor h r et id cp off h' os : reachable h → step (OpAddSuccessor r et id cp off) h = (Ok RNone, h') →
    ∃ o, h_road (run h' os) !! r = Some o ∧ reports_successor (rd_links o) (Some id) et cp.
  Proof.
    intros Hr E.
    assert (exists_in h_road h r) as [o Ho].
    { unfold step, guarded in E. destruct (has h_road r h) eqn:Eh; [|done]. by apply has_exists. }
    assert (Hr' : reachable h') by (eapply (reach_step _ _ _ _ Hr), E).
    destruct (decide (links_of "successor" o = [])) as [En|En].
    - destruct (C21_first_added h r o et id cp off Hr Ho) as [A _]. destruct (A En) as (o' & E' & Es & _). rewrite E' in E. injection E as Eh. subst h'.
      match goal with |- context [run ?x os] => set (h' := x) in * end.
      assert (Ho' : h_road h' !! r = Some o') by (simpl; apply lookup_insert).
      destruct (C21_forever h' r o' os Hr' Ho') as (o2 & Ho2 & S2 & _). exists o2. split; [done|].
      specialize (S2 ltac:(by rewrite Es)). rewrite Es in S2.
      apply (reports_succ o2 (Some (mkLink (Some "successor") id et cp None))). done.
    - destruct (C21_second_refused h r o et id cp off Hr Ho) as [A _]. rewrite (A En) in E. done.
  Qed.
  Theorem C61_predecessor h r et id cp off h' os : reachable h → step (OpAddPredecessor r et id cp off) h = (Ok RNone, h') →
    ∃ o, h_road (run h' os) !! r = Some o ∧ reports_predecessor (rd_links o) (Some id) et cp.
  Proof.
    intros Hr E.
    assert (exists_in h_road h r) as [o Ho].
    { unfold step, guarded in E. destruct (has h_road r h) eqn:Eh; [|done]. by apply has_exists. }
    assert (Hr' : reachable h') by (eapply (reach_step _ _ _ _ Hr), E).
    destruct (decide (links_of "predecessor" o = [])) as [En|En].
    - destruct (C21_first_added h r o et id cp off Hr Ho) as [_ A]. destruct (A En) as (o' & E' & Es & _). rewrite E' in E. injection E as Eh. subst h'.
      match goal with |- context [run ?x os] => set (h' := x) in * end.
      assert (Ho' : h_road h' !! r = Some o') by (simpl; apply lookup_insert).
      destruct (C21_forever h' r o' os Hr' Ho') as (o2 & Ho2 & _ & S2). exists o2. split; [done|].
      specialize (S2 ltac:(by rewrite Es)). rewrite Es in S2.
      apply (reports_pred o2 (Some (mkLink (Some "predecessor") id et cp None))). done.
    - destruct (C21_second_refused h r o et id cp off Hr Ho) as [_ A]. rewrite (A En) in E. done.
  Qed.

  Definition lane_pred h (l : ref) : option pyid := get_predecessor_id (ln_links (h_lane h !!! l)).
  Definition lane_succ h (l : ref) : option pyid := get_successor_id (ln_links (h_lane h !!! l)).

  (** A lane takes any number of links: the getter of the kind that was added last reports the new id (as a string), the other
      one, and the getters of the other lanes, report what they did. *)
  Theorem C61_lane_add h l id : exists_in h_lane h l →
    (∃ h', step (OpLaneAddLink l "successor" id) h = (Ok RNone, h') ∧ lane_succ h' l = Some (PStr id) ∧ lane_pred h' l = lane_pred h l ∧
       ∀ x, x ≠ l → lane_succ h' x = lane_succ h x ∧ lane_pred h' x = lane_pred h x) ∧
    (∃ h', step (OpLaneAddLink l "predecessor" id) h = (Ok RNone, h') ∧ lane_pred h' l = Some (PStr id) ∧ lane_succ h' l = lane_succ h l ∧
       ∀ x, x ≠ l → lane_succ h' x = lane_succ h x ∧ lane_pred h' x = lane_pred h x).
  Proof.
    intros Hl. split; (eexists; split; [unfold step; rewrite guarded_true ?has_true //; by apply as_unit_ok|]);
      unfold lane_succ, lane_pred; simpl; rewrite lookup_total_insert; simpl;
      [match goal with |- context [_ ++ [?k]] => destruct (succ_snoc (ln_links (h_lane h !!! l)) k eq_refl) as [-> ->] end
      |match goal with |- context [_ ++ [?k]] => destruct (pred_snoc (ln_links (h_lane h !!! l)) k eq_refl) as [-> ->] end];
      (split_and!; [done|done|]); intros x Hx; by rewrite !lookup_total_insert_ne.
  Qed.
  (** After two consecutive roads have been linked (C25) the getters of the lanes report the number of the lane they touch. *)
  Theorem C61_linked h r1 r2 o1 o2 s1 s2 s3 :
    h_road h !! r1 = Some o1 → h_road h !! r2 = Some o2 → follows o1 o2 → succ_id_not o2 o1 →
    last_section h o1 = Some s1 → first_section h o2 = Some s2 → last_section h o2 = Some s3 →
    exists_in h_sec h s1 → exists_in h_sec h s2 → numbered h s1 →
    lane_counts h s1 = lane_counts h s2 → lane_counts h s1 = lane_counts h s3 →
    NoDup (side_lanes h s1 ++ side_lanes h s2) →
    ∃ h', step (OpCreateLaneLinks r1 r2) h = (Ok RNone, h') ∧
      ∀ p a b, p ≠ Centre → lane_at h s1 p = Some a → lane_at h s2 p = Some b →
        lane_succ h' a = Some (PStr (pretty (lane_number p))) ∧ lane_pred h' b = Some (PStr (pretty (lane_number p))) ∧
        lane_pred h' a = lane_pred h a ∧ lane_succ h' b = lane_succ h b.
  Proof.
    intros Ho1 Ho2 Hf Hn P1 P2 P3 Hs1 Hs2 Hnum C12 C13 ND.
    destruct (C25_consecutive h r1 r2 o1 o2 s1 s2 s3 Ho1 Ho2 Hf Hn P1 P2 P3 Hs1 Hs2 Hnum C12 C13 ND) as (h' & E & _ & _ & L). exists h'. split; [exact E|]. clear E.
    intros p a b Hp Ha Hb. destruct (L p a b Hp Ha Hb) as [La Lb]. unfold lane_succ, lane_pred. rewrite La Lb. unfold with_link. simpl.
    destruct (succ_snoc (ln_links (h_lane h !!! a)) (lane_link "successor" (pretty (lane_number p))) eq_refl) as [-> ->].
    destruct (pred_snoc (ln_links (h_lane h !!! b)) (lane_link "predecessor" (pretty (lane_number p))) eq_refl) as [-> ->]. done.
  Qed.
End Getters.

Section Example.
  Local Existing Instance QNum.
  (** a lane given two successors and a predecessor; a road with both links and a neighbour *)
  Example C61_example : let h := run heap_init [OpLane lt_driving 3%Z 0%Z 0%Z 0%Z 0%Z; OpLaneAddLink 0 "successor" "1"; OpLaneAddLink 0 "predecessor" "-1";
      OpLaneAddLink 0 "successor" "2"] in
    lane_succ h 0 = Some (PStr "2") ∧ lane_pred h 0 = Some (PStr "-1").
  Proof. split; vm_compute; reflexivity. Qed.
  Example C61_example_road : let h := run heap_init [OpPlanView None None None; OpLanes; OpRoad (PInt 1) 0 1 (-1)%Z None None;
      OpAddNeighbor 2 (Some et_road) (PInt 9) (Some dir_same); OpAddSuccessor 2 (Some et_road) (PInt 7) (Some cp_end) 0%Z; OpAddSuccessor 2 (Some et_road) (PInt 8) (Some cp_end) 0%Z] in
    reports_successor (rd_links (h_road h !!! 2)) (Some (PInt 7)) (Some et_road) (Some cp_end) ∧ reports_predecessor (rd_links (h_road h !!! 2)) None None None.
  Proof. split; split_and!; vm_compute; reflexivity. Qed.
End Example.
Print Assumptions C61_successor.
Print Assumptions C61_linked.
