(** * C25 - C28: automatic lane linking ([create_lane_links]) *)
From Coq Require Import ssreflect.
From Verif.Model Require Import Api.
From Verif.Inst Require Import Quarter.
From Verif.Spec Require Import SpecState SpecHistory SpecLanes.
From Verif.Proof Require Import Monad DictFacts PlanViewFacts NetFrame Reach Steps History Invariants LinkerFacts LaneLinks Again.
From Verif.Properties Require Import PHistory.
Local Open Scope general_if_scope.

Section Links.
  Context {F : Type} `{!Num F}.
  Implicit Types (h : heap F) (o : road).

  Lemma follows_forward o1 o2 : follows o1 o2 → get_related_lanesection o1 o2 = Ok (Some "successor", Some 1%Z, Some (-1)%Z).
  Proof.
    intros (T1 & T2 & (L & E & _ & Hid & Hc) & _). unfold get_related_lanesection, related_base. rewrite E Hid Hc T2.
    rewrite bool_decide_true //.
  Qed.
  Lemma follows_back o1 o2 : follows o1 o2 → succ_id_not o2 o1 → ∃ sg, get_related_lanesection o2 o1 = Ok (Some "predecessor", Some sg, Some 0%Z).
  Proof.
    intros (T1 & T2 & _ & (L & E & _ & Hid)) Hn. unfold get_related_lanesection, related_base. rewrite E Hid T1.
    destruct (rd_succ o2) as [S|] eqn:ES; [rewrite (bool_decide_false (lk_id S = _)); [by apply Hn|]|];
      rewrite (bool_decide_true (rd_id o1 = _)) //; eauto.
  Qed.
  Lemma follows_dispatch r1 r2 o1 o2 h : h_road h !!! r1 = o1 → h_road h !!! r2 = o2 → follows o1 o2 → succ_id_not o2 o1 →
    create_lane_links r1 r2 h = create_links_roads r1 r2 h ∧ create_lane_links r2 r1 h = create_links_roads r1 r2 h.
  Proof.
    intros E1 E2 Hf Hn. destruct Hf as (T1 & T2 & (L & HL1 & HL2 & HL3 & HL4) & (P & HP1 & HP2 & HP3)).
    assert (C12 : are_roads_consecutive o1 o2 = true).
    { unfold are_roads_consecutive. rewrite HL1 HP1 HL2 HL3 HP2 HP3. by rewrite !bool_decide_true. }
    assert (C21 : are_roads_consecutive o2 o1 = false).
    { unfold are_roads_consecutive. destruct (rd_succ o2) as [S|] eqn:ES; [|done]. destruct (rd_pred o1); [|done].
      rewrite (bool_decide_false (lk_id S = _)); [by apply Hn|]. by rewrite andb_false_r. }
    unfold create_lane_links, get_road. rewrite !bind_gets E1 E2 T1 T2 C12 C21. done.
  Qed.

  (** ** C25: two consecutive roads
      [o2] follows [o1] and does not lead back to it; the touching sections [s1], [s2] (and the last section of the
      second road, see C26) have equal lane counts.  Each pair of lanes at the same place is linked in both directions,
      no other lane and nothing else changes, and the order of the arguments does not matter. *)
  Theorem C25_consecutive h r1 r2 o1 o2 s1 s2 s3 :
    h_road h !! r1 = Some o1 → h_road h !! r2 = Some o2 → follows o1 o2 → succ_id_not o2 o1 →
    last_section h o1 = Some s1 → first_section h o2 = Some s2 → last_section h o2 = Some s3 →
    exists_in h_sec h s1 → exists_in h_sec h s2 → numbered h s1 →
    lane_counts h s1 = lane_counts h s2 → lane_counts h s1 = lane_counts h s3 →
    NoDup (side_lanes h s1 ++ side_lanes h s2) →
    ∃ h', step (OpCreateLaneLinks r1 r2) h = (Ok RNone, h') ∧ step (OpCreateLaneLinks r2 r1) h = (Ok RNone, h') ∧
      only_lanes h (side_lanes h s1 ++ side_lanes h s2) h' ∧
      ∀ p a b, p ≠ Centre → lane_at h s1 p = Some a → lane_at h s2 p = Some b →
        h_lane h' !!! a = with_link (h_lane h !!! a) (lane_link "successor" (pretty (lane_number p))) ∧
        h_lane h' !!! b = with_link (h_lane h !!! b) (lane_link "predecessor" (pretty (lane_number p))).
  Proof.
    intros Ho1 Ho2 Hf Hn P1 P2 P3 Hs1 Hs2 Hnum C12 C13 ND.
    assert (He1 : exists_in h_road h r1) by by eexists. assert (He2 : exists_in h_road h r2) by by eexists.
    pose proof (lookup_total_correct _ _ _ Ho1) as E1. pose proof (lookup_total_correct _ _ _ Ho2) as E2.
    destruct (follows_back _ _ Hf Hn) as [sg2 G2]. pose proof (follows_forward _ _ Hf) as G1.
    destruct (follows_dispatch _ _ _ _ _ E1 E2 Hf Hn) as [D1 D2].
    unfold lane_counts in C12. injection C12 as CL CR.
    assert (Q1 : py_index (sections h o1) (-1) = Some s1) by (unfold last_section in P1; by rewrite -py_index_last in P1).
    assert (Q2 : py_index (sections h o2) 0 = Some s2) by (unfold first_section in P2; by rewrite -py_index_0 in P2).
    pose proof (links_roads_run h r1 r2 o1 o2 "successor" "predecessor" 1 (Some sg2) (-1) 0 s1 s2 s3 E1 E2 G1 G2 ltac:(done) ltac:(done)
      Q1 Q2 P3 Hs1 Hnum (eq_sym C13) ltac:(by rewrite CL) ltac:(by rewrite CR)) as R.
    eexists. split_and!.
    - unfold step. rewrite guarded_true; [by rewrite (has_true _ _ _ He1) (has_true _ _ _ He2)|]. apply as_unit_ok. by rewrite D1 R.
    - unfold step. rewrite guarded_true; [by rewrite (has_true _ _ _ He1) (has_true _ _ _ He2)|]. apply as_unit_ok. by rewrite D2 R.
    - split; [done|]. intros l Hl. simpl. apply add_links_not. rewrite fmap_app. intros [Hi|Hi]%elem_of_app; apply pair_links_dom in Hi; apply Hl;
        unfold side_lanes; set_solver.
    - intros p a b Hp Ha Hb. simpl. unfold lane_at in Ha, Hb. rewrite (exists_at _ _ _ Hs1) in Ha. rewrite (exists_at _ _ _ Hs2) in Hb.
      rewrite !add_links_at !links_for_app. unfold with_link, lane_link.
      assert (Hp' : side_lanes h s1 ++ side_lanes h s2 ≡ₚ (ls_left (h_sec h !!! s1) ++ ls_left (h_sec h !!! s2)) ++ (ls_right (h_sec h !!! s1) ++ ls_right (h_sec h !!! s2))).
      { unfold side_lanes. solve_Permutation. }
      rewrite Hp' in ND. apply NoDup_app in ND as (NL & ND & NR).
      destruct p as [|i|i]; [done| |].
      + rewrite (pair_links_first _ _ _ _ (ls_left _) _ _ i a) //. rewrite (pair_links_second _ _ _ _ (ls_left _) _ _ i b) //.
        apply elem_of_list_lookup_2 in Ha, Hb.
        rewrite !links_for_not.
        * intros Hi%pair_links_dom. apply (ND a); [apply elem_of_app; auto|done].
        * intros Hi%pair_links_dom. apply (ND b); [apply elem_of_app; auto|done].
        * rewrite !Z.mul_1_r. done.
      + rewrite (pair_links_first _ _ _ _ (ls_right _) _ _ i a) //. rewrite (pair_links_second _ _ _ _ (ls_right _) _ _ i b) //.
        apply elem_of_list_lookup_2 in Ha, Hb.
        rewrite !links_for_not.
        * intros Hi%pair_links_dom. apply (ND a); [done|apply elem_of_app; auto].
        * intros Hi%pair_links_dom. apply (ND b); [done|apply elem_of_app; auto].
        * done.
  Qed.

  (** ** C26: the exception is raised exactly if the lane counts of the first road's touching section and of the LAST section of
      the second road differ (provided the second road's touching section has the lanes to link to).  If only the right
      sides differ, the left lanes have been linked already. *)
  Theorem C26_last_section h r1 r2 o1 o2 s1 s2 s3 :
    h_road h !! r1 = Some o1 → h_road h !! r2 = Some o2 → follows o1 o2 → succ_id_not o2 o1 →
    last_section h o1 = Some s1 → first_section h o2 = Some s2 → last_section h o2 = Some s3 → exists_in h_sec h s1 → numbered h s1 →
    ((lane_counts h s1).1 = (lane_counts h s3).1 → (lane_counts h s1).1 ≤ (lane_counts h s2).1) →
    (lane_counts h s1 = lane_counts h s3 → (lane_counts h s1).2 ≤ (lane_counts h s2).2) →
    (lane_counts h s1 ≠ lane_counts h s3 ↔ (step (OpCreateLaneLinks r1 r2) h).1 = Err NotSameAmountOfLanesError) ∧
    (lane_counts h s1 = lane_counts h s3 ↔ (step (OpCreateLaneLinks r1 r2) h).1 = Ok RNone) ∧
    ((lane_counts h s1).1 ≠ (lane_counts h s3).1 → (step (OpCreateLaneLinks r1 r2) h).2 = h) ∧
    only_lanes h (side_lanes h s1 ++ side_lanes h s2) (step (OpCreateLaneLinks r1 r2) h).2.
  Proof.
    intros Ho1 Ho2 Hf Hn P1 P2 Q3 Hs1 Hnum HL HR.
    assert (He1 : exists_in h_road h r1) by by eexists. assert (He2 : exists_in h_road h r2) by by eexists.
    pose proof (lookup_total_correct _ _ _ Ho1) as E1. pose proof (lookup_total_correct _ _ _ Ho2) as E2.
    destruct (follows_back _ _ Hf Hn) as [sg2 G2]. pose proof (follows_forward _ _ Hf) as G1.
    destruct (follows_dispatch _ _ _ _ _ E1 E2 Hf Hn) as [D1 D2].
    assert (Q1 : py_index (sections h o1) (-1) = Some s1) by (unfold last_section in P1; by rewrite -py_index_last in P1).
    assert (Q2 : py_index (sections h o2) 0 = Some s2) by (unfold first_section in P2; by rewrite -py_index_0 in P2).
    assert (Hg : ∀ v h', create_links_roads r1 r2 h = (v, h') → step (OpCreateLaneLinks r1 r2) h = (match v with Ok _ => Ok RNone | Err e => Err e end, h')).
    { intros v h' R. unfold step. rewrite guarded_true; [by rewrite (has_true _ _ _ He1) (has_true _ _ _ He2)|].
      destruct v as [[]|e]; [apply as_unit_ok|apply as_unit_err]; by rewrite D1 R. }
    assert (Hdom : ∀ us, (∀ l, l ∈ us.*1 → l ∈ side_lanes h s1 ++ side_lanes h s2) →
      only_lanes h (side_lanes h s1 ++ side_lanes h s2) (h <| h_lane := add_links us (h_lane h) |>)).
    { intros us Hus. split; [done|]. intros l Hl. cbn [h_lane]. apply add_links_not. intros Hin. apply Hl. by apply Hus. }
    unfold lane_counts in *. simpl in HL, HR. destruct (decide (length (ls_left (h_sec h !!! s1)) = length (ls_left (h_sec h !!! s3)))) as [EL|NL].
    - destruct (decide (length (ls_right (h_sec h !!! s1)) = length (ls_right (h_sec h !!! s3)))) as [ER|NR].
      + pose proof (links_roads_run h r1 r2 o1 o2 "successor" "predecessor" 1 (Some sg2) (-1) 0 s1 s2 s3 E1 E2 G1 G2 ltac:(done) ltac:(done)
          Q1 Q2 Q3 Hs1 Hnum ltac:(unfold lane_counts; by rewrite EL ER) (HL EL) ltac:(apply HR; by rewrite EL ER)) as R.
        rewrite (Hg _ _ R). cbn [fst snd]. split_and!; [rewrite EL ER; done|rewrite EL ER; done|by rewrite EL|].
        apply Hdom. intros l. unfold side_lanes. rewrite fmap_app !elem_of_app. intros [Hl|Hl]; apply pair_links_dom in Hl; apply elem_of_app in Hl; tauto.
      + pose proof (links_roads_right h r1 r2 o1 o2 "successor" "predecessor" 1 (Some sg2) (-1) 0 s1 s2 s3 E1 E2 G1 G2 ltac:(done) ltac:(done)
          Q1 Q2 Q3 Hs1 Hnum EL NR (HL EL)) as R.
        rewrite (Hg _ _ R). cbn [fst snd]. split_and!.
        * split; [done|]. intros _ [= _ E]. done.
        * split; [|done]. intros [= _ E]. done.
        * by rewrite EL.
        * apply Hdom. intros l. unfold side_lanes. rewrite !elem_of_app. intros Hl; apply pair_links_dom in Hl; apply elem_of_app in Hl; tauto.
    - pose proof (links_roads_left h r1 r2 o1 o2 _ _ _ _ _ _ s1 s3 E1 E2 G1 G2 Q1 Q3 NL) as R.
      rewrite (Hg _ _ R). cbn [fst snd]. split_and!.
      + split; [done|]. intros _ [= E _]. done.
      + split; [|done]. intros [= E _]. done.
      + done.
      + split; [by apply h_eta|done].
  Qed.
  (** for a successor road of one section these are the touching sections *)
  Theorem C26_raises h r1 r2 o1 o2 s1 s2 :
    h_road h !! r1 = Some o1 → h_road h !! r2 = Some o2 → follows o1 o2 → succ_id_not o2 o1 →
    last_section h o1 = Some s1 → sections h o2 = [s2] → exists_in h_sec h s1 → numbered h s1 →
    (lane_counts h s1 ≠ lane_counts h s2 ↔ (step (OpCreateLaneLinks r1 r2) h).1 = Err NotSameAmountOfLanesError) ∧
    (lane_counts h s1 = lane_counts h s2 ↔ (step (OpCreateLaneLinks r1 r2) h).1 = Ok RNone) ∧
    ((lane_counts h s1).1 ≠ (lane_counts h s2).1 → (step (OpCreateLaneLinks r1 r2) h).2 = h).
  Proof.
    intros Ho1 Ho2 Hf Hn P1 P2 Hs1 Hnum.
    destruct (C26_last_section h r1 r2 o1 o2 s1 s2 s2 Ho1 Ho2 Hf Hn P1) as (A & B & C & _); try done.
    - unfold first_section. by rewrite P2.
    - unfold last_section. by rewrite P2.
    - intros ->. done.
    - intros ->. done.
  Qed.

  (** ** C27: a connecting road [o1] joining ordinary road [o2]
      [s1] is the connecting road's section at the joint; [s2] the first section of the ordinary road for a predecessor,
      the last one for a successor. *)
  (** both orders run the same loop, which adds one link to each lane of the connecting road at the joint *)
  Lemma joined_related h o1 o2 kind cp off s1 s2 : joins o1 o2 kind cp off → joint_section h o1 kind = Some s1 → joint_section h o2 kind = Some s2 →
    ∃ z t2, get_related_lanesection o1 o2 = Ok (Some kind, Some (if opposed kind cp then -1 else 1)%Z, Some z) ∧
      get_related_lanesection o2 o1 = Ok (t2, Some z) ∧ kind ≠ "neighbor" ∧
      off = (if bool_decide (kind = "predecessor") then rd_off_pred o1 else rd_off_suc o1) ∧
      py_index (sections h o1) z = Some s1 ∧ py_index (sections h o2) z = Some s2 ∧ rd_type o1 ≠ (-1)%Z ∧ rd_type o2 = (-1)%Z.
  Proof.
    intros J P1 P2.
    destruct J as [L cp T1 T2 HL Hid Hc Hn|L cp T1 T2 HL Hid Hc Hp Hn].
      - exists 0%Z. unfold get_related_lanesection at 1. rewrite T2. unfold related_base. rewrite HL Hid Hc.
        assert (B : (match rd_succ o1 with Some s => if bool_decide (lk_id s = rd_id o2) then (Some "successor", Some (if bool_decide (lk_contact s = Some cp_start) then 1 else -1)%Z, Some (-1)%Z)
            else (if bool_decide (rd_id o2 = rd_id o2) then (Some "predecessor", Some (if bool_decide (Some cp = Some cp_start) then -1 else 1)%Z, Some 0%Z) else (None, None, None))
            | None => (if bool_decide (rd_id o2 = rd_id o2) then (Some "predecessor", Some (if bool_decide (Some cp = Some cp_start) then -1 else 1)%Z, Some 0%Z) else (None, None, None)) end)
            = (Some "predecessor", Some (if opposed "predecessor" cp then -1 else 1)%Z, Some 0%Z)).
        { rewrite (bool_decide_true (rd_id o2 = rd_id o2)) //.
          replace (bool_decide (Some cp = Some cp_start)) with (opposed "predecessor" cp).
          - destruct (rd_succ o1) as [S|] eqn:ES; [|done]. rewrite bool_decide_false //. by apply Hn.
          - unfold opposed. apply bool_decide_ext. split; [intros [[_ ->]|[? _]]; done|intros [= ->]; by left]. }
        rewrite B. destruct (related_base o2 o1) as [[a b] c] eqn:EB. exists (a, Some 1%Z). split_and!; try done.
        + unfold get_related_lanesection. rewrite EB. rewrite bool_decide_false // HL Hid. by rewrite bool_decide_true.
        + by rewrite py_index_0.
        + by rewrite py_index_0.
      - exists (-1)%Z. unfold get_related_lanesection at 1. rewrite T2. unfold related_base. rewrite HL Hid Hc.
        rewrite (bool_decide_true (rd_id o2 = rd_id o2)) //.
        replace (if bool_decide (Some cp = Some cp_start) then 1%Z else (-1)%Z) with (if opposed "successor" cp then (-1)%Z else 1%Z); last first.
        { unfold opposed. by destruct cp. }
        destruct (related_base o2 o1) as [[a b] c] eqn:EB. exists (a, Some (-1)%Z).
        split_and!; try done.
        + unfold get_related_lanesection. rewrite EB. rewrite bool_decide_false //. destruct (rd_pred o1) as [P|] eqn:EP; [|done].
          rewrite (bool_decide_false (lk_id P = _)); [by apply Hn|]. rewrite HL Hid. by rewrite bool_decide_true.
        + by rewrite py_index_last.
        + by rewrite py_index_last.
  Qed.
  Lemma joined_runs h r1 r2 o1 o2 kind cp off s1 s2 :
    h_road h !! r1 = Some o1 → h_road h !! r2 = Some o2 → joins o1 o2 kind cp off →
    joint_section h o1 kind = Some s1 → joint_section h o2 kind = Some s2 →
    exists_in h_sec h s2 → numbered h s2 →
    (lane_counts h s1).1 ≤ (lane_counts h s2).1 → (lane_counts h s1).2 ≤ (lane_counts h s2).2 →
    create_lane_links r1 r2 h = create_links_connecting_road r1 r2 h ∧ create_lane_links r2 r1 h = create_links_connecting_road r1 r2 h ∧
    create_links_connecting_road r1 r2 h = (Ok tt, h <| h_lane := add_links
      (side_links (Some kind) (λ i, pretty (lane_number (LeftOf i) * (if opposed kind cp then -1 else 1) + off)%Z) (ls_left (h_sec h !!! s1)) ++
       side_links (Some kind) (λ i, pretty (lane_number (RightOf i) * (if opposed kind cp then -1 else 1) + off)%Z) (ls_right (h_sec h !!! s1))) (h_lane h) |>).
  Proof.
    intros Ho1 Ho2 J P1 P2 Hs2 Hnum CL CR. pose proof (lookup_total_correct _ _ _ Ho1) as E1. pose proof (lookup_total_correct _ _ _ Ho2) as E2.
    destruct (joined_related h o1 o2 kind cp off s1 s2 J P1 P2) as (z & t2 & G1 & G2 & N & Hoff & Q1 & Q2 & T1 & T2).
    pose proof (connecting_run h r1 r2 o1 o2 kind _ z t2 s1 s2 off E1 E2 G1 G2 N Hoff Q1 Q2 Hs2 Hnum CL CR) as R.
    assert (D1 : create_lane_links r1 r2 h = create_links_connecting_road r1 r2 h).
    { unfold create_lane_links, get_road. rewrite !bind_gets E1 E2. rewrite (bool_decide_false (rd_type o1 = _)) //. }
    assert (D2 : create_lane_links r2 r1 h = create_links_connecting_road r1 r2 h).
    { unfold create_lane_links, get_road. rewrite !bind_gets E1 E2. rewrite (bool_decide_false (rd_type o1 = _)) // T2. done. }
    split; [exact D1|]. split; [exact D2|exact R].
  Qed.
  (** A connecting road with more lanes on a side than the road it joins cannot be linked with it, in either order: the loops over its lanes
      take the lane with the same index of the road (finding). *)
  Lemma stuck_loop (f : nat → H (F:=F) unit) h x : (∀ i, Pres lanes_only (f i)) → (∀ h1 h2, lanes_only h h1 → f x h1 ≠ (Ok tt, h2)) →
    ∀ l h1 h2, lanes_only h h1 → x ∈ l → for_each f l h1 ≠ (Ok tt, h2).
  Proof.
    intros Hp Hx. induction l as [|y l IH]; intros h1 h2 H1 Hin E; [by apply elem_of_nil in Hin|].
    simpl in E. apply bind_ok in E as ([] & h3 & E1 & E2). apply elem_of_cons in Hin as [<-|Hin]; [exact (Hx h1 h3 H1 E1)|].
    apply (IH h3 h2); [|done|done]. etrans; [done|]. exact (pres_ok _ _ _ _ _ (Hp y) E1).
  Qed.
  Local Ltac lo := repeat first
    [ apply lo_lane_add_link | apply pres_ret; apply _ | apply pres_raise; apply _ | apply pres_lift; apply _ | apply pres_gets; apply _
    | apply pres_or_raise; apply _ | apply pres_py_index_opt; apply _ | apply pres_bind; [apply _| |intros ?]
    | apply pres_for_each; [apply _|intros ??]
    | progress unfold road_section, lane_id_times
    | match goal with |- Pres _ (match ?x with _ => _ end) => destruct x end ].
  Theorem C27_refuted_fewer h r1 r2 o1 o2 kind cp off s1 s2 :
    h_road h !! r1 = Some o1 → h_road h !! r2 = Some o2 → joins o1 o2 kind cp off →
    joint_section h o1 kind = Some s1 → joint_section h o2 kind = Some s2 →
    (lane_counts h s2).1 < (lane_counts h s1).1 ∨ (lane_counts h s2).2 < (lane_counts h s1).2 →
    ∀ h', create_lane_links r1 r2 h ≠ (Ok tt, h') ∧ create_lane_links r2 r1 h ≠ (Ok tt, h').
  Proof.
    intros Ho1 Ho2 J P1 P2 Hc h'. pose proof (lookup_total_correct _ _ _ Ho1) as E1. pose proof (lookup_total_correct _ _ _ Ho2) as E2.
    destruct (joined_related h o1 o2 kind cp off s1 s2 J P1 P2) as (z & t2 & G1 & G2 & N & Hoff & Q1 & Q2 & T1 & T2).
    assert (D1 : create_lane_links r1 r2 h = create_links_connecting_road r1 r2 h).
    { unfold create_lane_links, get_road. rewrite !bind_gets E1 E2. rewrite (bool_decide_false (rd_type o1 = _)) //. }
    assert (D2 : create_lane_links r2 r1 h = create_links_connecting_road r1 r2 h).
    { unfold create_lane_links, get_road. rewrite !bind_gets E1 E2. rewrite (bool_decide_false (rd_type o1 = _)) // (bool_decide_true (rd_type o2 = _)) //. }
    rewrite D1 D2. clear D1 D2. assert (X : create_links_connecting_road r1 r2 h ≠ (Ok tt, h')); [|done]. intros E.
    assert (Sec : ∀ h1 o i s, lanes_only h h1 → py_index (sections h o) i = Some s → road_section o (Some i) h1 = (Ok (h_sec h !!! s), h1)).
    { intros h1 o i s Hl Hs. rewrite Hl. by apply road_section_at. }
    unfold create_links_connecting_road, get_road in E. rewrite !bind_gets E1 E2 in E. rewrite G1 G2 !bind_lift_ok in E. destruct t2 as [t2 sg2].
    rewrite (bind_run _ _ _ _ _ (Sec h o1 z s1 (reflexivity _) Q1)) in E. apply bind_ok in E as ([] & h1 & EL & E).
    destruct Hc as [Hc|Hc]; unfold lane_counts in Hc; cbn [fst snd] in Hc.
    - clear E. destruct (ls_left (h_sec h !!! s1)) as [|x xs] eqn:El; [simpl in Hc; lia|].
      rewrite (bind_run _ _ _ _ _ (Sec h o1 z s1 (reflexivity _) Q1)) in EL. rewrite El in EL.
      revert EL. apply (stuck_loop _ h (length (ls_left (h_sec h !!! s2)))); [..|reflexivity|apply elem_of_seq; lia].
      + intros i. lo.
      + intros h3 h4 Hl. rewrite (bind_run _ _ _ _ _ (Sec h3 o2 z s2 Hl Q2)). rewrite lookup_ge_None_2 //.
    - assert (Hl1 : lanes_only h h1). { eapply pres_ok; [|exact EL]. destruct (ls_left _); lo. }
      rewrite (bind_run _ _ _ _ _ (Sec h1 o1 z s1 Hl1 Q1)) in E. destruct (ls_right (h_sec h !!! s1)) as [|x xs] eqn:El; [simpl in Hc; lia|].
      revert E. apply (stuck_loop _ h (length (ls_right (h_sec h !!! s2)))); [..|done|apply elem_of_seq; lia].
      + intros i. lo.
      + intros h3 h4 Hl. rewrite (bind_run _ _ _ _ _ (Sec h3 o2 z s2 Hl Q2)). rewrite lookup_ge_None_2 //.
  Qed.

  Theorem C27_connecting h r1 r2 o1 o2 kind cp off s1 s2 :
    h_road h !! r1 = Some o1 → h_road h !! r2 = Some o2 → joins o1 o2 kind cp off →
    joint_section h o1 kind = Some s1 → joint_section h o2 kind = Some s2 →
    exists_in h_sec h s1 → exists_in h_sec h s2 → numbered h s2 →
    (lane_counts h s1).1 ≤ (lane_counts h s2).1 → (lane_counts h s1).2 ≤ (lane_counts h s2).2 →
    NoDup (side_lanes h s1) →
    ∃ h', step (OpCreateLaneLinks r1 r2) h = (Ok RNone, h') ∧ step (OpCreateLaneLinks r2 r1) h = (Ok RNone, h') ∧
      only_lanes h (side_lanes h s1) h' ∧
      ∀ p a, p ≠ Centre → lane_at h s1 p = Some a →
        h_lane h' !!! a = with_link (h_lane h !!! a)
          (lane_link kind (pretty ((if opposed kind cp then - lane_number p else lane_number p) + off)%Z)).
  Proof.
    intros Ho1 Ho2 J P1 P2 Hs1 Hs2 Hnum CL CR ND.
    assert (He1 : exists_in h_road h r1) by by eexists. assert (He2 : exists_in h_road h r2) by by eexists.
    pose proof (lookup_total_correct _ _ _ Ho1) as E1. pose proof (lookup_total_correct _ _ _ Ho2) as E2.
    destruct (joined_runs h r1 r2 o1 o2 kind cp off s1 s2 Ho1 Ho2 J P1 P2 Hs2 Hnum CL CR) as (D1 & D2 & R).
    eexists. split_and!.
    - unfold step. rewrite guarded_true; [by rewrite (has_true _ _ _ He1) (has_true _ _ _ He2)|]. apply as_unit_ok. by rewrite D1 R.
    - unfold step. rewrite guarded_true; [by rewrite (has_true _ _ _ He1) (has_true _ _ _ He2)|]. apply as_unit_ok. by rewrite D2 R.
    - split; [done|]. intros l Hl. simpl. apply add_links_not. rewrite fmap_app. intros [Hi|Hi]%elem_of_app; apply side_links_dom in Hi; apply Hl;
        unfold side_lanes; set_solver.
    - intros p a Hp Ha. simpl. unfold lane_at in Ha. rewrite (exists_at _ _ _ Hs1) in Ha.
      rewrite !add_links_at !links_for_app. unfold with_link, lane_link. unfold side_lanes in ND. apply NoDup_app in ND as (NL & ND & NR).
      assert (Ez : ∀ x : Z, (x * (if opposed kind cp then -1 else 1) = (if opposed kind cp then -x else x))%Z) by (intros x; destruct (opposed kind cp); lia).
      destruct p as [|i|i]; [done| |].
      + rewrite (side_links_at _ _ _ i a) //. apply elem_of_list_lookup_2 in Ha. rewrite links_for_not; [by intros Hi%side_links_dom; apply (ND a)|].
        by rewrite Ez.
      + rewrite (side_links_at _ _ (ls_right _) i a) //. apply elem_of_list_lookup_2 in Ha. rewrite links_for_not; [intros Hi%side_links_dom; by apply (ND a)|].
        by rewrite Ez.
  Qed.
  (** a connecting road and a road it does not name: nothing happens *)
  Theorem C27_unrelated h r1 r2 o1 o2 : h_road h !! r1 = Some o1 → h_road h !! r2 = Some o2 →
    rd_type o1 ≠ (-1)%Z → rd_type o2 = (-1)%Z → rd_pred o1 ≠ None → rd_succ o1 ≠ None → pred_id_not o1 o2 → succ_id_not o1 o2 →
    step (OpCreateLaneLinks r1 r2) h = (Ok RNone, h) ∧ step (OpCreateLaneLinks r2 r1) h = (Ok RNone, h).
  Proof.
    intros Ho1 Ho2 T1 T2 Hp Hs Np Ns.
    assert (He1 : exists_in h_road h r1) by by eexists. assert (He2 : exists_in h_road h r2) by by eexists.
    pose proof (lookup_total_correct _ _ _ Ho1) as E1. pose proof (lookup_total_correct _ _ _ Ho2) as E2.
    destruct (rd_pred o1) as [P|] eqn:EP; [|done]. destruct (rd_succ o1) as [S|] eqn:ES; [|done].
    assert (G1 : get_related_lanesection o1 o2 = Ok (None, None, None)).
    { unfold get_related_lanesection, related_base. rewrite EP ES T2.
      rewrite (bool_decide_false (lk_id S = _)); [by apply Ns|]. rewrite (bool_decide_false (lk_id P = _)); [by apply Np|]. done. }
    assert (∃ t, get_related_lanesection o2 o1 = Ok t) as [t G2].
    { unfold get_related_lanesection. destruct (related_base o2 o1) as [[a b] c]. rewrite EP ES. repeat case_bool_decide; eauto. }
    assert (R : create_links_connecting_road r1 r2 h = (Ok tt, h)).
    { unfold create_links_connecting_road, get_road. rewrite !bind_gets E1 E2 G1 G2 !bind_lift_ok. destruct t as [[a b] c]. done. }
    assert (D1 : create_lane_links r1 r2 h = create_links_connecting_road r1 r2 h).
    { unfold create_lane_links, get_road. rewrite !bind_gets E1 E2. rewrite (bool_decide_false (rd_type o1 = _)) //. }
    assert (D2 : create_lane_links r2 r1 h = create_links_connecting_road r1 r2 h).
    { unfold create_lane_links, get_road. rewrite !bind_gets E1 E2. rewrite (bool_decide_false (rd_type o1 = _)) // T2. done. }
    split; unfold step; (rewrite guarded_true; [by rewrite (has_true _ _ _ He1) (has_true _ _ _ He2)|]; apply as_unit_ok); [by rewrite D1 R|by rewrite D2 R].
  Qed.
  (** a connecting road without predecessor cannot be linked with any ordinary road, not even one it does not name *)
  Theorem C27_refuted_no_predecessor h r1 r2 o1 o2 : h_road h !! r1 = Some o1 → h_road h !! r2 = Some o2 →
    rd_type o1 ≠ (-1)%Z → rd_type o2 = (-1)%Z → rd_pred o1 = None →
    step (OpCreateLaneLinks r1 r2) h = (Err AttributeError, h).
  Proof.
    intros Ho1 Ho2 T1 T2 Hp.
    assert (He1 : exists_in h_road h r1) by by eexists. assert (He2 : exists_in h_road h r2) by by eexists.
    pose proof (lookup_total_correct _ _ _ Ho1) as E1. pose proof (lookup_total_correct _ _ _ Ho2) as E2.
    unfold step. rewrite guarded_true; [by rewrite (has_true _ _ _ He1) (has_true _ _ _ He2)|]. apply as_unit_err.
    unfold create_lane_links, get_road. rewrite !bind_gets E1 E2. rewrite (bool_decide_false (rd_type o1 = _)) //. simpl.
    unfold create_links_connecting_road, get_road. rewrite !bind_gets E1 E2.
    unfold get_related_lanesection. destruct (related_base o1 o2) as [[a b] c], (related_base o2 o1) as [[a' b'] c'].
    rewrite T2 (bool_decide_false (rd_type o1 = _)) // Hp. done.
  Qed.

  (** ** C28: two ordinary roads that do not name each other, by road links, as successor and predecessor are left alone *)
  Theorem C28_not_consecutive h r1 r2 o1 o2 : h_road h !! r1 = Some o1 → h_road h !! r2 = Some o2 →
    rd_type o1 = (-1)%Z → rd_type o2 = (-1)%Z →
    (∀ a b L M, (a = o1 ∧ b = o2 ∨ a = o2 ∧ b = o1) → rd_succ a = Some L → rd_pred b = Some M →
       lk_etype L = Some et_road → lk_etype M = Some et_road → lk_id L = rd_id b → lk_id M = rd_id a → False) →
    step (OpCreateLaneLinks r1 r2) h = (Ok RNone, h).
  Proof.
    intros Ho1 Ho2 T1 T2 Hn.
    assert (He1 : exists_in h_road h r1) by by eexists. assert (He2 : exists_in h_road h r2) by by eexists.
    pose proof (lookup_total_correct _ _ _ Ho1) as E1. pose proof (lookup_total_correct _ _ _ Ho2) as E2.
    assert (C : ∀ a b, (a = o1 ∧ b = o2 ∨ a = o2 ∧ b = o1) → are_roads_consecutive a b = false).
    { intros a b Hab. unfold are_roads_consecutive. destruct (rd_succ a) as [L|] eqn:EL; [|done]. destruct (rd_pred b) as [M|] eqn:EM; [|done].
      repeat case_bool_decide; try done. exfalso. by eapply (Hn a b). }
    unfold step. rewrite guarded_true; [by rewrite (has_true _ _ _ He1) (has_true _ _ _ He2)|]. apply as_unit_ok.
    unfold create_lane_links, get_road. rewrite !bind_gets E1 E2 T1 T2 !C; auto.
  Qed.
End Links.

(** ** Examples and deviations (arithmetic: quarter turns) *)
Section Examples.
  Lemma numbered_check (h : heap Z) sec s : h_sec h !! sec = Some s → ln_id (h_lane h !!! ls_center s) = Some 0%Z →
    map (λ l, ln_id (h_lane h !!! l)) (ls_left s) = map (λ i, Some (lane_number (LeftOf i))) (seq 0 (length (ls_left s))) →
    map (λ l, ln_id (h_lane h !!! l)) (ls_right s) = map (λ i, Some (lane_number (RightOf i))) (seq 0 (length (ls_right s))) →
    numbered h sec.
  Proof.
    intros Hs Hc Hl Hr p l. unfold lane_at. rewrite Hs. destruct p as [|i|i].
    - intros [= <-]. done.
    - intros E. pose proof (f_equal (λ q, q !! i) Hl) as E'. cbv beta in E'. rewrite !list_lookup_fmap E in E'. simpl in E'.
      rewrite lookup_seq_lt in E'; [by eapply lookup_lt_Some|]. simpl in E'. by injection E'.
    - intros E. pose proof (f_equal (λ q, q !! i) Hr) as E'. cbv beta in E'. rewrite !list_lookup_fmap E in E'. simpl in E'.
      rewrite lookup_seq_lt in E'; [by eapply lookup_lt_Some|]. simpl in E'. by injection E'.
  Qed.

  (** a lane section with [l] left and [r] right lanes: the centre lane is [n], the section [n + 1], then the left and the right lanes *)
  Definition section_ops (n : nat) (lr : nat * nat) : list (op Z) :=
    [OpLane lt_none 0 0 0 0 0; OpLaneSection 0 n]%Z ++
    concat (map (λ i, [OpLane lt_driving 3 0 0 0 0; OpAddLeftLane (n + 1) (n + 2 + i)])%Z (seq 0 lr.1)) ++
    concat (map (λ i, [OpLane lt_driving 3 0 0 0 0; OpAddRightLane (n + 1) (n + 2 + lr.1 + i)])%Z (seq 0 lr.2)).
  Fixpoint sections_ops (lanes n : nat) (lrs : list (nat * nat)) : list (op Z) :=
    match lrs with
    | [] => []
    | lr :: lrs => section_ops n lr ++ [OpAddLaneSection lanes (n + 1) []] ++ sections_ops lanes (n + 2 + lr.1 + lr.2) lrs
    end.
  (** a road with these lane sections: the road is [n], the lanes [n - 2], the first section at [n + 2] *)
  Definition road_ops (n : nat) (id : pyid) (ty : Z) (lrs : list (nat * nat)) : list (op Z) :=
    [OpPlanView None None None; OpLanes; OpRoad id n (n + 1) ty None None] ++ sections_ops (n + 1) (n + 3) lrs.

  (* road 1 (ref 2; sections 4 and 10) followed by road 2 (ref 17; section 19) *)
  Definition two_roads : list (op Z) := road_ops 0 (PInt 1) (-1) [(1, 1); (2, 1)] ++ road_ops 12 (PInt 2) (-1) [(2, 1)] ++
    [OpAddSuccessor 2 (Some et_road) (PInt 2) (Some cp_start) 0; OpAddPredecessor 14 (Some et_road) (PInt 1) (Some cp_end) 0].
  Lemma two_roads_follow : let h := run heap_init two_roads in ∃ o1 o2,
    h_road h !! 2 = Some o1 ∧ h_road h !! 14 = Some o2 ∧ follows o1 o2 ∧ succ_id_not o2 o1 ∧
    last_section h o1 = Some 8 ∧ sections h o2 = [16] ∧ exists_in h_sec h 8 ∧ exists_in h_sec h 16 ∧ numbered h 8 ∧
    lane_counts h 8 = (2, 1) ∧ lane_counts h 16 = (2, 1) ∧ NoDup (side_lanes h 8 ++ side_lanes h 16).
  Proof.
    intros h. eexists _, _. split_and!; try (vm_compute; reflexivity).
    - split; [vm_compute; reflexivity|]. split; [vm_compute; reflexivity|]. split; (eexists; split_and!; vm_compute; reflexivity).
    - intros L. vm_compute. done.
    - eexists; vm_compute; reflexivity.
    - eexists; vm_compute; reflexivity.
    - eapply numbered_check; vm_compute; reflexivity.
    - apply (bool_decide_unpack _); vm_compute; exact I.
  Qed.
  Definition links_at (h : heap Z) (ls : list ref) : list (list link) := map (λ l, ln_links (h_lane h !!! l)) ls.
  Definition S_ (n : string) := lane_link "successor" n.
  Definition P_ (n : string) := lane_link "predecessor" n.
  Example C25_example : let h := (step (OpCreateLaneLinks 14 2) (run heap_init two_roads)).2 in
    links_at h [5; 6] = [[]; []] ∧ links_at h [9; 10; 11] = [[S_ "1"]; [S_ "2"]; [S_ "-1"]] ∧ links_at h [17; 18; 19] = [[P_ "1"]; [P_ "2"]; [P_ "-1"]].
  Proof. split_and!; vm_compute; reflexivity. Qed.
  (** without a contact point in the successor link the left lanes of the first road are linked to lanes of the other side *)
  Definition no_contact : list (op Z) := road_ops 0 (PInt 1) (-1) [(2, 1)] ++ road_ops 8 (PInt 2) (-1) [(2, 1)] ++
    [OpAddSuccessor 2 (Some et_road) (PInt 2) None 0; OpAddPredecessor 10 (Some et_road) (PInt 1) None 0].
  Theorem C25_refuted_without_contact : let h := (step (OpCreateLaneLinks 2 10) (run heap_init no_contact)).2 in
    links_at h [5; 6; 7] = [[S_ "-1"]; [S_ "-2"]; [S_ "-1"]] ∧ links_at h [13; 14; 15] = [[P_ "1"]; [P_ "2"]; [P_ "-1"]].
  Proof. split; vm_compute; reflexivity. Qed.

  (** C26 is false for successor roads of several sections: equal counts at the joint (2 left, 1 right) ... *)
  Definition joint (lrs1 lrs2 : list (nat * nat)) (n2 : nat) : list (op Z) := road_ops 0 (PInt 1) (-1) lrs1 ++ road_ops n2 (PInt 2) (-1) lrs2 ++
    [OpAddSuccessor 2 (Some et_road) (PInt 2) (Some cp_start) 0; OpAddPredecessor (n2 + 2) (Some et_road) (PInt 1) (Some cp_end) 0].
  Theorem C26_refuted_equal : let h := run heap_init (joint [(2, 1)] [(2, 1); (1, 1)] 8) in
    lane_counts h 4 = lane_counts h 12 ∧ last_section h (h_road h !!! 2) = Some 4 ∧ first_section h (h_road h !!! 10) = Some 12 ∧
    follows (h_road h !!! 2) (h_road h !!! 10) ∧
    (step (OpCreateLaneLinks 2 10) h).1 = Err NotSameAmountOfLanesError.
  Proof.
    split_and!; try (vm_compute; reflexivity).
    split; [vm_compute; reflexivity|]. split; [vm_compute; reflexivity|]. split; (eexists; split_and!; vm_compute; reflexivity).
  Qed.
  (** ... and different counts that are accepted *)
  Theorem C26_refuted_different : let h := run heap_init (joint [(2, 1)] [(3, 1); (2, 1)] 8) in
    lane_counts h 4 ≠ lane_counts h 12 ∧ last_section h (h_road h !!! 2) = Some 4 ∧ first_section h (h_road h !!! 10) = Some 12 ∧
    follows (h_road h !!! 2) (h_road h !!! 10) ∧
    (step (OpCreateLaneLinks 2 10) h).1 = Ok RNone.
  Proof.
    split_and!; try (vm_compute; reflexivity).
    - vm_compute. done.
    - split; [vm_compute; reflexivity|]. split; [vm_compute; reflexivity|]. split; (eexists; split_and!; vm_compute; reflexivity).
  Qed.
  Example C26_example : let h := run heap_init (joint [(2, 1)] [(2, 3)] 8) in
    lane_counts h 4 ≠ lane_counts h 12 ∧ sections h (h_road h !!! 10) = [12] ∧ (step (OpCreateLaneLinks 10 2) h).1 = Err NotSameAmountOfLanesError.
  Proof. split_and!; [vm_compute; done|vm_compute; reflexivity|vm_compute; reflexivity]. Qed.

  (* connecting road 3 (ref 18, section 20) from road 1 (ref 2, section 4) to road 2 (ref 10, section 12) *)
  Definition connected (lrs1 : list (nat * nat)) (n2 : nat) (cp1 cp2 : ContactPoint) (off1 off2 : Z) : list (op Z) :=
    road_ops 0 (PInt 1) (-1) lrs1 ++ road_ops n2 (PInt 2) (-1) [(2, 1)] ++ road_ops (n2 + 8) (PInt 3) 100 [(2, 1)] ++
    [OpAddPredecessor (n2 + 10) (Some et_road) (PInt 1) (Some cp1) off1; OpAddSuccessor (n2 + 10) (Some et_road) (PInt 2) (Some cp2) off2].
  Example C27_example_joins : let h := run heap_init (connected [(2, 1)] 8 cp_end cp_end 1 0) in ∃ o1 o2 o3,
    h_road h !! 18 = Some o3 ∧ h_road h !! 2 = Some o1 ∧ h_road h !! 10 = Some o2 ∧
    joins o3 o1 "predecessor" cp_end 1 ∧ joins o3 o2 "successor" cp_end 0 ∧
    joint_section h o3 "predecessor" = Some 20 ∧ joint_section h o3 "successor" = Some 20 ∧ joint_section h o1 "predecessor" = Some 4 ∧
    joint_section h o2 "successor" = Some 12 ∧ exists_in h_sec h 4 ∧ exists_in h_sec h 12 ∧ exists_in h_sec h 20 ∧
    numbered h 4 ∧ numbered h 12 ∧ map (lane_counts h) [4; 12; 20] = [(2, 1); (2, 1); (2, 1)] ∧ NoDup (side_lanes h 20).
  Proof.
    eexists _, _, _. split_and!; try (vm_compute; reflexivity).
    - match goal with |- joins ?c ?o ?k ?cp ?z => change (joins c o k cp (rd_off_pred c)) end.
      eapply (joins_start _ _ _ cp_end); try (vm_compute; reflexivity); [vm_compute; done|]. intros L. vm_compute. by intros [= <-].
    - match goal with |- joins ?c ?o ?k ?cp ?z => change (joins c o k cp (rd_off_suc c)) end.
      eapply (joins_end _ _ _ cp_end); try (vm_compute; reflexivity); [vm_compute; done|vm_compute; done|]. intros L. vm_compute. by intros [= <-].
    - eexists; vm_compute; reflexivity.
    - eexists; vm_compute; reflexivity.
    - eexists; vm_compute; reflexivity.
    - eapply numbered_check; vm_compute; reflexivity.
    - eapply numbered_check; vm_compute; reflexivity.
    - apply (bool_decide_unpack _); vm_compute; exact I.
  Qed.
  Example C27_example : let h := run (run heap_init (connected [(2, 1)] 8 cp_end cp_end 1 0)) [OpCreateLaneLinks 2 18; OpCreateLaneLinks 18 10] in
    links_at h [21; 22; 23] = [[P_ "2"; S_ "-1"]; [P_ "3"; S_ "-2"]; [P_ "0"; S_ "1"]] ∧ links_at h [5; 6; 7; 13; 14; 15] = [[]; []; []; []; []; []].
  Proof. split; vm_compute; reflexivity. Qed.
  (** the section of the ordinary road that is looked at is the first one for a predecessor even when the connecting road starts
      at the other end of that road: with fewer lanes there the call fails *)
  Theorem C27_refuted_sections : let h := run heap_init (connected [(1, 1); (2, 1)] 12 cp_end cp_start 0 0) in
    last_section h (h_road h !!! 2) = Some 8 ∧ lane_counts h 8 = (2, 1) ∧ first_section h (h_road h !!! 22) = Some 24 ∧ lane_counts h 24 = (2, 1) ∧
    (step (OpCreateLaneLinks 22 2) h).1 = Err IndexError.
  Proof. split_and!; vm_compute; reflexivity. Qed.
  (** a connecting road that returns to the road it comes from is only linked at its end *)
  Theorem C27_refuted_uturn : let os := road_ops 0 (PInt 1) (-1) [(1, 1)] ++ road_ops 7 (PInt 3) 100 [(1, 1)] ++
      [OpAddPredecessor 9 (Some et_road) (PInt 1) (Some cp_end) 0; OpAddSuccessor 9 (Some et_road) (PInt 1) (Some cp_end) 0;
       OpCreateLaneLinks 9 2] in
    links_at (run heap_init os) [12; 13] = [[S_ "-1"]; [S_ "1"]].
  Proof. vm_compute; reflexivity. Qed.

  (** C28 is false: road 1 leads to road 2, road 2 leads to the junction with id 1.  The lanes of road 2 get successor links to road 1's
      lanes where predecessor links belong *)
  Theorem C28_refuted : let os := two_roads ++ [OpAddSuccessor 14 (Some et_junction) (PInt 1) None 0] in
    links_at (step (OpCreateLaneLinks 2 14) (run heap_init os)).2 [17; 18; 19] = [[S_ "1"]; [S_ "2"]; [S_ "-1"]].
  Proof. vm_compute; reflexivity. Qed.
  (** the same for two roads that form a ring *)
  Theorem C28_refuted_ring : let os := no_contact ++ [OpAddPredecessor 2 (Some et_road) (PInt 2) (Some cp_end) 0; OpAddSuccessor 10 (Some et_road) (PInt 1) (Some cp_start) 0;
      OpCreateLaneLinks 2 10; OpCreateLaneLinks 10 2] in
    map (map lk_type) (links_at (run heap_init os) [5; 6; 7; 13; 14; 15]) = repeat (repeat (Some "successor") 2) 6.
  Proof. vm_compute; reflexivity. Qed.
  Example C28_example : let h := run heap_init (two_roads ++ [OpAddSuccessor 14 (Some et_junction) (PInt 1) None 0] ++ road_ops 20 (PInt 7) (-1) [(1, 1)]) in
    let o1 := h_road h !!! 14 in let o2 := h_road h !!! 22 in
    (∀ a b L M, (a = o1 ∧ b = o2 ∨ a = o2 ∧ b = o1) → rd_succ a = Some L → rd_pred b = Some M →
       lk_etype L = Some et_road → lk_etype M = Some et_road → lk_id L = rd_id b → lk_id M = rd_id a → False) ∧
    rd_type o1 = (-1)%Z ∧ rd_type o2 = (-1)%Z.
  Proof.
    intros h o1 o2. assert (E1 : rd_succ o2 = None) by (vm_compute; reflexivity). assert (E2 : rd_pred o2 = None) by (vm_compute; reflexivity).
    split_and!; [|vm_compute; reflexivity|vm_compute; reflexivity]. clearbody o1 o2.
    intros a b L M [[-> ->]|[-> ->]] HL HM; [rewrite E2 in HM; discriminate|rewrite E1 in HL; discriminate].
  Qed.
End Examples.

Print Assumptions C25_consecutive.
Print Assumptions C26_last_section.
Print Assumptions C26_raises.
Print Assumptions C27_connecting.
Print Assumptions C27_unrelated.
Print Assumptions C28_not_consecutive.
Print Assumptions C27_refuted_fewer.
Print Assumptions C28_refuted.
