(** * C72 for the intersections of the generators *)
From Coq Require Import ssreflect.
From Verif.Model Require Import Api.
From Verif.Inst Require Import Quarter.
From Verif.Spec Require Import SpecNetwork SpecLinkOrder SpecAgain SpecXml SpecSchema SpecSchemaOrder SpecFlow SpecState SpecHistory SpecLanes SpecGenerate SpecJunction SpecJunctionRoads.
From Verif.Proof Require Import Monad DictFacts PlanViewFacts NetFrame Reach Steps Invariants Network Flow Crossing SchemaFacts JunctionRoads Again LinkOrder.
From Verif.Properties Require Import PHistory PXml PLaneLinks PJunction PJunctionRoads PRefs PSchema PSchemaOrder PFlow PSucceeds.
Local Unset SsrOldRewriteGoalsOrder.
Local Open Scope general_if_scope.
Local Open Scope nat_scope.
Local Open Scope list_scope.

Section FlowCrossing.
  Context {F : Type} `{!Num F}.
  Implicit Types (h : heap F).

  Definition parts_kept h h' : Prop := kept h_geom h h' ∧ kept h_pv h h' ∧ kept h_lane h h' ∧ kept h_sec h h' ∧ kept h_lanes h h' ∧ kept h_obj h h'.
  Lemma parts_trans h1 h2 h3 : parts_kept h1 h2 → parts_kept h2 h3 → parts_kept h1 h3.
  Proof. intros (A1 & A2 & A3 & A4 & A5 & A6) (B1 & B2 & B3 & B4 & B5 & B6). split_and!; intros r v Hv; auto. Qed.
  Lemma kept_at {V} `{!Inhabited V} (f : heap F → gmap nat V) h h' r : kept f h h' → exists_in f h r → f h' !!! r = f h !!! r.
  Proof. intros K E. apply lookup_total_correct, K. by apply exists_at. Qed.
  Lemma road_part h h' y : reachable h → exists_in h_road h y → parts_kept h h' →
    rd_planview (h_road h' !!! y) = rd_planview (h_road h !!! y) → rd_lanes (h_road h' !!! y) = rd_lanes (h_road h !!! y) →
    rd_objects (h_road h' !!! y) = rd_objects (h_road h !!! y) → rd_signals (h_road h' !!! y) = rd_signals (h_road h !!! y) →
    view h' (h_road h' !!! y) = view h (h_road h !!! y) ∧
    (∀ g, g ∈ pv_raw (view h (h_road h !!! y)) → h_geom h' !!! g = h_geom h !!! g) ∧
    sections h' (h_road h' !!! y) = sections h (h_road h !!! y) ∧ road_lanes h' y = road_lanes h y ∧
    (∀ l, l ∈ road_lanes h y → exists_in h_lane h l ∧ h_lane h' !!! l = h_lane h !!! l ∧ has_lane h y l) ∧
    (∀ x, x ∈ rd_objects (h_road h !!! y) ++ rd_signals (h_road h !!! y) → h_obj h' !!! x = h_obj h !!! x).
  Proof.
    intros Hr Hy (K1 & K2 & K3 & K4 & K5 & K6) Ep El Eo Es. pose proof (reachable_no_dangling _ Hr) as N.
    pose proof (nd_road_pv h y N Hy) as Hpv. pose proof (nd_road_lanes h y N Hy) as Hls.
    assert (V : view h' (h_road h' !!! y) = view h (h_road h !!! y)) by (unfold view; rewrite Ep; by apply kept_at).
    assert (S : sections h' (h_road h' !!! y) = sections h (h_road h !!! y)) by (unfold sections; rewrite El; by apply kept_at).
    assert (Hsec : ∀ sec, sec ∈ sections h (h_road h !!! y) → exists_in h_sec h sec) by (intros sec Hs; by apply (nd_lanes_sec h _ sec N Hls)).
    assert (G : ∀ secs, (∀ sec, sec ∈ secs → exists_in h_sec h sec) → concat (map (section_lanes h') secs) = concat (map (section_lanes h) secs)).
    { induction secs as [|sec secs IH]; intros Hs; [done|]. simpl. rewrite IH; [intros s H; apply Hs; by right|]. f_equal.
      unfold section_lanes. rewrite (kept_at h_sec h h' sec K4); [apply Hs; left|done]. }
    split; [done|]. split; [intros g Hg; apply kept_at; [done|]; by apply (nd_pv_raw h _ g N Hpv)|]. split; [done|]. split; [unfold road_lanes; rewrite S; by apply G|]. split.
    - intros l Hl. unfold road_lanes in Hl. apply elem_concat in Hl as (ls & Hl & Hls'). apply elem_of_list_fmap in Hls' as (sec & -> & Hs).
      assert (exists p, lane_at h sec p = Some l) as [p Hp].
      { unfold section_lanes in Hl. unfold lane_at. rewrite (exists_at _ _ _ (Hsec sec Hs)). rewrite !elem_of_app elem_of_list_singleton in Hl.
        destruct Hl as [Hl|[->|Hl]]; [apply elem_of_list_lookup in Hl as [i Hi]; by exists (LeftOf i)|by exists Centre|apply elem_of_list_lookup in Hl as [i Hi]; by exists (RightOf i)]. }
      assert (exists_in h_lane h l).
      { unfold section_lanes in Hl. rewrite !elem_of_app elem_of_list_singleton in Hl. destruct Hl as [Hl|[El'|Hl]].
        - by apply (nd_sec_left h sec l N (Hsec sec Hs)).
        - rewrite El'. exact (proj1 (proj2 (nd_sec _ N _ _ (exists_at _ _ _ (Hsec sec Hs))))).
        - by apply (nd_sec_right h sec l N (Hsec sec Hs)). }
      split; [done|]. split; [by apply kept_at|]. exists (h_road h !!! y), sec, p. split; [by apply exists_at|done].
    - intros x Hx. apply kept_at; [done|]. by apply (nd_road _ N _ _ (exists_at _ _ _ Hy)).
  Qed.

  Lemma put_one h rs r : NoDup (map (road_key h) (rs ++ [r])) → put_roads h (rs ++ [r]) [] = put_roads h rs [] ++ [(road_key h r, r)].
  Proof.
    intros Hn. unfold put_roads. rewrite foldl_app. cbn [foldl]. fold (put_roads h rs []). assert (Hk : road_key h r ∉ map fst (put_roads h rs [])).
    { rewrite put_keys firsts_in. rewrite map_app in Hn. apply NoDup_app in Hn as (_ & Hn & _). intros H. apply (Hn _ H). simpl. left. }
    revert Hk. generalize (put_roads h rs []). intros D. induction D as [|[k v] D IH]; intros Hk; [done|]. simpl in *. apply not_elem_of_cons in Hk as [Hne Hk].
    apply String.eqb_neq in Hne. rewrite Hne. by rewrite IH.
  Qed.
  Lemma put_all h rs : NoDup (map (road_key h) rs) → put_roads h rs [] = map (λ y, (road_key h y, y)) rs.
  Proof.
    induction rs as [|r rs IH] using rev_ind; intros Hn; [done|]. rewrite put_one //. rewrite IH; [by rewrite map_app in Hn; apply NoDup_app in Hn as [? _]|]. by rewrite map_app.
  Qed.

  Lemma sublist_places (l k : list ref) a b y y' : l `sublist_of` k → a < b → l !! a = Some y → l !! b = Some y' → ∃ i j, i < j ∧ k !! i = Some y ∧ k !! j = Some y'.
  Proof.
    intros Hs. revert a b. induction Hs as [|x l k Hs IH|x l k Hs IH]; intros a b Hab Ha Hb; [done| |].
    - destruct b as [|b]; [lia|]. destruct a as [|a].
      + injection Ha as <-. simpl in Hb. apply elem_of_list_lookup_2 in Hb. assert (Hk : y' ∈ k) by (by eapply elem_of_submseteq; [exact Hb|by apply sublist_submseteq]).
        apply elem_of_list_lookup in Hk as [j Hj]. exists 0, (S j). split; [lia|done].
      + destruct (IH a b) as (i & j & Hij & Hi & Hj); [lia|done|done|]. exists (S i), (S j). split; [lia|done].
    - destruct (IH a b) as (i & j & Hij & Hi & Hj); [done..|]. exists (S i), (S j). split; [lia|done].
  Qed.

  (** ** The lanes of such an intersection can be linked *)
  Lemma linked_ok h r r' x h' : step (OpCreateLaneLinks r r') h = (Ok x, h') → is_ok (create_lane_links r r' h).1.
  Proof.
    unfold step, guarded. destruct (_ : bool); [|done]. unfold as_unit. intros E. apply bind_ok in E as ([] & h1 & E & _). by rewrite E.
  Qed.
  Lemma crossing_lanes h (roads js : list ref) junction l rr :
    let R := λ y : ref, h_road h !!! y in
    (∀ y y', y ∈ roads ++ js → y' ∈ roads ++ js → rd_id (R y) = rd_id (R y') → y = y') →
    (∀ y, y ∈ roads ++ js → exists_in h_road h y) → junction ≠ (-1)%Z →
    (∀ y, y ∈ roads → rd_type (R y) = (-1)%Z ∧ ∀ L, rd_pred (R y) = Some L ∨ rd_succ (R y) = Some L → lk_etype L = Some et_junction) →
    (∀ y, y ∈ roads → ∃ s1 s2, first_section h (R y) = Some s1 ∧ last_section h (R y) = Some s2 ∧ lane_counts h s1 = (l, rr) ∧ lane_counts h s2 = (l, rr) ∧
      exists_in h_sec h s1 ∧ exists_in h_sec h s2 ∧ numbered h s1 ∧ numbered h s2) →
    (∀ z, z ∈ js → ∃ ri rm p s cp cs sec, ri ∈ roads ∧ rm ∈ roads ∧ ri ≠ rm ∧ rd_type (R z) = junction ∧ rd_pred (R z) = Some p ∧ rd_succ (R z) = Some s ∧
      lk_id p = rd_id (R ri) ∧ lk_id s = rd_id (R rm) ∧ lk_contact p = Some cp ∧ lk_contact s = Some cs ∧
      sections h (R z) = [sec] ∧ exists_in h_sec h sec ∧ lane_counts h sec = (l, l)) →
    l ≤ rr → (∀ y, y ∈ roads → y ∉ js) →
    ∀ y y', y ∈ roads ++ js → y' ∈ roads ++ js → y ≠ y' → is_ok (create_lane_links y y' h).1.
  Proof.
    intros R Inj Ex Hj Arm Secs Inner Hl Two.
    assert (ArmInner : ∀ y z, y ∈ roads → z ∈ js → is_ok (create_lane_links z y h).1 ∧ is_ok (create_lane_links y z h).1).
    { intros y z Hy Hz. assert (Hy' : y ∈ roads ++ js) by (apply elem_of_app; by left). assert (Hz' : z ∈ roads ++ js) by (apply elem_of_app; by right).
      pose proof (exists_at _ _ _ (Ex y Hy')) as Ey. pose proof (exists_at _ _ _ (Ex z Hz')) as Ez.
      destruct (Inner z Hz) as (ri & rm & p & s & cp & cs & sec & Hri & Hrm & Hne & Ty & Hp & Hs & Ip & Is & Cp & Cs & Hsec & Xsec & Csec).
      assert (Hri' : ri ∈ roads ++ js) by (apply elem_of_app; by left). assert (Hrm' : rm ∈ roads ++ js) by (apply elem_of_app; by left).
      destruct (Arm y Hy) as [Ty' _]. assert (Tz : rd_type (R z) ≠ (-1)%Z) by (by rewrite Ty).
      destruct (Secs y Hy) as (s1 & s2 & F1 & F2 & C1 & C2 & X1 & X2 & N1 & N2).
      destruct (decide (y = ri)) as [->|Hyi]; [|destruct (decide (y = rm)) as [->|Hym]].
      - assert (J : joins (R z) (R ri) "predecessor" cp (rd_off_pred (R z))).
        { eapply joins_start; [done..|]. intros L HL. assert (L = s) as -> by (unfold R in *; congruence). rewrite Is. intros E. apply Hne. by rewrite (Inj rm ri Hrm' Hri' E). }
        destruct (joined_runs h z ri _ _ "predecessor" cp _ sec s1 Ez Ey J) as (D1 & D2 & D3); [|by unfold joint_section|done|done|by rewrite Csec C1|rewrite Csec C1; exact Hl|].
        + unfold joint_section, first_section. simpl. unfold R in Hsec. by rewrite Hsec.
        + rewrite D1 D2 D3. by split.
      - assert (J : joins (R z) (R rm) "successor" cs (rd_off_suc (R z))).
        { eapply joins_end; [done..| |]; [by rewrite Hp|]. intros L HL. assert (L = p) as -> by (unfold R in *; congruence). rewrite Ip. intros E. apply Hne. exact (Inj ri rm Hri' Hrm' E). }
        destruct (joined_runs h z rm _ _ "successor" cs _ sec s2 Ez Ey J) as (D1 & D2 & D3); [|by unfold joint_section|done|done|by rewrite Csec C2|rewrite Csec C2; exact Hl|].
        + unfold joint_section, last_section. simpl. unfold R in Hsec. by rewrite Hsec.
        + rewrite D1 D2 D3. by split.
      - destruct (C27_unrelated h z y _ _ Ez Ey Tz Ty') as [A B]; [by unfold R in Hp; rewrite Hp|by unfold R in Hs; rewrite Hs|..].
        + intros L HL. assert (L = p) as -> by (unfold R in *; congruence). rewrite Ip. intros E. apply Hyi. symmetry. exact (Inj ri y Hri' Hy' E).
        + intros L HL. assert (L = s) as -> by (unfold R in *; congruence). rewrite Is. intros E. apply Hym. symmetry. exact (Inj rm y Hrm' Hy' E).
        + split; by eapply linked_ok. }
    intros y y' [Hy|Hy]%elem_of_app [Hy'|Hy']%elem_of_app Hne.
    - assert (In : y ∈ roads ++ js) by (apply elem_of_app; by left). assert (In' : y' ∈ roads ++ js) by (apply elem_of_app; by left).
      destruct (Arm y Hy) as [T L], (Arm y' Hy') as [T' L']. eapply (linked_ok h y y').
      refine (C28_not_consecutive h y y' _ _ (exists_at _ _ _ (Ex y In)) (exists_at _ _ _ (Ex y' In')) T T' _).
      intros a b K M [[-> ->]|[-> ->]] HK HM EK EM _ _.
      + rewrite (L K (or_intror HK)) in EK. done.
      + rewrite (L' K (or_intror HK)) in EK. done.
    - exact (proj2 (ArmInner y y' Hy Hy')).
    - exact (proj1 (ArmInner y' y Hy' Hy)).
    - destruct (Inner y Hy) as (ri & rm & p & s & cp & cs & sec & Hri & Hrm & _ & Ty & Hp & Hs & Ip & Is & _).
      destruct (Inner y' Hy') as (ri' & rm' & p' & s' & cp' & cs' & sec' & Hri' & Hrm' & _ & Ty' & Hp' & Hs' & Ip' & Is' & _).
      assert (NN : ∀ z z' q t a b, z' ∈ js → rd_pred (R z) = Some q → rd_succ (R z) = Some t → a ∈ roads → b ∈ roads → lk_id q = rd_id (R a) → lk_id t = rd_id (R b) → ¬ names (R z) (R z')).
      { intros z z' q t a b Hz' Hq Ht Ha Hb Eq Et (L & [HL|HL] & E).
        - assert (L = q) as -> by congruence. rewrite Eq in E. assert (a = z') as -> by (apply Inj; [apply elem_of_app; by left|apply elem_of_app; by right|done]). exact (Two z' Ha Hz').
        - assert (L = t) as -> by congruence. rewrite Et in E. assert (b = z') as -> by (apply Inj; [apply elem_of_app; by left|apply elem_of_app; by right|done]). exact (Two z' Hb Hz'). }
      pose proof (NN y y' p s ri rm Hy' Hp Hs Hri Hrm Ip Is) as N1. pose proof (NN y' y p' s' ri' rm' Hy Hp' Hs' Hri' Hrm' Ip' Is') as N2.
      assert (T : rd_type (h_road h !!! y) ≠ (-1)%Z) by (unfold R in Ty; by rewrite Ty). assert (T' : rd_type (h_road h !!! y') ≠ (-1)%Z) by (unfold R in Ty'; by rewrite Ty').
      unfold create_lane_links, get_road. rewrite !bind_gets. rewrite (bool_decide_false (rd_type (h_road h !!! y) = _)) //. cbn [andb negb].
      unfold create_links_connecting_road, get_road. rewrite !bind_gets.
      rewrite (related_unnamed (h_road h !!! y) (h_road h !!! y') T' N1 N2). rewrite (related_unnamed (h_road h !!! y') (h_road h !!! y) T N2 N1).
      unfold R in *. rewrite Hp Hs Hp' Hs'. done.
  Qed.

  (** with fewer right than left lanes, the first connecting road cannot be linked with the road it starts at *)
  Lemma crossing_short h (roads js : list ref) l rr z :
    let R := λ y : ref, h_road h !!! y in
    (∀ y y', y ∈ roads ++ js → y' ∈ roads ++ js → rd_id (R y) = rd_id (R y') → y = y') →
    (∀ y, y ∈ roads ++ js → exists_in h_road h y) →
    (∀ y, y ∈ roads → rd_type (R y) = (-1)%Z) →
    (∀ y, y ∈ roads → ∃ s1, first_section h (R y) = Some s1 ∧ lane_counts h s1 = (l, rr)) →
    z ∈ js → rd_type (R z) ≠ (-1)%Z →
    (∃ ri rm p s cp sec, ri ∈ roads ∧ rm ∈ roads ∧ ri ≠ rm ∧ rd_pred (R z) = Some p ∧ rd_succ (R z) = Some s ∧
      lk_id p = rd_id (R ri) ∧ lk_id s = rd_id (R rm) ∧ lk_contact p = Some cp ∧ sections h (R z) = [sec] ∧ lane_counts h sec = (l, l)) →
    rr < l → ∃ y, y ∈ roads ∧ ∀ h', create_lane_links z y h ≠ (Ok tt, h') ∧ create_lane_links y z h ≠ (Ok tt, h').
  Proof.
    intros R Inj Ex Ty Secs Hz Tz (ri & rm & p & s & cp & sec & Hri & Hrm & Hne & Hp & Hs & Ip & Is & Cp & Hsec & Csec) Hl. exists ri. split; [done|].
    assert (Hri' : ri ∈ roads ++ js) by (apply elem_of_app; by left). assert (Hrm' : rm ∈ roads ++ js) by (apply elem_of_app; by left).
    assert (Hz' : z ∈ roads ++ js) by (apply elem_of_app; by right). destruct (Secs ri Hri) as (s1 & F1 & C1).
    assert (J : joins (R z) (R ri) "predecessor" cp (rd_off_pred (R z))).
    { eapply joins_start; [done|by apply Ty|done..|]. intros L HL. assert (L = s) as -> by (unfold R in *; congruence). rewrite Is. intros E. apply Hne. by rewrite (Inj rm ri Hrm' Hri' E). }
    eapply (C27_refuted_fewer h z ri _ _ "predecessor" cp _ sec s1 (exists_at _ _ _ (Ex z Hz')) (exists_at _ _ _ (Ex ri Hri')) J).
    - unfold joint_section, first_section. simpl. unfold R in Hsec. by rewrite Hsec.
    - unfold joint_section. done.
    - right. rewrite Csec C1. done.
  Qed.

  (** the roads are given in an order, the connecting roads come in an order: whatever way these two orders are mixed when the roads are added,
      with the first of the given roads coming first *)
  Theorem C72_intersection (numbers : ∀ x : F, fstr x ≠ "None") date h d x roads angles r junction sp ap num l rr ll :
    (* as for C32 *)
    reachable h → NoDup roads → 2 ≤ length roads ≤ length angles → Forall (exists_in h_road h) roads → (∀ y, y ∈ roads → ends_with_lanes h l rr (h_road h !!! y)) → 1 ≤ l →
    junction_linelength r sp = Ok ll → fiszero (fdiv (fofZ 1) r) = false → fiszero (fneg (fdiv (fofZ 1) r)) = false →
    (* roads without links, with different ids, and with no planview and no lane in common *)
    (∀ y, y ∈ roads → loose_road h y) → (∀ y y', y ∈ roads → y' ∈ roads → y ≠ y' → ¬ in_common h y y') → junction ≠ (-1)%Z →
    NoDup (map (road_key h) roads ++ map (λ k, pretty (num + Z.of_nat k)%Z) (seq 0 (length (pairs (length roads))))) →
    (* the first road has a start point, or none has *)
    (∀ y, head roads = Some y → pv_fixed (view h (h_road h !!! y)) = true ∨ ∀ y', y' ∈ roads → pv_fixed (view h (h_road h !!! y')) = false) →
    (* an empty OpenDrive *)
    h_odr h !! d = Some x → od_roads x = [] → od_junctions x = [] →
    ∃ js h1 j h2, step (OpCreateJunctionRoads roads angles r junction sp ap num) h = (Ok (RRefs js), h1) ∧
      step (OpCreateJunction js (PInt junction) roads) h1 = (Ok (RRef j), h2) ∧
      ∀ adds order, roads_added adds = order → junctions_added adds = [j] →
        order ≡ₚ roads ++ js → roads `sublist_of` order → js `sublist_of` order → head order = head roads →
        let h3 := run h2 (map (add_call d) adds) in
        flows_forward h3 d ∧
        (* placing the roads succeeds if a road has the id of the junction, or if every road without start point, but the first, is added after the connecting road
           from the first road to it *)
        (pretty junction ∈ net_keys h3 d ∨
           (∀ m y z, 1 ≤ m → roads !! m = Some y → pv_fixed (view h (h_road h !!! y)) = false → js !! (m - 1) = Some z → ∃ a b, a < b ∧ order !! a = Some z ∧ order !! b = Some y) →
         evaluable_network h3 d → (∃ h4, step (OpAdjustStartpoints d) h3 = (Ok RNone, h4)) ∧
           (* and then the lanes can be linked, too *)
           (l ≤ rr → (∀ y s, y ∈ roads → first_section h (h_road h !!! y) = Some s ∨ last_section h (h_road h !!! y) = Some s → numbered h s) →
            ∃ h4, step (OpAdjustRoadsAndLanes d) h3 = (Ok RNone, h4))) ∧
        (* otherwise it cannot succeed *)
        (∀ m y z, pretty junction ∉ net_keys h3 d → 1 ≤ m → roads !! m = Some y → pv_fixed (view h (h_road h !!! y)) = false → js !! (m - 1) = Some z →
           (∀ a b, order !! a = Some z → order !! b = Some y → b ≤ a) →
           ∀ h4, step (OpAdjustStartpoints d) h3 ≠ (Ok RNone, h4) ∧ step (OpAdjustRoadsAndLanes d) h3 ≠ (Ok RNone, h4)) ∧
        (* nor can the lanes be linked if the roads have fewer lanes on the right than on the left *)
        (rr < l → ∀ h4, step (OpAdjustRoadsAndLanes d) h3 ≠ (Ok RNone, h4)) ∧
        ∀ h4, step (OpAdjustRoadsAndLanes d) h3 = (Ok RNone, h4) →
          (∀ k o, road_named h3 d k = Some o → ∃ q, put_forward h3 (view h3 o) (view h4 o) q) ∧ network_placed h4 d ∧
          ∃ e, odr_element date h4 d = Ok e ∧ v_OpenDRIVE F e.
  Proof.
    intros Hr ND Ln EX LN L1 ELL Z1 Z2 Loose Apart Hj Ids First Hd Er Ej.
    assert (FR : ∀ i y, roads !! i = Some y → (if bool_decide (i = 0) then rd_succ (h_road h !!! y) else rd_pred (h_road h !!! y)) = None).
    { intros i y Hi. destruct (Loose y (elem_of_list_lookup_2 _ _ _ Hi)) as (_ & A & B & _). by destruct (bool_decide (i = 0)). }
    destruct (C32_create_junction_roads h roads angles r junction sp ap num l rr ll Hr ND Ln EX LN L1 FR ELL Z1 Z2) as (js & h1 & E1 & U & At & Ljs & NDj & ApJ & K).
    assert (Hr1 : reachable h1). { pose proof (step_reachable h (OpCreateJunctionRoads roads angles r junction sp ap num) Hr) as R. by rewrite E1 in R. }
    apply NoDup_app in Ids as (Ids1 & Ids2 & Ids3).
    (* the roads of the junction *)
    assert (Kz : ∀ k z, js !! k = Some z → ∃ i m ri rm pv ls sec gs, pairs (length roads) !! k = Some (i, m) ∧ roads !! i = Some ri ∧ roads !! m = Some rm ∧ i ≠ m ∧ k < length (pairs (length roads)) ∧
      let p := SpecJunctionRoads.road_link "predecessor" (rd_id (h_road h !!! ri)) (if bool_decide (i = 0) then cp_end else cp_start) in
      let q := SpecJunctionRoads.road_link "successor" (rd_id (h_road h !!! rm)) cp_start in
      h_road h1 !! z = Some (mkRoad (PInt (num + Z.of_nat k)) pv ls junction None None [p; q] 0 (Some q) (Some p) 0 0 [] []) ∧
      h_pv h !! pv = None ∧ h_pv h1 !! pv = Some (mkPlanview (fofZ 0) (fofZ 0) (fofZ 0) (fofZ 0) false None None gs [] [] false) ∧
      h_lanes h1 !! ls = Some [sec] ∧
      (∀ p x, lane_at h1 sec p = Some x → h_lane h !! x = None ∧ ∃ o, h_lane h1 !! x = Some o ∧ ln_links o = [] ∧ ln_roadmark o = Some (standard_mark rmt_broken)) ∧
      gs ≠ [] ∧ ∀ g, g ∈ gs → match h_geom h1 !!! g with GPoly _ _ _ _ _ _ _ _ _ _ => False | _ => True end).
    { intros k z Hz. assert (Hk : k < length (pairs (length roads))) by (rewrite -Ljs; by eapply lookup_lt_Some).
      destruct (lookup_lt_is_Some_2 _ _ Hk) as [[i m] Him]. pose proof (elem_of_list_lookup_2 _ _ _ Him) as B. apply elem_of_pairs in B.
      destruct (lookup_lt_is_Some_2 roads i) as [ri Hi]; [lia|]. destruct (lookup_lt_is_Some_2 roads m) as [rm Hm]; [lia|].
      destruct (lookup_lt_is_Some_2 angles i) as [ai Hai]; [lia|]. destruct (lookup_lt_is_Some_2 angles m) as [am Ham]; [lia|].
      destruct (LN ri (elem_of_list_lookup_2 _ _ _ Hi)) as (s1 & s2 & F1 & F2 & _).
      destruct (K k i m ri rm ai am (if bool_decide (i = 0) then s1 else s2) Him Hi Hm Hai Ham) as (z' & gs & Hz' & [_ Course] & J); [by destruct (bool_decide (i = 0))|].
      rewrite Hz in Hz'. injection Hz' as <-. destruct J as (pv & ls & sec & s & _ & [Npv _] & _ & _ & Hroad & Hpv & Hls & _ & _ & _ & Hlane).
      exists i, m, ri, rm, pv, ls, sec, gs. do 3 (split; [done|]). split; [lia|]. split; [done|]. split; [done|]. split; [done|]. split; [done|]. split; [done|]. split.
      { intros p y Hy. destruct (Hlane p y Hy) as [[Ny _] (o & Ho & Pl & Mk)]. split; [done|]. exists o. destruct Pl as (_ & _ & Lk & _). done. }
      destruct (fiszero _) in Course.
      - destruct Course as (g & -> & Hg). split; [done|]. intros g' ->%elem_of_list_singleton. by rewrite (lookup_total_correct _ _ _ Hg).
      - destruct Course as (g1 & g2 & g3 & x1 & x3 & -> & Hg1 & Hg2 & Hg3 & S1 & S3). split; [done|]. intros g' Hg'.
        assert (Sp : ∀ cs ce a b c (y : geom F), mk_spiral cs ce a b c = Ok y → match y with GPoly _ _ _ _ _ _ _ _ _ _ => False | _ => True end).
        { clear. intros cs ce a b c y. unfold mk_spiral. destruct a, b, c; repeat case_match; try done; by intros [= <-]. }
        rewrite !elem_of_cons elem_of_nil in Hg'. destruct Hg' as [->|[->|[->|[]]]].
        + rewrite (lookup_total_correct _ _ _ Hg1). exact (Sp _ _ _ _ _ _ S1).
        + by rewrite (lookup_total_correct _ _ _ Hg2).
        + rewrite (lookup_total_correct _ _ _ Hg3). exact (Sp _ _ _ _ _ _ S3). }
    assert (KzSec : ∀ k z, js !! k = Some z → ∃ sec, sections h1 (h_road h1 !!! z) = [sec] ∧ exists_in h_sec h1 sec ∧ lane_counts h1 sec = (l, l)).
    { intros k z Hz. assert (Hk : k < length (pairs (length roads))) by (rewrite -Ljs; by eapply lookup_lt_Some).
      destruct (lookup_lt_is_Some_2 _ _ Hk) as [[i m] Him]. pose proof (elem_of_list_lookup_2 _ _ _ Him) as B. apply elem_of_pairs in B.
      destruct (lookup_lt_is_Some_2 roads i) as [ri Hi]; [lia|]. destruct (lookup_lt_is_Some_2 roads m) as [rm Hm]; [lia|].
      destruct (lookup_lt_is_Some_2 angles i) as [ai Hai]; [lia|]. destruct (lookup_lt_is_Some_2 angles m) as [am Ham]; [lia|].
      destruct (LN ri (elem_of_list_lookup_2 _ _ _ Hi)) as (s1 & s2 & F1 & F2 & _).
      destruct (K k i m ri rm ai am (if bool_decide (i = 0) then s1 else s2) Him Hi Hm Hai Ham) as (z' & gs & Hz' & _ & J); [by destruct (bool_decide (i = 0))|].
      rewrite Hz in Hz'. injection Hz' as <-. destruct J as (pv & ls & sec & s & _ & _ & _ & _ & Hroad & _ & Hls & Hs & _ & Hc & _).
      exists sec. split; [unfold sections; rewrite (lookup_total_correct _ _ _ Hroad); simpl; by apply lookup_total_correct|]. split; [by eexists|done]. }
    assert (At' : ∀ i y, roads !! i = Some y → h_road h1 !!! y = SpecJunctionRoads.attached i junction (h_road h !!! y)).
    { intros i y Hi. by apply lookup_total_correct, At. }
    assert (Same : ∀ y, y ∈ roads → let o := h_road h !!! y in let o' := h_road h1 !!! y in rd_id o' = rd_id o ∧ rd_type o' = rd_type o ∧ rd_planview o' = rd_planview o ∧ rd_lanes o' = rd_lanes o ∧
      rd_objects o' = rd_objects o ∧ rd_signals o' = rd_signals o ∧ rd_rule o' = rd_rule o).
    { intros y [i Hi]%elem_of_list_lookup. cbn zeta. rewrite (At' i y Hi). unfold SpecJunctionRoads.attached. by destruct (bool_decide (i = 0)). }
    assert (Ids1' : NoDup (map (road_key h1) roads)).
    { rewrite (map_ext_in (road_key h1) (road_key h)); [|done]. intros y Hy. unfold road_key. apply elem_of_list_In in Hy. by destruct (Same y Hy) as [-> _]. }
    assert (Diff : ∀ i m ri rm, roads !! i = Some ri → roads !! m = Some rm → i ≠ m → rd_id (h_road h !!! ri) ≠ rd_id (h_road h !!! rm)).
    { intros i m ri rm Hi Hm Hne E. apply Hne. eapply (NoDup_lookup (map (road_key h) roads) i m (road_key h ri)); [done| |].
      - by rewrite list_lookup_fmap Hi.
      - rewrite list_lookup_fmap Hm. simpl. unfold road_key. by rewrite E. }
    assert (WJ : ∀ z, z ∈ js → well_joined h1 roads (h_road h1 !!! z)).
    { intros z Hz. apply elem_of_list_lookup in Hz as [k Hz]. destruct (Kz k z Hz) as (i & m & ri & rm & pv & ls & sec & gs & _ & Hi & Hm & Hne & Hk & Hroad & _ & _ & Hls & _).
      rewrite (lookup_total_correct _ _ _ Hroad). pose proof (elem_of_list_lookup_2 _ _ _ Hi) as Ii. pose proof (elem_of_list_lookup_2 _ _ _ Hm) as Im.
      destruct (Same ri Ii) as (Ki & Ti & _), (Same rm Im) as (Km & Tm & _). destruct (Loose ri Ii) as [Ti' _], (Loose rm Im) as [Tm' _]. rewrite Ti' in Ti. rewrite Tm' in Tm.
      split; [|split].
      - exists (h_road h1 !!! rm), cp_start. split; [by apply found_by_id|]. eapply (joins_end _ _ _ _); simpl; [done|done|reflexivity|done|done|done|].
        intros L [= <-]. simpl. rewrite Km. by apply (Diff i m).
      - exists (h_road h1 !!! ri), (if bool_decide (i = 0) then cp_end else cp_start). split; [by apply found_by_id|].
        eapply (joins_start _ _ _ _); simpl; [done|done|reflexivity|done|done|]. intros L [= <-]. simpl. rewrite Ki. apply not_eq_sym. by apply (Diff i m).
      - unfold sections. simpl. by rewrite (lookup_total_correct _ _ _ Hls). }
    assert (EX1 : Forall (exists_in h_road h1) roads). { apply Forall_forall. intros y Hy. apply elem_of_list_lookup in Hy as [i Hi]. eexists. by apply At. }
    assert (EXj : Forall (exists_in h_road h1) js).
    { apply Forall_forall. intros z Hz. apply elem_of_list_lookup in Hz as [k Hz]. destruct (Kz k z Hz) as (? & ? & ? & ? & ? & ? & ? & ? & _ & _ & _ & _ & _ & Hroad & _). by eexists. }
    destruct (C30_connections h1 js (PInt junction) roads Hr1 EXj EX1 WJ) as (j & h2 & J & E2 & U2 & Nj & EJ & Eid & Lc & _ & _ & Hc).
    exists js, h1, j, h2. split; [done|]. split; [done|]. intros adds order Eord Ejn Hperm Sub1 Sub2 Hhead.
    assert (Hr2 : reachable h2). { pose proof (step_reachable h1 (OpCreateJunction js (PInt junction) roads) Hr1) as R. by rewrite E2 in R. }
    destruct U2 as (A1 & A2 & A3 & A4 & A5 & _ & _ & _ & A9 & U2r & U2o & _). destruct U as (B1 & B2 & B3 & B4 & B5 & _ & _ & _ & B9 & _ & U1o & _).
    assert (Hd2 : h_odr h2 !! d = Some x) by (by apply U2o, U1o).
    rewrite Forall_forall in EX1. rewrite Forall_forall in EXj. rewrite Forall_forall in EX.
    assert (ExA : ∀ y, y ∈ roads ++ js → exists_in h_road h1 y) by (intros y [Hy|Hy]%elem_of_app; auto).
    assert (In : ∀ y, y ∈ order ↔ y ∈ roads ++ js) by (intros y; by rewrite Hperm).
    assert (Hadd : Forall (λ a : ref + ref, match a with inl r => exists_in h_road h2 r | inr j => exists_in h_junc h2 j end) adds).
    { apply Forall_forall. intros [y|y] Ha.
      - assert (Hy : y ∈ order) by (rewrite -Eord; unfold roads_added; apply elem_of_list_omap; by exists (inl y)).
        destruct (ExA y (proj1 (In y) Hy)) as [o Ho]. exists o. by apply U2r.
      - assert (Hy : y ∈ junctions_added adds) by (unfold junctions_added; apply elem_of_list_omap; by exists (inr y)).
        rewrite Ejn in Hy. apply elem_of_list_singleton in Hy as ->. by eexists. }
    pose proof (adds_run h2 d adds x Hd2 Hadd) as E3. rewrite Er Ej Eord Ejn in E3. cbn [app] in E3.
    assert (Hr3 : reachable (run h2 (map (add_call d) adds))) by (by apply run_reachable).
    set (h3 := run h2 (map (add_call d) adds)) in *.
    (* what is known of the network *)
    assert (P13 : parts_kept h1 h3) by (rewrite E3; split_and!; done).
    assert (P03 : parts_kept h h3) by (eapply parts_trans; [|exact P13]; split_and!; done).
    assert (R3 : ∀ y, y ∈ roads ++ js → h_road h3 !!! y = h_road h1 !!! y).
    { intros y Hy. rewrite E3. simpl. destruct (ExA y Hy) as [o Ho]. rewrite (lookup_total_correct _ _ _ Ho). by apply lookup_total_correct, U2r. }
    assert (K32 : ∀ y, road_key h3 y = road_key h2 y) by (intros y; rewrite E3; done).
    assert (Key3 : ∀ y, y ∈ roads ++ js → road_key h3 y = road_key h1 y) by (intros y Hy; unfold road_key; by rewrite R3).
    assert (KeyJ : ∀ k z, js !! k = Some z → road_key h1 z = pretty (num + Z.of_nat k)%Z).
    { intros k z Hz. destruct (Kz k z Hz) as (? & ? & ? & ? & ? & ? & ? & ? & _ & _ & _ & _ & _ & Hroad & _). unfold road_key. by rewrite (lookup_total_correct _ _ _ Hroad). }
    assert (EK : map (road_key h3) (roads ++ js) = map (road_key h) roads ++ map (λ k, pretty (num + Z.of_nat k)%Z) (seq 0 (length (pairs (length roads))))).
    { rewrite map_app. f_equal.
      - apply map_ext_in. intros y Hy. apply elem_of_list_In in Hy. rewrite Key3; [apply elem_of_app; by left|]. unfold road_key. by destruct (Same y Hy) as [-> _].
      - apply list_eq. intros k. rewrite !list_lookup_fmap -Ljs. destruct (js !! k) as [z|] eqn:Hz.
        + rewrite lookup_seq_lt; [by eapply lookup_lt_Some|]. simpl. f_equal. rewrite Key3; [apply elem_of_app; right; by eapply elem_of_list_lookup_2|]. by apply KeyJ.
        + rewrite lookup_seq_ge; [by apply lookup_ge_None|]. done. }
    assert (Keys : NoDup (map (road_key h3) order)).
    { eapply NoDup_Permutation_proper; [by apply Permutation_map|]. rewrite EK. by apply NoDup_app. }
    assert (Dict : od_roads (h_odr h3 !!! d) = map (λ y, (road_key h3 y, y)) order).
    { rewrite {1}E3. simpl. rewrite lookup_total_insert. simpl. rewrite put_all; [by rewrite (map_ext _ (road_key h3)); [|]|]. apply map_ext. intros y. by rewrite K32. }
    assert (Jn : od_junctions (h_odr h3 !!! d) = [j]) by (rewrite E3; simpl; by rewrite lookup_total_insert).
    assert (J3 : jn_conns (h_junc h3 !!! j) ≠ []).
    { rewrite E3. simpl. rewrite (lookup_total_correct _ _ _ EJ). intros E. rewrite E in Lc. simpl in Lc.
      pose proof (length_pairs (length roads)) as LP. rewrite -Ljs in LP. nia. }
    assert (Hd3 : exists_in h_odr h3 d) by (rewrite E3; simpl; eexists; apply lookup_insert).
    clearbody h3. clear E3 Hadd.
    (* the given roads *)
    assert (Arm : ∀ y, y ∈ roads → let o := h_road h3 !!! y in rd_id o = rd_id (h_road h !!! y) ∧ rd_rule o = rd_rule (h_road h !!! y) ∧
      rd_planview o = rd_planview (h_road h !!! y) ∧ rd_objects o = rd_objects (h_road h !!! y) ∧ rd_signals o = rd_signals (h_road h !!! y) ∧
      view h3 o = view h (h_road h !!! y) ∧
      (∀ g, g ∈ pv_raw (view h (h_road h !!! y)) → h_geom h3 !!! g = h_geom h !!! g) ∧
      sections h3 o = sections h (h_road h !!! y) ∧ road_lanes h3 y = road_lanes h y ∧
      (∀ l, l ∈ road_lanes h y → exists_in h_lane h l ∧ h_lane h3 !!! l = h_lane h !!! l ∧ has_lane h y l) ∧
      (∀ x, x ∈ rd_objects (h_road h !!! y) ++ rd_signals (h_road h !!! y) → h_obj h3 !!! x = h_obj h !!! x)).
    { intros y Hy. cbn zeta. assert (Hy' : y ∈ roads ++ js) by (apply elem_of_app; by left). destruct (Same y Hy) as (S1 & S2 & S3 & S4 & S5 & S6 & S7).
      destruct (road_part h h3 y Hr (EX y Hy) P03) as (V1 & V2 & V3 & V4 & V5 & V6); try (rewrite (R3 y Hy'); done).
      split; [rewrite (R3 y Hy'); done|]. split; [rewrite (R3 y Hy'); done|]. split; [rewrite (R3 y Hy'); done|]. split; [rewrite (R3 y Hy'); done|]. split; [rewrite (R3 y Hy'); done|]. done. }
    (* the connecting roads *)
    assert (Inner : ∀ k z, js !! k = Some z → ∃ i m ri rm p q gs, pairs (length roads) !! k = Some (i, m) ∧ roads !! i = Some ri ∧ roads !! m = Some rm ∧
      p = SpecJunctionRoads.road_link "predecessor" (rd_id (h_road h !!! ri)) (if bool_decide (i = 0) then cp_end else cp_start) ∧
      q = SpecJunctionRoads.road_link "successor" (rd_id (h_road h !!! rm)) cp_start ∧
      let o := h_road h3 !!! z in
      rd_type o = junction ∧ rd_rule o = None ∧ rd_links o = [p; q] ∧ rd_pred o = Some p ∧ rd_succ o = Some q ∧ rd_objects o = [] ∧ rd_signals o = [] ∧
      h_pv h !! rd_planview o = None ∧ rd_planview o = rd_planview (h_road h1 !!! z) ∧
      view h3 o = mkPlanview (fofZ 0) (fofZ 0) (fofZ 0) (fofZ 0) false None None gs [] [] false ∧
      gs ≠ [] ∧ (∀ g, g ∈ gs → match h_geom h3 !!! g with GPoly _ _ _ _ _ _ _ _ _ _ => False | _ => True end) ∧
      sections h3 o ≠ [] ∧
      ∀ l, l ∈ road_lanes h3 z → h_lane h !! l = None ∧ has_lane h1 z l ∧ ln_links (h_lane h3 !!! l) = [] ∧ ln_roadmark (h_lane h3 !!! l) = Some (standard_mark rmt_broken)).
    { intros k z Hz. pose proof (elem_of_list_lookup_2 _ _ _ Hz) as Zin. assert (Hz' : z ∈ roads ++ js) by (apply elem_of_app; by right).
      destruct (Kz k z Hz) as (i & m & ri & rm & pv & ls & sec & gs & Hk & Hi & Hm & _ & _ & Hroad & Npv & Hpv & Hls & Hlane & Gne & Gs).
      destruct (road_part h1 h3 z Hr1 (EXj z Zin) P13) as (V1 & V2 & V3 & V4 & V5 & V6); try (rewrite (R3 z Hz'); done).
      pose proof (lookup_total_correct _ _ _ Hroad) as Ro. rewrite -(R3 z Hz') in Ro.
      assert (Vz : view h1 (h_road h1 !!! z) = mkPlanview (fofZ 0) (fofZ 0) (fofZ 0) (fofZ 0) false None None gs [] [] false).
      { unfold view. rewrite (lookup_total_correct _ _ _ Hroad). simpl. by apply lookup_total_correct. }
      assert (Sz : sections h1 (h_road h1 !!! z) = [sec]).
      { unfold sections. rewrite (lookup_total_correct _ _ _ Hroad). simpl. by apply lookup_total_correct. }
      rewrite Vz in V1, V2. rewrite Sz in V3.
      exists i, m, ri, rm. eexists _, _. exists gs. do 3 (split; [done|]). do 2 (split; [reflexivity|]). cbn zeta. rewrite V1 V3.
      split; [by rewrite Ro|]. split; [by rewrite Ro|]. split; [by rewrite Ro|]. split; [by rewrite Ro|]. split; [by rewrite Ro|]. split; [by rewrite Ro|]. split; [by rewrite Ro|].
      split; [by rewrite Ro|]. split; [by rewrite (R3 z Hz')|]. split; [done|]. split; [done|]. split; [intros g Hg; rewrite (V2 g Hg); by apply Gs|]. split; [done|].
      intros l0 Hl. rewrite V4 in Hl. destruct (V5 l0 Hl) as (_ & El & Hhas). destruct Hhas as (o & sec' & p & Ho & Hsec & Hp).
      pose proof (lookup_total_correct _ _ _ Ho) as Eo. rewrite -Eo Sz in Hsec. apply elem_of_list_singleton in Hsec as ->.
      destruct (Hlane p l0 Hp) as (Nl & o' & Ho' & Lk & Mk). split; [done|]. split; [exists o, sec, p; split; [done|]; split; [rewrite -Eo Sz; by apply elem_of_list_singleton|done]|].
      rewrite El (lookup_total_correct _ _ _ Ho'). done. }
    assert (Two : ∀ y, y ∈ roads ++ js → y ∈ roads ∨ ∃ k, js !! k = Some y).
    { intros y [Hy|Hy]%elem_of_app; [by left|right]. by apply elem_of_list_lookup. }
    assert (ArmsC : ∀ i y, roads !! i = Some y → rd_type (h_road h3 !!! y) = (-1)%Z ∧
      if bool_decide (i = 0) then rd_pred (h_road h3 !!! y) = None ∧ rd_succ (h_road h3 !!! y) = Some (junction_link "successor" junction)
      else rd_pred (h_road h3 !!! y) = Some (junction_link "predecessor" junction) ∧ rd_succ (h_road h3 !!! y) = None).
    { intros i y Hi. pose proof (elem_of_list_lookup_2 _ _ _ Hi) as Hy. destruct (Loose y Hy) as (T1 & T2 & T3 & _).
      rewrite R3; [apply elem_of_app; by left|]. rewrite (At' i y Hi). unfold SpecJunctionRoads.attached. destruct (bool_decide (i = 0)); simpl; by rewrite ?T1 ?T2 ?T3. }
    assert (Joins : ∀ k z, js !! k = Some z → ∃ i m ri rm p s, pairs (length roads) !! k = Some (i, m) ∧ roads !! i = Some ri ∧ roads !! m = Some rm ∧
      rd_type (h_road h3 !!! z) = junction ∧ rd_pred (h_road h3 !!! z) = Some p ∧ rd_succ (h_road h3 !!! z) = Some s ∧ lk_id p = rd_id (h_road h3 !!! ri) ∧ lk_id s = rd_id (h_road h3 !!! rm) ∧
      lk_etype p = Some et_road ∧ lk_etype s = Some et_road ∧ lk_contact s = Some cp_start).
    { intros k z Hz. destruct (Inner k z Hz) as (i & m & ri & rm & p & q & gs & Hk & Hi & Hm & Ep & Eq & Ty & _ & _ & Hp & Hq & _).
      exists i, m, ri, rm, p, q. do 6 (split; [done|]). destruct (Arm ri (elem_of_list_lookup_2 _ _ _ Hi)) as [-> _]. destruct (Arm rm (elem_of_list_lookup_2 _ _ _ Hm)) as [-> _].
      by rewrite Ep Eq. }
    assert (Fresh : ∀ y, y ∈ roads ++ js → pv_adjusted (view h3 (h_road h3 !!! y)) = false ∧ pv_geoms (view h3 (h_road h3 !!! y)) = [] ∧ pv_s (view h3 (h_road h3 !!! y)) = fofZ 0).
    { intros y [Hy|[k Hy]]%Two.
      - destruct (Arm y Hy) as (_ & _ & _ & _ & _ & -> & _). destruct (Loose y Hy) as (_ & _ & _ & _ & T1 & T2 & T3 & _). done.
      - destruct (Inner k y Hy) as (? & ? & ? & ? & ? & ? & gs & _ & _ & _ & _ & _ & _ & _ & _ & _ & _ & _ & _ & _ & _ & -> & _). done. }
    assert (PvA : ∀ y, y ∈ roads → is_Some (h_pv h !! rd_planview (h_road h3 !!! y))).
    { intros y Hy. destruct (Arm y Hy) as (_ & _ & -> & _). apply (nd_road_pv h y (reachable_no_dangling _ Hr)). by apply EX. }
    assert (PvJ : ∀ k z, js !! k = Some z → h_pv h !! rd_planview (h_road h3 !!! z) = None ∧ rd_planview (h_road h3 !!! z) = rd_planview (h_road h1 !!! z)).
    { intros k z Hz. by destruct (Inner k z Hz) as (? & ? & ? & ? & ? & ? & gs & _ & _ & _ & _ & _ & _ & _ & _ & _ & _ & _ & _ & ? & ? & _). }
    assert (ApartC : ∀ y y', y ∈ roads ++ js → y' ∈ roads ++ js → y ≠ y' → rd_planview (h_road h3 !!! y) ≠ rd_planview (h_road h3 !!! y')).
    { intros y y' [Hy|[k Hy]]%Two [Hy'|[k' Hy']]%Two Hne E.
      - apply (Apart y y' Hy Hy' Hne). left. destruct (Arm y Hy) as (_ & _ & <- & _). by destruct (Arm y' Hy') as (_ & _ & <- & _).
      - destruct (PvA y Hy) as [v Hv]. rewrite E (proj1 (PvJ k' y' Hy')) in Hv. done.
      - destruct (PvA y' Hy') as [v Hv]. rewrite -E (proj1 (PvJ k y Hy)) in Hv. done.
      - apply (ApJ y y'); [by eapply elem_of_list_lookup_2|by eapply elem_of_list_lookup_2|done|]. left. rewrite -(proj2 (PvJ k y Hy)) E. exact (proj2 (PvJ k' y' Hy')). }
    assert (Moving : ∀ z, z ∈ js → pv_fixed (view h3 (h_road h3 !!! z)) = false).
    { intros z [k Hz]%elem_of_list_lookup. destruct (Inner k z Hz) as (? & ? & ? & ? & ? & ? & gs & _ & _ & _ & _ & _ & _ & _ & _ & _ & _ & _ & _ & _ & _ & -> & _). done. }
    assert (FirstC : ∀ y, roads !! 0 = Some y → pv_fixed (view h3 (h_road h3 !!! y)) = true ∨ ∀ y', y' ∈ roads → pv_fixed (view h3 (h_road h3 !!! y')) = false).
    { intros y Hy. destruct (First y) as [Hf|Hf]; [by rewrite head_lookup| |].
      - left. by destruct (Arm y (elem_of_list_lookup_2 _ _ _ Hy)) as (_ & _ & _ & _ & _ & -> & _).
      - right. intros y' Hy'. destruct (Arm y' Hy') as (_ & _ & _ & _ & _ & -> & _). by apply Hf. }
    assert (HeadO : head order = roads !! 0) by (by rewrite -head_lookup).
    assert (ArmsIn : ∀ a b y y', a < b → roads !! a = Some y → roads !! b = Some y' → ∃ i j, i < j ∧ order !! i = Some y ∧ order !! j = Some y') by (intros a b y y'; by apply sublist_places).
    assert (InnerIn : ∀ a b y y', a < b → js !! a = Some y → js !! b = Some y' → ∃ i j, i < j ∧ order !! i = Some y ∧ order !! j = Some y') by (intros a b y y'; by apply sublist_places).
    assert (L2 : 2 ≤ length roads) by lia.
    assert (FL : flows_forward h3 d) by (by eapply (crossing_flows h3 d roads js junction order)).
    assert (Fr : fresh_network h3 d) by (by eapply (crossing_fresh h3 d roads js order)).
    assert (Step : ∀ h4, step (OpAdjustRoadsAndLanes d) h3 = (Ok RNone, h4) → adjust_roads_and_lanes d h3 = (Ok tt, h4)).
    { intros h4 Hadj. unfold step, guarded in Hadj. rewrite (has_true _ _ _ Hd3) in Hadj. unfold as_unit in Hadj. apply bind_ok in Hadj as ([] & h' & Ha & Hb). by injection Hb as <-. }
    assert (Co : connects_ordinary h3 d) by (by eapply (crossing_ordinary h3 d roads js junction order)).
    assert (Fixed3 : ∀ y, y ∈ roads → pv_fixed (view h3 (h_road h3 !!! y)) = pv_fixed (view h (h_road h !!! y))).
    { intros y Hy. by destruct (Arm y Hy) as (_ & _ & _ & _ & _ & -> & _). }
    assert (InnerL : ∀ z, z ∈ js → ∃ ri rm p s cp cs sec, ri ∈ roads ∧ rm ∈ roads ∧ ri ≠ rm ∧ rd_type (h_road h3 !!! z) = junction ∧ rd_pred (h_road h3 !!! z) = Some p ∧ rd_succ (h_road h3 !!! z) = Some s ∧
      lk_id p = rd_id (h_road h3 !!! ri) ∧ lk_id s = rd_id (h_road h3 !!! rm) ∧ lk_contact p = Some cp ∧ lk_contact s = Some cs ∧
      sections h3 (h_road h3 !!! z) = [sec] ∧ exists_in h_sec h3 sec ∧ lane_counts h3 sec = (l, l)).
    { intros z Hzin. pose proof Hzin as Hz. apply elem_of_list_lookup in Hz as [k Hz].
      destruct (Inner k z Hz) as (i & m & ri & rm & p & q & gs & Hk & Hi & Hm & Ep & Eq & Ty & _ & _ & Hp & Hq & _).
      destruct (KzSec k z Hz) as (sec & Hsec & Xsec & Csec). pose proof (elem_of_list_lookup_2 _ _ _ Hi) as Ii. pose proof (elem_of_list_lookup_2 _ _ _ Hm) as Im.
      assert (Him : i ≠ m). { apply elem_of_list_lookup_2, elem_of_pairs in Hk. lia. }
      destruct (road_part h1 h3 z Hr1 (EXj z Hzin) P13) as (_ & _ & V3 & _); try (rewrite (R3 z); [apply elem_of_app; by right|done]).
      assert (Ks : kept h_sec h1 h3) by apply P13.
      eexists ri, rm, p, q, _, cp_start, sec. split; [exact Ii|]. split; [exact Im|]. split; [intros E; apply (Diff i m ri rm Hi Hm Him); by rewrite E|]. split; [exact Ty|].
      split; [exact Hp|]. split; [exact Hq|]. destruct (Arm ri Ii) as [-> _], (Arm rm Im) as [-> _]. split; [by rewrite Ep|]. split; [by rewrite Eq|]. split; [by rewrite Ep|]. split; [by rewrite Eq|].
      split; [by rewrite V3|]. split.
      - destruct Xsec as [v Hv]. exists v. by apply Ks.
      - unfold lane_counts. by rewrite (kept_at h_sec h1 h3 sec Ks Xsec). }
    split; [done|]. split.
    { intros Way Hev. assert (OS : one_sweep h3 d).
      { apply (crossing_sweep h3 d roads js junction order); try done.
        - intros z P Hz HP. destruct (InnerL z Hz) as (ri & rm & p & s & cp & cs & sec & _ & _ & _ & _ & Hp & _ & _ & _ & Cp & _). assert (P = p) as -> by congruence. by rewrite Cp.
        - destruct Way as [?|W]; [by left|right]. intros m y z Hm Hy Hf Hz. apply (W m y z Hm Hy); [|done]. rewrite -(Fixed3 y); [by eapply elem_of_list_lookup_2|done]. }
      assert (Hne : net_keys h3 d ≠ []).
      { destruct (lookup_lt_is_Some_2 roads 0) as [y0 Hy0]; [lia|]. intros E. pose proof (key_at h3 d order Dict 0 y0) as Hk0. rewrite E in Hk0. rewrite -head_lookup HeadO in Hk0. by specialize (Hk0 Hy0). }
      destruct (C73_sweep h3 d Fr Co Hev OS Hne) as [h4 E4]. split.
      - exists h4. unfold step, guarded. rewrite (has_true _ _ _ Hd3). unfold as_unit. by rewrite (bind_run _ _ _ _ _ E4).
      - intros Hl Hnum. assert (OK : is_ok (adjust_roads_and_lanes d h3).1).
        { apply C73_lanes. split; [by rewrite E4|]. intros i i' k k' y y' Hij Hi Hi' Hy Hy'.
          apply dict_get_elem in Hy, Hy'. rewrite Dict in Hy, Hy'. apply elem_of_list_fmap in Hy as (z & [= -> ->] & Hz), Hy' as (z' & [= -> ->] & Hz').
          assert (Ks : kept h_sec h h3) by apply P03. assert (Kl : kept h_lane h h3) by apply P03. pose proof (reachable_no_dangling _ Hr) as N.
          eapply (crossing_lanes h3 roads js junction l rr); [..|by apply In|by apply In|].
          - intros a b Ha Hb E. eapply (key_inj h3 roads js order); try done. unfold road_key. by rewrite E.
          - intros a Ha. pose proof (proj2 (In a) Ha) as Ha'. eapply (nd_odr _ (reachable_no_dangling _ Hr3) _ _ (exists_at _ _ _ Hd3)). instantiate (1 := road_key h3 a). rewrite Dict. apply elem_of_list_fmap. by exists a.
          - done.
          - intros a Ha. pose proof Ha as [i0 Hi0]%elem_of_list_lookup. split; [by destruct (ArmsC i0 a Hi0)|]. intros L HL. by eapply (arm_link h3 roads junction).
          - intros a Ha. destruct (LN a Ha) as (s1 & s2 & F1 & F2 & C1 & C2). exists s1, s2. destruct (Arm a Ha) as (_ & _ & _ & _ & _ & _ & _ & Es & _).
            assert (Xs : ∀ s, s ∈ sections h (h_road h !!! a) → exists_in h_sec h s).
            { intros s Hs. apply (nd_lanes_sec h (rd_lanes (h_road h !!! a)) s N); [by apply (nd_road_lanes h a N), EX|exact Hs]. }
            assert (X1 : exists_in h_sec h s1) by (apply Xs; by apply head_Some_elem_of). assert (X2 : exists_in h_sec h s2) by (apply Xs; by apply last_Some_elem_of).
            assert (Up : ∀ s, exists_in h_sec h s → exists_in h_sec h3 s) by (intros s [v Hv]; exists v; by apply Ks).
            assert (Num : ∀ s, exists_in h_sec h s → numbered h s → numbered h3 s).
            { intros s Xs' Hn p x0 Hp. destruct Xs' as [v Hv]. unfold lane_at in Hp. rewrite (Ks s v Hv) in Hp. assert (Hp' : lane_at h s p = Some x0) by (unfold lane_at; by rewrite Hv).
              assert (Xl : exists_in h_lane h x0).
              { assert (Xs' : exists_in h_sec h s) by (by eexists). pose proof (lookup_total_correct _ _ _ Hv) as Ev. destruct p as [|n|n]; simpl in Hp.
                - injection Hp as <-. exact (proj1 (proj2 (nd_sec _ N _ _ Hv))).
                - apply (nd_sec_left h s x0 N Xs'). rewrite Ev. by eapply elem_of_list_lookup_2.
                - apply (nd_sec_right h s x0 N Xs'). rewrite Ev. by eapply elem_of_list_lookup_2. }
              rewrite (kept_at h_lane h h3 x0 Kl Xl). exact (Hn p x0 Hp'). }
            assert (Cnt : ∀ s, exists_in h_sec h s → lane_counts h3 s = lane_counts h s) by (intros s Xs'; unfold lane_counts; by rewrite (kept_at h_sec h h3 s Ks Xs')).
            unfold first_section, last_section. rewrite Es. split; [exact F1|]. split; [exact F2|]. rewrite !Cnt //. split; [done|]. split; [done|].
            split; [by apply Up|]. split; [by apply Up|]. split; (apply Num; [done|]; apply (Hnum a _ Ha)); [by left|by right].
          - exact InnerL.
          - done.
          - intros a Ha Hb. by eapply (two_kinds h3 roads js junction).
          - intros ->. pose proof (NoDup_lookup _ i i' (road_key h3 z') (fn_keys _ _ Fr) Hi Hi'). lia. }
        destruct (adjust_roads_and_lanes d h3) as [[[]|e] h5] eqn:E5; [|done]. exists h5. unfold step, guarded. rewrite (has_true _ _ _ Hd3). unfold as_unit. by rewrite (bind_run _ _ _ _ _ E5). }
    split.
    { intros m y z Hid Hm Hy Hf Hz Hbefore. pose proof (elem_of_list_lookup_2 _ _ _ Hy) as Hin.
      destruct (crossing_stuck h3 d roads js junction order) with (m := m) (y := y) (x := z) as (i & Hi & Hroot & Hpre); try done; [by rewrite (Fixed3 y Hin)|].
      destruct (ArmsC m y Hy) as [_ A]. rewrite bool_decide_false in A; [lia|]. destruct A as [A _].
      destruct (C72_refuted_blocked h3 d i (road_key h3 y) (h_road h3 !!! y) (junction_link "predecessor" junction) Fr Hi Hroot) as [Stuck1 Stuck2]; [|by left|exact Hid|exact Hpre|].
      - eapply (named_at h3 d roads js order); try done. apply elem_of_app. by left.
      - intros h4. split; [|intros E; by apply (Stuck2 h4), Step]. intros E. unfold step, guarded in E. rewrite (has_true _ _ _ Hd3) in E. unfold as_unit in E.
        apply bind_ok in E as ([] & h' & Ha & Hb). exact (Stuck1 h' Ha). }
    split.
    { intros Hshort h4 Hadj. assert (Hz0 : is_Some (js !! 0)).
      { apply lookup_lt_is_Some_2. rewrite Ljs. assert (X : (0, 1) ∈ pairs (length roads)) by (apply elem_of_pairs; lia). destruct (pairs (length roads)); [by apply elem_of_nil in X|simpl; lia]. }
      destruct Hz0 as [z Hz0]. assert (Hz : z ∈ js) by (by eapply elem_of_list_lookup_2).
      destruct (InnerL z Hz) as (ri & rm & p & s & cp & cs & sec & Hri & Hrm & Hne & Ty & Hp & Hs & Ip & Is & Cp & Cs & Hsec & Xsec & Csec).
      assert (ExO : ∀ a, a ∈ roads ++ js → exists_in h_road h3 a).
      { intros a Ha. pose proof (proj2 (In a) Ha) as Ha'. eapply (nd_odr _ (reachable_no_dangling _ Hr3) _ _ (exists_at _ _ _ Hd3)). instantiate (1 := road_key h3 a). rewrite Dict. apply elem_of_list_fmap. by exists a. }
      destruct (crossing_short h3 roads js l rr z) as (y & Hy & Bad); try done.
      - intros a b Ha Hb E. eapply (key_inj h3 roads js order); try done. unfold road_key. by rewrite E.
      - intros a Ha. apply elem_of_list_lookup in Ha as [i0 Hi0]. by destruct (ArmsC i0 a Hi0).
      - intros a Ha. destruct (LN a Ha) as (s1 & s2 & F1 & F2 & C1 & C2). exists s1. destruct (Arm a Ha) as (_ & _ & _ & _ & _ & _ & _ & Es & _).
        unfold first_section. rewrite Es. split; [exact F1|]. assert (Ks : kept h_sec h h3) by apply P03. unfold lane_counts. rewrite (kept_at h_sec h h3 s1 Ks); [|exact C1].
        apply (nd_lanes_sec h (rd_lanes (h_road h !!! a)) s1 (reachable_no_dangling _ Hr)); [by apply (nd_road_lanes h a (reachable_no_dangling _ Hr)), EX|by apply head_Some_elem_of].
      - by rewrite Ty.
      - exists ri, rm, p, s, cp, sec. done.
      - assert (Hyz : y ≠ z) by (intros ->; by eapply (two_kinds h3 roads js junction)).
        assert (OK : is_ok (adjust_roads_and_lanes d h3).1) by (by rewrite (Step h4 Hadj)). apply C73_lanes in OK as [_ OK].
        assert (Pos : ∀ a, a ∈ roads ++ js → ∃ i, net_keys h3 d !! i = Some (road_key h3 a) ∧ dict_get (od_roads (h_odr h3 !!! d)) (road_key h3 a) = Some a).
        { intros a Ha. pose proof (proj2 (In a) Ha) as [i Hi]%elem_of_list_lookup. exists i. split; [exact (key_at h3 d order Dict i a Hi)|].
          apply dict_in; [exact (fn_keys _ _ Fr)|]. rewrite Dict. apply elem_of_list_fmap. exists a. split; [reflexivity|by eapply elem_of_list_lookup_2]. }
        assert (Fails : ∀ a b, (∀ h', create_lane_links a b h3 ≠ (Ok tt, h')) → ¬ is_ok (create_lane_links a b h3).1).
        { intros a b HB. destruct (create_lane_links a b h3) as [[[]|e] h5] eqn:E5; [by destruct (HB h5)|by intros []]. }
        destruct (Pos y) as (i & Hi & Gi); [apply elem_of_app; by left|]. destruct (Pos z) as (j' & Hj' & Gj); [apply elem_of_app; by right|].
        destruct (Nat.lt_trichotomy i j') as [Hij|[->|Hij]].
        + apply (Fails y z (λ h', proj2 (Bad h'))). exact (OK i j' _ _ y z Hij Hi Hj' Gi Gj).
        + rewrite Hi in Hj'. injection Hj' as Hj'. rewrite Hj' in Gi. congruence.
        + apply (Fails z y (λ h', proj1 (Bad h'))). exact (OK j' i _ _ z y Hij Hj' Hi Gj Gi). }
    intros h4 Hadj.
    assert (Pl : plain_pairs h3 d) by (by eapply (crossing_plain h3 d roads js junction order)).
    assert (Pf : predecessors_first h3 d) by (by eapply (crossing_first h3 d roads js junction order)).
    assert (Each : ∀ k y, (k, y) ∈ od_roads (h_odr h3 !!! d) → k = road_key h3 y ∧ y ∈ roads ++ js).
    { intros k y Hk. rewrite Dict in Hk. apply elem_of_list_fmap in Hk as (y' & [= -> ->] & Hy). split; [done|]. by apply In. }
    assert (Dr : drawn h3 d).
    { intros k o (y & Hy & _ & ->)%(named_are h3 d roads js order Dict Keys In). apply Two in Hy as [Hy|[kk Hy]].
      - destruct (Arm y Hy) as (_ & _ & _ & _ & _ & -> & G & _). destruct (Loose y Hy) as (_ & _ & _ & _ & _ & _ & _ & N & Rg & _). split; [done|].
        intros g Hg. rewrite (G g Hg). by apply Rg.
      - destruct (Inner kk y Hy) as (? & ? & ? & ? & ? & ? & gs & _ & _ & _ & _ & _ & _ & _ & _ & _ & _ & _ & _ & _ & _ & -> & N & G & _). split; [done|].
        intros g Hg. specialize (G g Hg). by destruct (h_geom h3 !!! g). }
    assert (La : lanes_apart h3 d).
    { intros k k' y y' l0 Hk Hk' Hl Hl'. destruct (Each k y Hk) as [-> Hy]. destruct (Each k' y' Hk') as [-> Hy']. destruct (decide (y = y')) as [->|Hne]; [done|exfalso].
      apply Two in Hy as [Hy|[kk Hy]]; apply Two in Hy' as [Hy'|[kk' Hy']].
      - destruct (Arm y Hy) as (_ & _ & _ & _ & _ & _ & _ & _ & Ly & Xy & _), (Arm y' Hy') as (_ & _ & _ & _ & _ & _ & _ & _ & Ly' & Xy' & _). rewrite Ly in Hl. rewrite Ly' in Hl'.
        apply (Apart y y' Hy Hy' Hne). right. exists l0. by destruct (Xy l0 Hl) as (_ & _ & ?), (Xy' l0 Hl') as (_ & _ & ?).
      - destruct (Arm y Hy) as (_ & _ & _ & _ & _ & _ & _ & _ & Ly & Xy & _). rewrite Ly in Hl. destruct (Xy l0 Hl) as ([v Hv] & _).
        destruct (Inner kk' y' Hy') as (? & ? & ? & ? & ? & ? & gs & _ & _ & _ & _ & _ & _ & _ & _ & _ & _ & _ & _ & _ & _ & _ & _ & _ & _ & X). destruct (X l0 Hl') as [Hn _]. by rewrite Hn in Hv.
      - destruct (Arm y' Hy') as (_ & _ & _ & _ & _ & _ & _ & _ & Ly & Xy & _). rewrite Ly in Hl'. destruct (Xy l0 Hl') as ([v Hv] & _).
        destruct (Inner kk y Hy) as (? & ? & ? & ? & ? & ? & gs & _ & _ & _ & _ & _ & _ & _ & _ & _ & _ & _ & _ & _ & _ & _ & _ & _ & _ & X). destruct (X l0 Hl) as [Hn _]. by rewrite Hn in Hv.
      - destruct (Inner kk y Hy) as (? & ? & ? & ? & ? & ? & gs & _ & _ & _ & _ & _ & _ & _ & _ & _ & _ & _ & _ & _ & _ & _ & _ & _ & _ & X).
        destruct (Inner kk' y' Hy') as (? & ? & ? & ? & ? & ? & gs' & _ & _ & _ & _ & _ & _ & _ & _ & _ & _ & _ & _ & _ & _ & _ & _ & _ & _ & X').
        apply (ApJ y y'); [by eapply elem_of_list_lookup_2|by eapply elem_of_list_lookup_2|done|]. right. exists l0. by destruct (X l0 Hl) as (_ & ? & _), (X' l0 Hl') as (_ & ? & _). }
    assert (Lu : lanes_unlinked h3 d).
    { intros k y l0 Hk Hl. destruct (Each k y Hk) as [_ Hy]. apply Two in Hy as [Hy|[kk Hy]].
      - destruct (Arm y Hy) as (_ & _ & _ & _ & _ & _ & _ & _ & Ly & Xy & _). rewrite Ly in Hl. destruct (Xy l0 Hl) as (_ & -> & _). by destruct (Loose y Hy) as (_ & _ & _ & _ & _ & _ & _ & _ & _ & X & _); apply X.
      - destruct (Inner kk y Hy) as (? & ? & ? & ? & ? & ? & gs & _ & _ & _ & _ & _ & _ & _ & _ & _ & _ & _ & _ & _ & _ & _ & _ & _ & _ & X). by destruct (X l0 Hl) as (_ & _ & ? & _). }
    assert (Gv : network_given h3 d).
    { split; [|split].
      - rewrite Dict. destruct roads as [|y ys] eqn:Er'; [simpl in L2; lia|]. destruct order; [|done]. specialize (In y). exfalso. apply (not_elem_of_nil y). apply In. left.
      - intros k y Hk. destruct (Each k y Hk) as [_ Hy]. pose proof Hy as Hy0. apply Two in Hy as [Hy|[kk Hy]].
        + destruct (Arm y Hy) as (_ & Ru & _ & Ob & Si & _ & _ & Se & Ly & Xy & Xo). destruct (Loose y Hy) as (_ & _ & _ & Lk & _ & _ & _ & _ & _ & _ & G1 & G2 & G3 & G4 & G5 & G6 & G7).
          unfold road_given. cbn zeta. rewrite Ru Ob Si Se. split; [done|]. split.
          { pose proof Hy as [i Hi]%elem_of_list_lookup. rewrite (R3 y Hy0) (At' i y Hi). unfold SpecJunctionRoads.attached. destruct (bool_decide (i = 0)); simpl; rewrite Lk; simpl; split.
            - apply (bool_decide_unpack _); vm_compute; exact I.
            - intros c ->%elem_of_list_singleton. by eexists.
            - apply (bool_decide_unpack _); vm_compute; exact I.
            - intros c ->%elem_of_list_singleton. by eexists. }
          split; [done|]. split; [|split; [|split; [|done]]].
          * intros l0 m0 Hl. rewrite Ly in Hl. destruct (Xy l0 Hl) as (_ & -> & _). by apply G4.
          * intros z Hz. rewrite Xo; [apply elem_of_app; by right|]. by apply G5.
          * intros z Hz. rewrite Xo; [apply elem_of_app; by left|]. by apply G6.
        + destruct (Inner kk y Hy) as (? & ? & ? & ? & p & q & gs & _ & _ & _ & Ep & Eq & _ & Ru & Lk & _ & _ & Ob & Si & _ & _ & _ & _ & _ & Se & X).
          unfold road_given. cbn zeta. rewrite Ru Lk Ob Si. split; [done|]. split.
          { rewrite Ep Eq. split; [apply (bool_decide_unpack _); vm_compute; exact I|]. intros c Hcc. rewrite !elem_of_cons elem_of_nil in Hcc. destruct Hcc as [->|[->|[]]]; by eexists. }
          split; [done|]. split; [|split; [|split; [|by left]]].
          * intros l0 m0 Hl Hm. destruct (X l0 Hl) as (_ & _ & _ & Mk). rewrite Mk in Hm. injection Hm as <-. by intros [? ?].
          * by intros z Hz%elem_of_nil.
          * by intros z Hz%elem_of_nil.
      - intros j' Hj'. rewrite Jn in Hj'. by apply elem_of_list_singleton in Hj' as ->. }
    pose proof (Step h4 Hadj) as E4.
    split; [|split].
    - intros k o Hk. assert (Es : adjust_startpoints d h3 = (Ok tt, (adjust_startpoints d h3).2)).
      { rewrite adjust_roads_and_lanes_split in E4. apply bind_ok in E4 as ([] & h' & Ha & Hb). by rewrite Ha. }
      rewrite adjust_roads_and_lanes_split in E4. apply bind_ok in E4 as ([] & h' & Ha & Hb). pose proof (pres_ok _ _ _ _ _ (lo_link_all d) Hb) as Hlo.
      destruct (C72_forward h3 h' d Fr Co FL Ha k o Hk) as [q Hq]. exists q. assert (Ev : view h4 o = view h' o) by (unfold view; rewrite Hlo; done). by rewrite Ev.
    - exact (C72_placed h3 h4 d Hr3 Hd3 Fr Co FL Dr E4).
    - exact (C72_schema numbers date h3 h4 d Hr3 Hd3 Fr Co FL Dr Pl La Lu Pf Gv E4).
  Qed.

  Lemma has_lane_listed h r l : has_lane h r l → l ∈ road_lanes h r.
  Proof.
    intros (o & sec & p & Ho & Hs & Hp). unfold road_lanes. rewrite (lookup_total_correct _ _ _ Ho). apply elem_concat. exists (section_lanes h sec).
    split; [|by apply (elem_of_list_fmap_1 (section_lanes h))]. unfold lane_at in Hp. destruct (h_sec h !! sec) as [s|] eqn:Es; [|done].
    unfold section_lanes. rewrite (lookup_total_correct _ _ _ Es) !elem_of_app elem_of_list_singleton.
    destruct p; [injection Hp as <-; auto|left; by eapply elem_of_list_lookup_2|right; right; by eapply elem_of_list_lookup_2].
  Qed.
End FlowCrossing.

(** ** A concrete case (arithmetic: quarter turns): four straight roads, joined by six connecting roads, which are added after the first road *)
Section Examples.
  Local Existing Instance QNum.
  Local Open Scope nat_scope.
  Definition loose_test (h : heap Z) (r : ref) : bool := let o := h_road h !!! r in let p := view h o in
    bool_decide (rd_type o = (-1)%Z) && bool_decide (rd_pred o = None) && bool_decide (rd_succ o = None) && bool_decide (rd_links o = []) &&
    negb (pv_adjusted p) && bool_decide (pv_geoms p = []) && bool_decide (pv_s p = 0%Z) && negb (bool_decide (pv_raw p = [])) &&
    forallb (λ g, match h_geom h !!! g with GPoly _ _ _ _ _ _ _ _ _ _ => false | _ => true end) (pv_raw p) &&
    forallb (λ l, bool_decide (ln_links (h_lane h !!! l) = []) && match ln_roadmark (h_lane h !!! l) with Some m => negb (bool_decide (is_Some (rm_line m))) | None => true end) (road_lanes h r) &&
    bool_decide (rd_rule o = None) && negb (bool_decide (sections h o = [])) && bool_decide (rd_signals o = []) && bool_decide (rd_objects o = []).
  Lemma loose_tested (h : heap Z) r : loose_test h r = true → loose_road h r.
  Proof.
    unfold loose_test. cbn zeta. rewrite !andb_true_iff. intros [[[[[[[[[[[[[T1 T2] T3] T4] T5] T6] T7] T8] T9] T10] T11] T12] T13] T14].
    apply bool_decide_eq_true in T1, T2, T3, T4, T6, T7, T11, T13, T14. apply negb_true_iff in T5, T8, T12. apply bool_decide_eq_false in T8, T12.
    unfold loose_road. cbn zeta. do 8 (split; [done|]). split; [intros g Hg; pose proof (forallb_in _ _ _ T9 Hg) as X; simpl in X; by destruct (h_geom h !!! g)|].
    assert (L : ∀ l, l ∈ road_lanes h r → ln_links (h_lane h !!! l) = [] ∧ ∀ m, ln_roadmark (h_lane h !!! l) = Some m → mark_fits m).
    { intros l Hl. pose proof (forallb_in _ _ _ T10 Hl) as X. simpl in X. apply andb_true_iff in X as [X1 X2]. apply bool_decide_eq_true in X1. split; [done|].
      intros m Hm. rewrite Hm in X2. apply negb_true_iff, bool_decide_eq_false in X2. by intros ?. }
    split; [intros l Hl; by apply L|]. unfold road_given. cbn zeta. rewrite T4 T11 T13 T14. split; [done|]. split; [split; [apply (bool_decide_unpack _); vm_compute; exact I|by intros k Hk%elem_of_nil]|].
    split; [done|]. split; [intros l m Hl; by apply (L l Hl)|]. split; [by intros x Hx%elem_of_nil|]. split; [by intros x Hx%elem_of_nil|by left].
  Qed.
  Definition apart_roads (h : heap Z) (rs : list ref) : bool :=
    bool_decide (NoDup (map (λ r, rd_planview (h_road h !!! r)) rs)) && bool_decide (NoDup (concat (map (road_lanes h) rs))).
  Lemma apart_roads_tested (h : heap Z) rs : apart_roads h rs = true → ∀ y y', y ∈ rs → y' ∈ rs → y ≠ y' → ¬ in_common h y y'.
  Proof.
    unfold apart_roads. rewrite andb_true_iff !bool_decide_eq_true. intros [T1 T2] y y' Hy Hy' Hne [E|(l & Hl%has_lane_listed & Hl'%has_lane_listed)].
    - apply elem_of_list_lookup in Hy as [i Hi], Hy' as [j Hj]. assert (i = j) as ->; [|congruence]. eapply (NoDup_lookup _ i j _ T1); rewrite list_lookup_fmap; [by rewrite Hi|by rewrite Hj /= E].
    - clear T1. induction rs as [|r rs IH]; [by apply elem_of_nil in Hy|]. simpl in T2. apply NoDup_app in T2 as (_ & D & T2).
      assert (G : ∀ z, z ∈ rs → l ∈ road_lanes h z → l ∈ concat (map (road_lanes h) rs)) by (intros z Hz Hlz; apply elem_concat; exists (road_lanes h z); split; [done|by apply (elem_of_list_fmap_1 (road_lanes h))]).
      apply elem_of_cons in Hy as [->|Hy]; apply elem_of_cons in Hy' as [->|Hy']; [done| | |by apply IH].
      + apply (D l Hl). by apply (G y').
      + apply (D l Hl'). by apply (G y).
  Qed.

  Definition four_arms : list (op Z) := [OpCreateStraightRoad (PInt 0) 100%Z (-1) 1 3%Z; OpCreateStraightRoad (PInt 1) 100%Z (-1) 1 3%Z;
    OpCreateStraightRoad (PInt 2) 100%Z (-1) 1 3%Z; OpCreateStraightRoad (PInt 3) 100%Z (-1) 1 3%Z; OpOpenDrive "crossing"].
  Definition arms : list ref := [7; 15; 23; 31].
  Example C72_intersection_hypotheses : let h := run heap_init four_arms in
    reachable h ∧ NoDup arms ∧ 2 ≤ length arms ≤ length [0; 1; 2; 3]%Z ∧ Forall (exists_in h_road h) arms ∧ (∀ y, y ∈ arms → ends_with_lanes h 1 1 (h_road h !!! y)) ∧
    (∃ ll, junction_linelength 1%Z 1%Z = Ok ll) ∧ fiszero (fdiv (fofZ 1) 1)%Z = false ∧ fiszero (fneg (fdiv (fofZ 1) 1))%Z = false ∧
    (∀ y, y ∈ arms → loose_road h y) ∧ (∀ y y', y ∈ arms → y' ∈ arms → y ≠ y' → ¬ in_common h y y') ∧
    NoDup (map (road_key h) arms ++ map (λ k, pretty (100 + Z.of_nat k)%Z) (seq 0 (length (pairs (length arms))))) ∧
    (∀ y, head arms = Some y → pv_fixed (view h (h_road h !!! y)) = true ∨ ∀ y', y' ∈ arms → pv_fixed (view h (h_road h !!! y')) = false) ∧
    h_odr h !! 32 = Some (mkOpenDrive "crossing" [] []).
  Proof.
    intros h. split; [by eexists|]. split; [apply (bool_decide_unpack _); vm_compute; exact I|]. split; [simpl; lia|].
    split; [repeat constructor; eexists; vm_compute; reflexivity|]. split.
    { intros x Hx. unfold arms in Hx. rewrite !elem_of_cons elem_of_nil in Hx. destruct Hx as [->|[->|[->|[->|[]]]]]; eexists _, _; split_and!; vm_compute; reflexivity. }
    split; [eexists; vm_compute; reflexivity|]. split; [vm_compute; reflexivity|]. split; [vm_compute; reflexivity|]. split.
    { assert (T : forallb (loose_test h) arms = true) by (vm_compute; reflexivity). intros y Hy. apply loose_tested. exact (forallb_in _ _ _ T Hy). }
    split; [apply apart_roads_tested; vm_compute; reflexivity|]. split; [apply (bool_decide_unpack _); vm_compute; exact I|]. split; [|vm_compute; reflexivity].
    intros y _. right. assert (T : forallb (λ y', negb (pv_fixed (view h (h_road h !!! y')))) arms = true) by (vm_compute; reflexivity).
    intros y' Hy'. pose proof (forallb_in _ _ _ T Hy') as X. by apply negb_true_iff in X.
  Qed.
  (** the calls succeed, although no road has the id of the junction *)
  Definition joining : list (op Z) := [OpCreateJunctionRoads arms [0; 1; 2; 3]%Z 1%Z 500 1%Z 1%Z 100; OpCreateJunction [42; 50; 60; 70; 78; 88] (PInt 500) arms].
  Definition mixed : list ref := [7; 42; 50; 60; 70; 78; 88; 15; 23; 31].
  Example C72_intersection_example : let h2 := run heap_init (four_arms ++ joining) in let h3 := run h2 (map (add_call 32) (map inl mixed ++ [inr 89])) in
    (step (OpCreateJunctionRoads arms [0; 1; 2; 3]%Z 1%Z 500 1%Z 1%Z 100) (run heap_init four_arms)).1 = Ok (RRefs [42; 50; 60; 70; 78; 88]) ∧
    mixed ≡ₚ arms ++ [42; 50; 60; 70; 78; 88] ∧ arms `sublist_of` mixed ∧ [42; 50; 60; 70; 78; 88] `sublist_of` mixed ∧
    net_keys h3 32 = ["0"; "100"; "101"; "102"; "103"; "104"; "105"; "1"; "2"; "3"] ∧
    map jn_id (map (λ j, h_junc h3 !!! j) (od_junctions (h_odr h3 !!! 32))) = [PInt 500] ∧
    (step (OpAdjustRoadsAndLanes 32) h3).1 = Ok RNone.
  Proof.
    intros h2 h3. split; [vm_compute; reflexivity|]. split; [apply (bool_decide_unpack _); vm_compute; exact I|]. split; [unfold mixed, arms; repeat constructor|]. split; [unfold mixed; repeat constructor|].
    split; [vm_compute; reflexivity|]. split; vm_compute; reflexivity.
  Qed.
  (** what the theorem asks for the calls to succeed *)
  Definition evaluable_test (h : heap Z) (g : geom Z) : bool := match g with
    | GLine _ => true
    | GSpiral _ _ (Some l) => negb (fiszero l)
    | GArc _ (Some l) _ => negb (fiszero l)
    | GArc _ None (Some a) => negb (fiszero a)
    | _ => false end.
  Lemma evaluable_tested (h : heap Z) (d : ref) :
    forallb (λ ky : string * ref, let v := view h (h_road h !!! ky.2) in forallb (λ g, evaluable_test h (h_geom h !!! g)) (pv_raw v) && bool_decide (pv_over v = [])) (od_roads (h_odr h !!! d)) = true →
    evaluable_network h d.
  Proof.
    intros T k o Ho. unfold road_named in Ho. destruct (dict_get (od_roads (h_odr h !!! d)) k) as [y|] eqn:Ey; [|done]. simpl in Ho. apply dict_get_elem in Ey.
    pose proof (forallb_in _ _ _ T Ey) as X. cbv beta zeta in X. change ((k, y).2) with y in X. injection Ho as Ho. rewrite Ho in X. apply andb_true_iff in X as [X1 X2]. apply bool_decide_eq_true in X2.
    split; [|by left]. intros g Hg. pose proof (forallb_in _ _ _ X1 Hg) as Y. cbv beta in Y.
    destruct (h_geom h !!! g) as [l|a b [l|]|c [l|] [a|]|]; try done; simpl in Y; apply negb_true_iff in Y; simpl; eauto.
  Qed.
  Definition numbered_test (h : heap Z) (sec : ref) : bool := match h_sec h !! sec with
    | Some s => bool_decide (ln_id (h_lane h !!! ls_center s) = Some 0%Z) &&
        bool_decide (map (λ l, ln_id (h_lane h !!! l)) (ls_left s) = map (λ i, Some (lane_number (LeftOf i))) (seq 0 (length (ls_left s)))) &&
        bool_decide (map (λ l, ln_id (h_lane h !!! l)) (ls_right s) = map (λ i, Some (lane_number (RightOf i))) (seq 0 (length (ls_right s))))
    | None => false end.
  Lemma numbered_tested (h : heap Z) sec : numbered_test h sec = true → numbered h sec.
  Proof.
    unfold numbered_test. destruct (h_sec h !! sec) as [s|] eqn:Es; [|done]. rewrite !andb_true_iff !bool_decide_eq_true. intros [[T1 T2] T3].
    exact (numbered_check h sec s Es T1 T2 T3).
  Qed.
  Lemma four_numbered (h : heap Z) :
    map (λ y, (first_section h (h_road h !!! y), last_section h (h_road h !!! y))) arms = [(Some 3, Some 3); (Some 11, Some 11); (Some 19, Some 19); (Some 27, Some 27)] →
    forallb (numbered_test h) [3; 11; 19; 27] = true →
    ∀ y s, y ∈ arms → first_section h (h_road h !!! y) = Some s ∨ last_section h (h_road h !!! y) = Some s → numbered h s.
  Proof.
    intros T TN y s Hy Hs. apply numbered_tested. assert (X : s ∈ [3; 11; 19; 27]); [|exact (forallb_in _ _ _ TN X)]. clear TN.
    injection T as T1 T2 T3 T4 T5 T6 T7 T8. unfold arms in Hy. rewrite !elem_of_cons elem_of_nil in Hy.
    rewrite !elem_of_cons. destruct Hy as [->|[->|[->|[->|[]]]]], Hs as [Hs|Hs];
      first [left; congruence|right; left; congruence|do 2 right; left; congruence|do 3 right; left; congruence].
  Qed.
  Lemma places_mixed m y z : 1 ≤ m → arms !! m = Some y → [42; 50; 60; 70; 78; 88] !! (m - 1) = Some z → ∃ a b, a < b ∧ mixed !! a = Some z ∧ mixed !! b = Some y.
  Proof.
    intros Hm Hy Hz. destruct m as [|[|[|[|m]]]]; [lia| | | |done]; injection Hy as <-; injection Hz as <-.
    - exists 1, 7; by split; [lia|].
    - exists 2, 8; by split; [lia|].
    - exists 3, 9; by split; [lia|].
  Qed.
  Example C72_intersection_success : let h := run heap_init four_arms in let h2 := run heap_init (four_arms ++ joining) in let h3 := run h2 (map (add_call 32) (map inl mixed ++ [inr 89])) in
    evaluable_network h3 32 ∧ (∀ y s, y ∈ arms → first_section h (h_road h !!! y) = Some s ∨ last_section h (h_road h !!! y) = Some s → numbered h s) ∧
    map (λ y, pv_fixed (view h (h_road h !!! y))) arms = [false; false; false; false] ∧
    (* each arm but the first comes after the road from the first arm to it *)
    (∀ m y z, 1 ≤ m → arms !! m = Some y → [42; 50; 60; 70; 78; 88] !! (m - 1) = Some z → ∃ a b, a < b ∧ mixed !! a = Some z ∧ mixed !! b = Some y).
  Proof.
    intros h h2 h3. split; [apply evaluable_tested; vm_compute; reflexivity|]. split; [apply four_numbered; vm_compute; reflexivity|].
    split; [vm_compute; reflexivity|]. exact places_mixed.
  Qed.
  (** added in the natural order, with junction 500 and with junction 1 (which is also the id of a road) *)
  Definition natural (junction : Z) : list (op Z) :=
    four_arms ++ [OpCreateJunctionRoads arms [0; 1; 2; 3]%Z 1%Z junction 1%Z 1%Z 100; OpCreateJunction [42; 50; 60; 70; 78; 88] (PInt junction) arms] ++
    map (add_call 32) (map inl (arms ++ [42; 50; 60; 70; 78; 88]) ++ [inr 89]).
  Example C72_natural_example : (step (OpAdjustRoadsAndLanes 32) (run heap_init (natural 500))).1 = Err KeyError ∧ (step (OpAdjustRoadsAndLanes 32) (run heap_init (natural 1))).1 = Ok RNone.
  Proof. split; vm_compute; reflexivity. Qed.
  (** two roads with two left lanes and one right lane: they can be joined and placed, but their lanes cannot be linked *)
  Definition lopsided : list (op Z) :=
    [OpLine 100%Z; OpLine 100%Z; OpCreateRoad [0] (PInt 0) 2 1 (-1) STD_ROADMARK_BROKEN 3%Z; OpCreateRoad [1] (PInt 1) 2 1 (-1) STD_ROADMARK_BROKEN 3%Z; OpOpenDrive "c"].
  Definition lopsided_joined : list (op Z) := lopsided ++ [OpCreateJunctionRoads [9; 17] [0; 2]%Z 1%Z 1 1%Z 1%Z 100; OpCreateJunction [28] (PInt 1) [9; 17];
    OpAddRoad 18 9; OpAddRoad 18 28; OpAddRoad 18 17; OpAddJunction 18 29].
  Example C72_lopsided_example : let h := run heap_init lopsided in
    map (λ y, lane_counts h (hd 0 (sections h (h_road h !!! y)))) [9; 17] = [(2, 1); (2, 1)] ∧
    (step (OpCreateJunctionRoads [9; 17] [0; 2]%Z 1%Z 1 1%Z 1%Z 100) h).1 = Ok (RRefs [28]) ∧
    (step (OpAdjustStartpoints 18) (run heap_init lopsided_joined)).1 = Ok RNone ∧ (step (OpAdjustRoadsAndLanes 18) (run heap_init lopsided_joined)).1 = Err IndexError.
  Proof. split; [|split; [|split]]; vm_compute; reflexivity. Qed.
End Examples.

Print Assumptions C72_lopsided_example.
Print Assumptions C72_natural_example.
Print Assumptions C72_intersection_success.

Print Assumptions C72_intersection.
Print Assumptions C72_intersection_hypotheses.
Print Assumptions C72_intersection_example.
