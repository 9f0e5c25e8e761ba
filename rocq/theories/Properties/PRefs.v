(** * C71: references between the elements of a written file *)
From Coq Require Import ssreflect.
From Verif.Model Require Import Api Xml.
From Verif.Inst Require Import Quarter.
From Verif.Spec Require Import SpecState SpecHistory SpecLanes SpecGenerate SpecJunction SpecJunctionRoads SpecXml SpecRefs.
From Verif.Proof Require Import Monad DictFacts NetFrame Reach Steps History Invariants LaneLinks Generate JunctionRoads ReadXml Again.
From Verif.Properties Require Import PHistory PLaneLinks PGenerators PXml PJunction PJunctionRoads.
Local Open Scope general_if_scope.
Local Open Scope nat_scope.

Section Refs.
  Context {F : Type} `{!Num F}.
  Implicit Types (h : heap F).

  (** ** The parts of the document *)
  Lemma road_facts h r e : road_element h r = Ok e → let o := h_road h !!! r in
    xtag e = Some "road" ∧ attr e "id" = Some (pystr (rd_id o)) ∧ attr e "junction" = Some (pretty (rd_type o)) ∧ parts "link" e = [links_element (rd_links o)].
  Proof.
    intros He o. unfold road_element in He. fold o in He. unfold lanes_element in He. destruct (map_res _ _) as [es|] eqn:E; [|done]. cbn [rbind] in He. injection He as <-.
    split; [done|]. split_and!.
    - unfold attr, road_attributes, opt_attr. simpl. destruct (rd_name o) as [[|]|], (rd_rule o) as [[|]|]; done.
    - unfold attr, road_attributes, opt_attr. simpl. destruct (rd_name o) as [[|]|], (rd_rule o) as [[|]|]; done.
    - unfold parts. simpl. rewrite filter_cons_True // !filter_cons_False //. destruct (rd_signals o), (rd_objects o); simpl; rewrite ?filter_cons_False //.
  Qed.
  Lemma document date h d e : odr_element date h d = Ok e →
    Forall2 (λ kr re, road_element h kr.2 = Ok re) (od_roads (h_odr h !!! d)) (parts "road" e) ∧
    parts "junction" e = map (junction_element h) (od_junctions (h_odr h !!! d)).
  Proof.
    unfold odr_element. destruct (map_res _ _) as [rs|] eqn:E; [|done]. cbn [rbind]. intros [= <-]. apply map_res_ok in E.
    assert (T : ∀ x, x ∈ rs → xtag x = Some "road").
    { intros x Hx. apply elem_of_list_lookup in Hx as [i Hi]. destruct (Forall2_lookup_r _ _ _ _ _ E Hi) as (kr & _ & Hkr). by apply road_facts in Hkr as [? _]. }
    assert (J : ∀ x, x ∈ map (junction_element h) (od_junctions (h_odr h !!! d)) → xtag x = Some "junction") by (by intros x (j & -> & _)%elem_of_list_fmap).
    unfold parts. cbn [xchildren elem app]. rewrite !filter_cons_False //. rewrite !filter_app (filter_all _ rs) // (filter_none _ (map _ _)).
    { intros x Hx. by rewrite (J x Hx). }
    rewrite (filter_none _ rs). { intros x Hx. by rewrite (T x Hx). } rewrite filter_all // app_nil_r. done.
  Qed.
  Lemma junction_facts h j : let o := h_junc h !!! j in let e := junction_element h j in
    attr e "id" = Some (pystr (jn_id o)) ∧ parts "connection" e = map (λ c, connection_element (h_conn h !!! c)) (jn_conns o).
  Proof. split; [done|]. unfold parts. apply filter_all. by intros x (c & -> & _)%elem_of_list_fmap. Qed.
  Lemma connection_facts (c : connection) : attr (connection_element c) "incomingRoad" = Some (pystr (cn_incoming c)) ∧ attr (connection_element c) "connectingRoad" = Some (pystr (cn_connecting c)).
  Proof. done. Qed.
  Lemma link_facts (k : link) : attr (link_element k) "elementType" = (enum2str ∘ ElementType_name <$> lk_etype k) ∧
    (is_Some (lk_etype k) → attr (link_element k) "elementId" = Some (pystr (lk_id k))).
  Proof.
    unfold attr. cbn [link_element xattrs]. unfold link_attributes. destruct (lk_etype k); [done|]. split; [|by intros [? [=]]].
    destruct (lk_contact k); [done|]. destruct (lk_dir k); [|done]. by destruct (bool_decide _).
  Qed.
  Lemma roads_named date h d e id : odr_element date h d = Ok e → (named (parts "road" e) id ↔ has_road h d id).
  Proof.
    intros He. destruct (document date h d e He) as [Hr _]. split.
    - intros (x & Hx & Hi). apply elem_of_list_lookup in Hx as [i Hx]. destruct (Forall2_lookup_r _ _ _ _ _ Hr Hx) as ([k r] & Hk & Hkr).
      destruct (road_facts _ _ _ Hkr) as (_ & E & _). exists k, r. split; [by eapply elem_of_list_lookup_2|]. simpl in E. rewrite E in Hi. by injection Hi.
    - intros (k & r & Hk & Hi). apply elem_of_list_lookup in Hk as [i Hk]. destruct (Forall2_lookup_l _ _ _ _ _ Hr Hk) as (x & Hx & Hkr).
      destruct (road_facts _ _ _ Hkr) as (_ & E & _). exists x. split; [by eapply elem_of_list_lookup_2|]. rewrite E. by rewrite -Hi.
  Qed.
  Lemma junctions_named date h d e id : odr_element date h d = Ok e → (named (parts "junction" e) id ↔ has_junction h d id).
  Proof.
    intros He. destruct (document date h d e He) as [_ Hj]. rewrite Hj. split.
    - intros (x & Hx & Hi). apply elem_of_list_fmap in Hx as (j & -> & Hin). exists j. split; [done|]. destruct (junction_facts h j) as [E _]. rewrite E in Hi. by injection Hi.
    - intros (j & Hin & Hi). exists (junction_element h j). split; [by apply elem_of_list_fmap_1|]. destruct (junction_facts h j) as [E _]. rewrite E. by rewrite -Hi.
  Qed.
  (** ** The file has no dangling reference exactly if the network has none *)
  Theorem C71_exact date h d e : odr_element date h d = Ok e → (closed e ↔ network_closed h d).
  Proof.
    intros He. destruct (document date h d e He) as [Hr Hj].
    assert (RN := λ id, roads_named date h d e id He). assert (JN := λ id, junctions_named date h d e id He).
    assert (R1 : ∀ x, x ∈ parts "road" e → ∃ k r, (k, r) ∈ od_roads (h_odr h !!! d) ∧ road_element h r = Ok x).
    { intros x Hx. apply elem_of_list_lookup in Hx as [i Hx]. destruct (Forall2_lookup_r _ _ _ _ _ Hr Hx) as ([k r] & Hk & Hkr). exists k, r. split; [by eapply elem_of_list_lookup_2|done]. }
    assert (R2 : ∀ k r, (k, r) ∈ od_roads (h_odr h !!! d) → ∃ x, x ∈ parts "road" e ∧ road_element h r = Ok x).
    { intros k r Hk. apply elem_of_list_lookup in Hk as [i Hk]. destruct (Forall2_lookup_l _ _ _ _ _ Hr Hk) as (x & Hx & Hkr). exists x. split; [by eapply elem_of_list_lookup_2|done]. }
    split.
    - intros [C1 C2 C3 C4 C5]. split.
      + intros k r l Hk Hl. destruct (R2 k r Hk) as (x & Hx & Hxe). destruct (road_facts _ _ _ Hxe) as (_ & _ & _ & Hp).
        destruct (link_facts l) as [F1 F2]. assert (Hc : link_element l ∈ xchildren (links_element (rd_links (h_road h !!! r)))) by (by apply elem_of_list_fmap_1).
        assert (Hlk : links_element (rd_links (h_road h !!! r)) ∈ parts "link" x) by (rewrite Hp; by apply elem_of_list_singleton).
        destruct (lk_etype l) as [[|]|] eqn:Et; [| |done].
        * apply RN. apply (C1 _ _ _ _ Hx Hlk Hc F1). by apply F2.
        * apply JN. apply (C2 _ _ _ _ Hx Hlk Hc F1). by apply F2.
      + intros k r Hk Ht. destruct (R2 k r Hk) as (x & Hx & Hxe). destruct (road_facts _ _ _ Hxe) as (_ & _ & E & _). apply JN. apply (C3 _ _ Hx E).
        intros E1. apply Ht. change "-1" with (pretty (-1)%Z) in E1. by apply (inj pretty) in E1.
      + intros j c Hin Hc. apply RN. apply (C4 (junction_element h j) (connection_element (h_conn h !!! c))).
        * rewrite Hj. by apply elem_of_list_fmap_1.
        * destruct (junction_facts h j) as [_ ->]. by apply (elem_of_list_fmap_1 (λ c, connection_element (h_conn h !!! c))).
        * done.
      + intros j c Hin Hc. destruct (C5 (junction_element h j) (connection_element (h_conn h !!! c)) (pystr (cn_connecting (h_conn h !!! c)))) as (x & Hx & Ei & Et).
        * rewrite Hj. by apply elem_of_list_fmap_1.
        * destruct (junction_facts h j) as [_ ->]. by apply (elem_of_list_fmap_1 (λ c, connection_element (h_conn h !!! c))).
        * done.
        * destruct (R1 x Hx) as (k & r & Hk & Hxe). destruct (road_facts _ _ _ Hxe) as (_ & E1 & E2 & _). exists k, r. split; [done|].
          rewrite E1 in Ei. injection Ei as Ei. split; [done|]. rewrite E2 in Et. destruct (junction_facts h j) as [E3 _]. rewrite E3 in Et. by injection Et.
    - intros [C1 C2 C3 C4].
      assert (LK : ∀ x l k, x ∈ parts "road" e → l ∈ parts "link" x → k ∈ xchildren l → ∃ n r q, (n, r) ∈ od_roads (h_odr h !!! d) ∧ q ∈ rd_links (h_road h !!! r) ∧ k = link_element q).
      { intros x l k Hx Hl Hk. destruct (R1 x Hx) as (n & r & Hn & Hxe). destruct (road_facts _ _ _ Hxe) as (_ & _ & _ & Hp). rewrite Hp in Hl.
        apply elem_of_list_singleton in Hl as ->. apply elem_of_list_fmap in Hk as (q & -> & Hq). by exists n, r, q. }
      split.
      + intros x l k id Hx Hl Hk Ht Hi. destruct (LK x l k Hx Hl Hk) as (n & r & q & Hn & Hq & ->). destruct (link_facts q) as [F1 F2]. rewrite F1 in Ht.
        specialize (C1 n r q Hn Hq). destruct (lk_etype q) as [[|]|]; [|done|done]. apply RN. rewrite F2 in Hi; [done|]. by injection Hi as <-.
      + intros x l k id Hx Hl Hk Ht Hi. destruct (LK x l k Hx Hl Hk) as (n & r & q & Hn & Hq & ->). destruct (link_facts q) as [F1 F2]. rewrite F1 in Ht.
        specialize (C1 n r q Hn Hq). destruct (lk_etype q) as [[|]|]; [done| |done]. apply JN. rewrite F2 in Hi; [done|]. by injection Hi as <-.
      + intros x id Hx Hi Hne. destruct (R1 x Hx) as (n & r & Hn & Hxe). destruct (road_facts _ _ _ Hxe) as (_ & _ & E & _). rewrite E in Hi. injection Hi as <-.
        apply JN. apply (C2 n r Hn). intros E1. apply Hne. by rewrite E1.
      + intros x c id Hx Hc Hi. rewrite Hj in Hx. apply elem_of_list_fmap in Hx as (j & -> & Hin). destruct (junction_facts h j) as [_ E]. rewrite E in Hc.
        apply elem_of_list_fmap in Hc as (q & -> & Hq). injection Hi as <-. apply RN. by apply (C3 j q).
      + intros x c id Hx Hc Hi. rewrite Hj in Hx. apply elem_of_list_fmap in Hx as (j & -> & Hin). destruct (junction_facts h j) as [Ej E]. rewrite E in Hc.
        apply elem_of_list_fmap in Hc as (q & -> & Hq). injection Hi as <-. destruct (C4 j q Hin Hq) as (k & r & Hk & Ei & Et).
        destruct (R2 k r Hk) as (x & Hx & Hxe). destruct (road_facts _ _ _ Hxe) as (_ & E1 & E2 & _). exists x. split; [done|]. rewrite E1 E2 Ej Ei Et. done.
  Qed.
  (** ** Adjusting does not change it *)
  Lemma closed_same h h' d : h_road h' = h_road h → h_odr h' = h_odr h → h_junc h' = h_junc h → h_conn h' = h_conn h → network_closed h d → network_closed h' d.
  Proof. intros E1 E2 E3 E4 [C1 C2 C3 C4]. split; unfold has_road, has_junction in *; rewrite ?E1 ?E2 ?E3 ?E4; assumption. Qed.
  Lemma adjust_keeps h d' : let h' := (step (OpAdjustRoadsAndLanes d') h).2 in h_road h' = h_road h ∧ h_odr h' = h_odr h ∧ h_junc h' = h_junc h ∧ h_conn h' = h_conn h.
  Proof.
    unfold step, guarded. destruct (has h_odr d' h); [|done]. unfold as_unit.
      rewrite (_ : bind (adjust_roads_and_lanes d') (λ _, ret RNone) h = bind (adjust_startpoints d' ;; link_all d') (λ _, ret RNone) h) //. unfold bind.
      pose proof (nf_adjust_startpoints d' h) as N. destruct (adjust_startpoints d' h) as [[u|ex] h1]; simpl in N; [|destruct N; simpl; auto].
      pose proof (lo_link_all d' h1) as L. destruct (link_all d' h1) as [[u'|ex] h2]; simpl in L; simpl; rewrite L; destruct N; simpl; auto.
  Qed.
  Theorem C71_adjust h d d' : network_closed h d ↔ network_closed (step (OpAdjustRoadsAndLanes d') h).2 d.
  Proof.
    destruct (adjust_keeps h d') as (E1 & E2 & E3 & E4). split; by apply closed_same.
  Qed.

  Lemma step_reachable h (o : op F) : reachable h → reachable (step o h).2.
  Proof. intros Hr. exact (run_reachable h [o] Hr). Qed.
  (** ** An intersection made by the generators *)
  Lemma dict_get_Some_in {V} (d : dict V) k v : dict_get d k = Some v → (k, v) ∈ d.
  Proof. induction d as [|[k' v'] d IH]; [done|]. simpl. destruct (String.eqb k k') eqn:E; [intros [= ->]; apply String.eqb_eq in E as ->; left|right; auto]. Qed.
  Lemma elem_of_dict_set {V} (d : dict V) k v x : x ∈ dict_set d k v → x = (k, v) ∨ x ∈ d.
  Proof.
    induction d as [|[k' v'] d IH]; simpl; [intros ->%elem_of_list_singleton; by left|]. destruct (String.eqb k k') eqn:E.
    - apply String.eqb_eq in E as ->. intros [->|H]%elem_of_cons; [by left|right; by right].
    - intros [->|H]%elem_of_cons; [right; left|]. destruct (IH H) as [->|H']; [by left|right; by right].
  Qed.
  Lemma put_in h rs r : r ∈ rs → (∀ r', r' ∈ rs → road_key h r' = road_key h r → r' = r) → (road_key h r, r) ∈ put_roads h rs [].
  Proof.
    intros Hr Hu. assert (E : dict_get (put_roads h rs []) (road_key h r) = Some r).
    { rewrite put_get. destruct (last (filter _ rs)) as [r'|] eqn:El.
      - apply last_Some in El as [l' El]. assert (Hin : r' ∈ filter (λ r', road_key h r' = road_key h r) rs) by (rewrite El; apply elem_of_app; right; by apply elem_of_list_singleton).
        apply elem_of_list_filter in Hin as [Hk Hin]. by rewrite (Hu r' Hin Hk).
      - apply last_None in El. assert (Hin : r ∈ filter (λ r', road_key h r' = road_key h r) rs) by (by apply elem_of_list_filter). rewrite El in Hin. by apply elem_of_nil in Hin. }
    by apply dict_get_Some_in.
  Qed.
  Lemma put_out h rs k r : (k, r) ∈ put_roads h rs [] → r ∈ rs.
  Proof.
    unfold put_roads. assert (G : ∀ d, (k, r) ∈ foldl (λ d r, dict_set d (road_key h r) r) d rs → r ∈ rs ∨ (k, r) ∈ d).
    { induction rs as [|r' rs IH]; intros d Hd; [by right|]. simpl in Hd. apply IH in Hd as [Hd|Hd]; [left; by right|]. apply elem_of_dict_set in Hd as [[= -> ->]|Hd]; [left; left|by right]. }
    intros Hd. apply G in Hd as [?|Hd]; [done|]. by apply elem_of_nil in Hd.
  Qed.
  Lemma found_by_id h roads x : NoDup (map (road_key h) roads) → x ∈ roads → road_with_id h roads (rd_id (h_road h !!! x)) = Some (h_road h !!! x).
  Proof.
    unfold road_with_id. induction roads as [|y roads IH]; intros Hn Hx; [by apply elem_of_nil in Hx|]. simpl in Hn. apply NoDup_cons in Hn as [Hy Hn]. simpl map.
    destruct (decide (rd_id (h_road h !!! y) = rd_id (h_road h !!! x))) as [E|E].
    - rewrite filter_cons_True //. simpl. apply elem_of_cons in Hx as [->|Hx]; [done|]. exfalso. apply Hy. unfold road_key. rewrite E. by apply (elem_of_list_fmap_1 (road_key h)).
    - rewrite filter_cons_False //. apply IH; [done|]. apply elem_of_cons in Hx as [->|Hx]; done.
  Qed.
  Lemma attached_same i junction o : rd_id (attached i junction o) = rd_id o ∧ rd_type (attached i junction o) = rd_type o ∧
    ∀ k, k ∈ rd_links (attached i junction o) → k ∈ rd_links o ∨ lk_etype k = Some et_junction ∧ lk_id k = PInt junction.
  Proof.
    unfold attached. destruct (bool_decide (i = 0)); simpl; (do 2 (split; [done|])); intros k Hk; apply elem_of_app in Hk as [Hk|Hk]; auto;
      apply elem_of_list_singleton in Hk as ->; by right.
  Qed.
  Theorem C71_intersection date h d x roads angles r junction sp ap num l rr ll :
    (* as for C32 *)
    reachable h → NoDup roads → 2 ≤ length roads ≤ length angles → Forall (exists_in h_road h) roads → (∀ y, y ∈ roads → ends_with_lanes h l rr (h_road h !!! y)) → 1 ≤ l →
    (∀ i y, roads !! i = Some y → (if bool_decide (i = 0) then rd_succ (h_road h !!! y) else rd_pred (h_road h !!! y)) = None) →
    junction_linelength r sp = Ok ll → fiszero (fdiv (fofZ 1) r) = false → fiszero (fneg (fdiv (fofZ 1) r)) = false →
    (* ordinary roads; what they are linked to already are roads of the list; the ids are different *)
    junction ≠ (-1)%Z → (∀ y, y ∈ roads → rd_type (h_road h !!! y) = (-1)%Z) →
    (∀ y k, y ∈ roads → k ∈ rd_links (h_road h !!! y) → ∃ z, lk_etype k = Some et_road ∧ z ∈ roads ∧ road_key h z = pystr (lk_id k)) →
    NoDup (map (road_key h) roads ++ map (λ k, pretty (num + Z.of_nat k)%Z) (seq 0 (length (pairs (length roads))))) →
    (* an empty OpenDrive *)
    h_odr h !! d = Some x → od_roads x = [] → od_junctions x = [] →
    ∃ js h1 j h2, step (OpCreateJunctionRoads roads angles r junction sp ap num) h = (Ok (RRefs js), h1) ∧
      step (OpCreateJunction js (PInt junction) roads) h1 = (Ok (RRef j), h2) ∧
      (* all the roads and the junction are added, in any order *)
      ∀ adds, (∀ a, a ∈ adds ↔ a ∈ map inl (roads ++ js) ++ [inr j]) →
        let h3 := run h2 (map (add_call d) adds) in let h4 := (step (OpAdjustRoadsAndLanes d) h3).2 in
        (∃ e, odr_element date h3 d = Ok e ∧ closed e) ∧ (∃ e, odr_element date h4 d = Ok e ∧ closed e).
  Proof.
    intros Hr ND Ln EX LN L1 FR ELL Z1 Z2 Hj Ty Lk Ids Hd Er Ej.
    destruct (C32_create_junction_roads h roads angles r junction sp ap num l rr ll Hr ND Ln EX LN L1 FR ELL Z1 Z2) as (js & h1 & E1 & U & At & Ljs & NDj & _ & K).
    assert (Hr1 : reachable h1). { pose proof (run_reachable h [OpCreateJunctionRoads roads angles r junction sp ap num] Hr) as R. change (reachable (step (OpCreateJunctionRoads roads angles r junction sp ap num) h).2) in R. by rewrite E1 in R. }
    apply NoDup_app in Ids as (Ids1 & Ids2 & Ids3).
    (* the roads of the junction *)
    assert (Kz : ∀ k z, js !! k = Some z → ∃ i m ri rm pv ls sec, roads !! i = Some ri ∧ roads !! m = Some rm ∧ i ≠ m ∧ k < length (pairs (length roads)) ∧
      let p := road_link "predecessor" (rd_id (h_road h !!! ri)) (if bool_decide (i = 0) then cp_end else cp_start) in let q := road_link "successor" (rd_id (h_road h !!! rm)) cp_start in
      h_road h1 !! z = Some (mkRoad (PInt (num + Z.of_nat k)) pv ls junction None None [p; q] 0 (Some q) (Some p) 0 0 [] []) ∧ h_lanes h1 !! ls = Some [sec]).
    { intros k z Hz. assert (Hk : k < length (pairs (length roads))) by (rewrite -Ljs; by eapply lookup_lt_Some).
      destruct (lookup_lt_is_Some_2 _ _ Hk) as [[i m] Him]. pose proof (elem_of_list_lookup_2 _ _ _ Him) as B. apply elem_of_pairs in B.
      destruct (lookup_lt_is_Some_2 roads i) as [ri Hi]; [lia|]. destruct (lookup_lt_is_Some_2 roads m) as [rm Hm]; [lia|].
      destruct (lookup_lt_is_Some_2 angles i) as [ai Hai]; [lia|]. destruct (lookup_lt_is_Some_2 angles m) as [am Ham]; [lia|].
      destruct (LN ri (elem_of_list_lookup_2 _ _ _ Hi)) as (s1 & s2 & F1 & F2 & _).
      destruct (K k i m ri rm ai am (if bool_decide (i = 0) then s1 else s2) Him Hi Hm Hai Ham) as (z' & gs & Hz' & _ & J); [by destruct (bool_decide (i = 0))|].
      rewrite Hz in Hz'. injection Hz' as <-. destruct J as (pv & ls & sec & s & _ & _ & _ & _ & Hroad & _ & Hls & _).
      exists i, m, ri, rm, pv, ls, sec. do 2 (split; [done|]). split; [lia|]. split; [done|]. split; done. }
    assert (At' : ∀ y, y ∈ roads → ∃ i, h_road h1 !!! y = attached i junction (h_road h !!! y)).
    { intros y Hy. apply elem_of_list_lookup in Hy as [i Hi]. exists i. by apply lookup_total_correct, At. }
    assert (Key : ∀ y, y ∈ roads → rd_id (h_road h1 !!! y) = rd_id (h_road h !!! y)) by (intros y Hy; destruct (At' y Hy) as [i ->]; by apply attached_same).
    assert (Ids1' : NoDup (map (road_key h1) roads)).
    { rewrite (map_ext_in (road_key h1) (road_key h)); [|done]. intros y Hy. unfold road_key. rewrite Key //. by apply elem_of_list_In. }
    assert (Diff : ∀ i m ri rm, roads !! i = Some ri → roads !! m = Some rm → i ≠ m → rd_id (h_road h !!! ri) ≠ rd_id (h_road h !!! rm)).
    { intros i m ri rm Hi Hm Hne E. apply Hne. eapply (NoDup_lookup (map (road_key h) roads) i m (road_key h ri)); [done| |].
      - by rewrite list_lookup_fmap Hi.
      - rewrite list_lookup_fmap Hm. simpl. unfold road_key. by rewrite E. }
    assert (WJ : ∀ z, z ∈ js → well_joined h1 roads (h_road h1 !!! z)).
    { intros z Hz. apply elem_of_list_lookup in Hz as [k Hz]. destruct (Kz k z Hz) as (i & m & ri & rm & pv & ls & sec & Hi & Hm & Hne & Hk & Hroad & Hls).
      rewrite (lookup_total_correct _ _ _ Hroad). pose proof (elem_of_list_lookup_2 _ _ _ Hi) as Ii. pose proof (elem_of_list_lookup_2 _ _ _ Hm) as Im.
      assert (Ti : rd_type (h_road h1 !!! ri) = (-1)%Z) by (destruct (At' ri Ii) as [i' ->]; destruct (attached_same i' junction (h_road h !!! ri)) as (_ & -> & _); auto).
      assert (Tm : rd_type (h_road h1 !!! rm) = (-1)%Z) by (destruct (At' rm Im) as [i' ->]; destruct (attached_same i' junction (h_road h !!! rm)) as (_ & -> & _); auto).
      split; [|split].
      - exists (h_road h1 !!! rm), cp_start. split; [by apply found_by_id|]. eapply (joins_end _ _ _ _); simpl; [done|done|reflexivity|by rewrite Key|done|done|].
        intros L [= <-]. simpl. rewrite Key //. by apply (Diff i m).
      - exists (h_road h1 !!! ri), (if bool_decide (i = 0) then cp_end else cp_start). split; [by apply found_by_id|].
        eapply (joins_start _ _ _ _); simpl; [done|done|reflexivity|by rewrite Key|done|]. intros L [= <-]. simpl. rewrite Key //. apply not_eq_sym. by apply (Diff i m).
      - unfold sections. simpl. by rewrite (lookup_total_correct _ _ _ Hls). }
    assert (EX1 : Forall (exists_in h_road h1) roads). { apply Forall_forall. intros y Hy. apply elem_of_list_lookup in Hy as [i Hi]. eexists. by apply At. }
    assert (EXj : Forall (exists_in h_road h1) js).
    { apply Forall_forall. intros z Hz. apply elem_of_list_lookup in Hz as [k Hz]. destruct (Kz k z Hz) as (? & ? & ? & ? & ? & ? & ? & _ & _ & _ & _ & Hroad & _). by eexists. }
    destruct (C30_connections h1 js (PInt junction) roads Hr1 EXj EX1 WJ) as (j & h2 & J & E2 & U2 & Nj & EJ & Eid & Lc & _ & _ & Hc).
    exists js, h1, j, h2. split; [done|]. split; [done|]. intros adds Hadds.
    assert (Hr2 : reachable h2). { pose proof (run_reachable h1 [OpCreateJunction js (PInt junction) roads] Hr1) as R. change (reachable (step (OpCreateJunction js (PInt junction) roads) h1).2) in R. by rewrite E2 in R. }
    destruct U2 as (_ & _ & _ & _ & _ & _ & _ & _ & _ & U2r & U2o & _). destruct U as (_ & _ & _ & _ & _ & _ & _ & _ & _ & _ & U1o & _).
    assert (Hd2 : h_odr h2 !! d = Some x) by (by apply U2o, U1o).
    assert (R2 : ∀ y, exists_in h_road h1 y → h_road h2 !!! y = h_road h1 !!! y). { intros y [o Ho]. rewrite (lookup_total_correct _ _ _ Ho). by apply lookup_total_correct, U2r. }
    rewrite Forall_forall in EX1. rewrite Forall_forall in EXj.
    assert (Radd : ∀ y, y ∈ roads_added adds ↔ y ∈ roads ++ js).
    { intros y. unfold roads_added. rewrite elem_of_list_omap. split.
      - intros ([y'|y'] & Ha & Hy'); [|done]. injection Hy' as ->. apply Hadds, elem_of_app in Ha as [Ha|Ha]; [|by apply elem_of_list_singleton in Ha].
        apply elem_of_list_fmap in Ha as (y' & Ey & Hy'). by injection Ey as ->.
      - intros Hy. exists (inl y). split; [|done]. apply Hadds, elem_of_app. left. by apply elem_of_list_fmap_1. }
    assert (Jadd : ∀ y, y ∈ junctions_added adds ↔ y = j).
    { intros y. unfold junctions_added. rewrite elem_of_list_omap. split.
      - intros ([y'|y'] & Ha & Hy'); [done|]. injection Hy' as ->. apply Hadds, elem_of_app in Ha as [Ha|Ha]; [|by apply elem_of_list_singleton in Ha; injection Ha].
        apply elem_of_list_fmap in Ha as (y' & Ey & Hy'). done.
      - intros ->. exists (inr j). split; [|done]. apply Hadds, elem_of_app. right. by apply elem_of_list_singleton. }
    assert (Hadd : Forall (λ a : ref + ref, match a with inl r => exists_in h_road h2 r | inr j => exists_in h_junc h2 j end) adds).
    { apply Forall_forall. intros [y|y] Ha.
      - assert (Hy : y ∈ roads ++ js) by (apply Radd, elem_of_list_omap; by exists (inl y)).
        assert (exists_in h_road h1 y) as [o Ho] by (apply elem_of_app in Hy as [Hy|Hy]; auto). exists o. by apply U2r.
      - assert (y = j) as -> by (apply Jadd, elem_of_list_omap; by exists (inr y)). by eexists. }
    pose proof (adds_run h2 d adds x Hd2 Hadd) as E3. rewrite Er Ej in E3. cbn [app] in E3.
    assert (Hr3 : reachable (run h2 (map (add_call d) adds))) by (by apply run_reachable).
    (* the network *)
    assert (ExA : ∀ y, y ∈ roads ++ js → exists_in h_road h1 y) by (intros y [Hy|Hy]%elem_of_app; auto).
    assert (Key2 : ∀ y, y ∈ roads ++ js → road_key h2 y = road_key h1 y) by (intros y Hy; unfold road_key; rewrite R2 //; auto).
    assert (KeyJ : ∀ k z, js !! k = Some z → road_key h1 z = pretty (num + Z.of_nat k)%Z ∧ k < length (pairs (length roads))).
    { intros k z Hz. destruct (Kz k z Hz) as (? & ? & ? & ? & ? & ? & ? & _ & _ & _ & Hk & Hroad & _). unfold road_key. by rewrite (lookup_total_correct _ _ _ Hroad). }
    assert (KeyR : ∀ y, y ∈ roads → road_key h1 y ∈ map (road_key h) roads) by (intros y Hy; unfold road_key at 1; rewrite Key //; by apply (elem_of_list_fmap_1 (road_key h))).
    assert (Uniq : ∀ y y', y ∈ roads ++ js → y' ∈ roads ++ js → road_key h1 y' = road_key h1 y → y' = y).
    { assert (A : ∀ y z, y ∈ roads → z ∈ js → road_key h1 y ≠ road_key h1 z).
      { intros y z Hy Hz E. apply elem_of_list_lookup in Hz as [k Hz]. destruct (KeyJ k z Hz) as [Ez Hk]. apply (Ids2 (road_key h1 y)); [by apply KeyR|].
        rewrite E Ez. apply (elem_of_list_fmap_1 (λ k : nat, pretty (num + Z.of_nat k)%Z)). apply elem_of_seq. lia. }
      intros y y' Hy Hy' E. apply elem_of_app in Hy as [Hy|Hy], Hy' as [Hy'|Hy'].
      - apply elem_of_list_lookup in Hy as [a Ha], Hy' as [b Hb]. assert (b = a) as ->; [|by rewrite Ha in Hb; injection Hb].
        eapply (NoDup_lookup (map (road_key h1) roads) b a (road_key h1 y')); [done|by rewrite list_lookup_fmap Hb|by rewrite list_lookup_fmap Ha E].
      - exfalso. by eapply A.
      - exfalso. by eapply A.
      - apply elem_of_list_lookup in Hy as [a Ha], Hy' as [b Hb]. destruct (KeyJ a y Ha) as [Ea _]. destruct (KeyJ b y' Hb) as [Eb _]. rewrite Ea Eb in E.
        apply (inj pretty) in E. assert (b = a) as -> by lia. rewrite Ha in Hb. by injection Hb. }
    assert (conns : ∀ c, c ∈ jn_conns J → ∃ k z y, js !! k = Some z ∧ h_road h1 !! z = Some (h_road h1 !!! z) ∧ y ∈ roads ∧
      pystr (cn_incoming (h_conn h2 !!! c)) = road_key h y ∧ cn_connecting (h_conn h2 !!! c) = rd_id (h_road h1 !!! z)).
    { intros c Hcin. apply elem_of_list_lookup in Hcin as [m Hm]. assert (Hlt : m < 2 * length js) by (rewrite -Lc; by eapply lookup_lt_Some).
      assert (Hk : m / 2 < length js) by (apply Nat.div_lt_upper_bound; lia). destruct (lookup_lt_is_Some_2 _ _ Hk) as [z Hz]. destruct (EXj z (elem_of_list_lookup_2 _ _ _ Hz)) as [o Ho].
      assert (Eo := lookup_total_correct _ _ _ Ho). destruct (WJ z (elem_of_list_lookup_2 _ _ _ Hz)) as ((o1 & cp1 & F1 & J1) & (o2 & cp2 & F2 & J2) & Sn). rewrite Eo in J1, J2, Sn.
      assert (FI : ∀ o', road_with_id h1 roads (rd_id o') = Some o' → ∃ y, y ∈ roads ∧ pystr (rd_id o') = road_key h y).
      { intros o' Fo. unfold road_with_id in Fo. apply head_Some_elem_of, elem_of_list_filter in Fo as [_ Fo]. apply elem_of_list_fmap in Fo as (y & -> & Hy). exists y. split; [done|]. unfold road_key. by rewrite Key. }
      destruct (Hc (m / 2) z o Hz Ho) as [Ca Cb]. pose proof (Nat.div_mod_eq m 2) as DM. pose proof (Nat.mod_upper_bound m 2 ltac:(lia)) as MB. destruct (m mod 2) as [|[|?]]; [| |lia].
      - assert (Em : 2 * (m / 2) = m) by lia. destruct (last_section h1 o) as [sec|] eqn:Es; [|by apply last_None in Es].
        destruct (Ca o1 cp1 sec J1 eq_refl) as (c' & Hc1 & Hc2). rewrite Em Hm in Hc1. injection Hc1 as <-. destruct (FI o1 F1) as (y & Hy & Ey).
        exists (m / 2), z, y. rewrite (lookup_total_correct _ _ _ Hc2) Eo. done.
      - assert (Em : 2 * (m / 2) + 1 = m) by lia.
        destruct (first_section h1 o) as [sec|] eqn:Es; [|by apply head_None in Es].
        destruct (Cb o2 cp2 sec J2 eq_refl) as (c' & Hc1 & Hc2). rewrite Em Hm in Hc1. injection Hc1 as <-. destruct (FI o2 F2) as (y & Hy & Ey).
        exists (m / 2), z, y. rewrite (lookup_total_correct _ _ _ Hc2) Eo. done. }
    set (h3 := run h2 (map (add_call d) adds)) in *.
    assert (NC : network_closed h3 d).
    { set (D := put_roads h2 (roads_added adds) []) in *.
      assert (Ed : od_roads (h_odr h3 !!! d) = D ∧ od_junctions (h_odr h3 !!! d) = junctions_added adds) by (rewrite E3; simpl; rewrite lookup_total_insert; done).
      destruct Ed as [Ed1 Ed2]. assert (Rr : h_road h3 = h_road h2) by (by rewrite E3). assert (Rj : h_junc h3 = h_junc h2) by (by rewrite E3).
      assert (Rc : h_conn h3 = h_conn h2) by (by rewrite E3). clear E3.
      assert (In1 : ∀ k y, (k, y) ∈ od_roads (h_odr h3 !!! d) → y ∈ roads ++ js) by (intros k y Hk; rewrite Ed1 in Hk; apply put_out in Hk; by apply Radd).
      assert (HR : ∀ y, y ∈ roads ++ js → (road_key h1 y, y) ∈ od_roads (h_odr h3 !!! d)).
      { intros y Hy. rewrite Ed1 -Key2 //. apply put_in; [by apply Radd|]. intros y' Hy' E. apply Radd in Hy'. rewrite !Key2 // in E. by apply Uniq. }
      assert (HR' : ∀ y, y ∈ roads ++ js → has_road h3 d (road_key h1 y)).
      { intros y Hy. exists (road_key h1 y), y. split; [auto|]. rewrite Rr R2 //. auto. }
      assert (HRr : ∀ y, y ∈ roads → has_road h3 d (road_key h y)).
      { intros y Hy. unfold road_key. rewrite -Key //. apply HR', elem_of_app. by left. }
      assert (HJ : has_junction h3 d (pretty junction)).
      { exists j. rewrite Ed2 Rj. split; [by apply Jadd|]. rewrite (lookup_total_correct _ _ _ EJ) Eid. done. }
      split.
      - intros k y q Hk Hq. apply In1 in Hk as Hy. rewrite Rr R2 in Hq; [auto|]. apply elem_of_app in Hy as [Hy|Hy].
        + destruct (At' y Hy) as [i Hi]. rewrite Hi in Hq. destruct (attached_same i junction (h_road h !!! y)) as (_ & _ & Hl). destruct (Hl q Hq) as [Hq'|[-> ->]]; [|done].
          destruct (Lk y q Hy Hq') as (z & -> & Hz & <-). by apply HRr.
        + apply elem_of_list_lookup in Hy as [kk Hz]. destruct (Kz kk y Hz) as (i & m & ri & rm & pv & ls & sec & Hi & Hm & _ & _ & Hroad & _).
          rewrite (lookup_total_correct _ _ _ Hroad) in Hq. simpl in Hq. apply elem_of_cons in Hq as [->|Hq]; [simpl; apply (HRr ri); by eapply elem_of_list_lookup_2|].
          apply elem_of_list_singleton in Hq as ->. simpl. apply (HRr rm). by eapply elem_of_list_lookup_2.
      - intros k y Hk Ht. apply In1 in Hk as Hy. rewrite Rr R2 in Ht; [auto|]. rewrite Rr R2; [auto|]. apply elem_of_app in Hy as [Hy|Hy].
        + destruct (At' y Hy) as [i Hi]. rewrite Hi in Ht. destruct (attached_same i junction (h_road h !!! y)) as (_ & E & _). rewrite E Ty // in Ht.
        + apply elem_of_list_lookup in Hy as [kk Hz]. destruct (Kz kk y Hz) as (? & ? & ? & ? & ? & ? & ? & _ & _ & _ & _ & Hroad & _).
          by rewrite (lookup_total_correct _ _ _ Hroad).
      - intros j' c Hj' Hc'. rewrite Ed2 in Hj'. apply Jadd in Hj' as ->. rewrite Rj (lookup_total_correct _ _ _ EJ) in Hc'.
        destruct (conns c Hc') as (kk & y & ri & Hk & Hy & Hin & Ec1 & _). rewrite Rc Ec1. by apply HRr.
      - intros j' c Hj' Hc'. rewrite Ed2 in Hj'. apply Jadd in Hj' as ->. rewrite Rj (lookup_total_correct _ _ _ EJ) in Hc'.
        destruct (conns c Hc') as (kk & z & ri & Hk & Hy & Hin & _ & Ec2). exists (road_key h1 z), z. assert (z ∈ roads ++ js) by (apply elem_of_app; right; by eapply elem_of_list_lookup_2).
        split; [auto|]. rewrite Rr Rj Rc R2; [auto|]. rewrite Ec2 (lookup_total_correct _ _ _ EJ) Eid. split; [done|].
        destruct (Kz kk z Hk) as (? & ? & ? & ? & ? & ? & ? & _ & _ & _ & _ & Hroad & _). by rewrite (lookup_total_correct _ _ _ Hroad). }
    assert (W : ∀ g, reachable g → exists_in h_odr g d → network_closed g d → ∃ e, odr_element date g d = Ok e ∧ closed e).
    { intros g Hg Hgd Hgc. destruct (C41_reachable date g d Hg Hgd) as [e He]. exists e. split; [done|]. by apply (C71_exact date g d e He). }
    assert (Hd3 : exists_in h_odr h3 d) by (rewrite E3; simpl; eexists; apply lookup_insert).
    clearbody h3. clear E3. split; [exact (W h3 Hr3 Hd3 NC)|]. apply W.
    - exact (step_reachable h3 (OpAdjustRoadsAndLanes d) Hr3).
    - destruct (adjust_keeps h3 d) as (_ & E & _). unfold exists_in. by rewrite E.
    - exact (proj1 (C71_adjust h3 d d) NC).
  Qed.
End Refs.

(** ** Concrete cases (arithmetic: quarter turns) *)
Section Examples.
  Local Existing Instance QNum.
  Local Open Scope nat_scope.
  (** the three roads of C32 and an OpenDrive meet the conditions *)
  Definition crossing : list (op Z) := three ++ [OpOpenDrive "crossing"].
  Example C71_example : let h := run heap_init crossing in let roads := [2; 10; 18] in
    reachable h ∧ NoDup roads ∧ Forall (exists_in h_road h) roads ∧ (∀ x, x ∈ roads → ends_with_lanes h 2 1 (h_road h !!! x)) ∧
    (∀ i x, roads !! i = Some x → (if bool_decide (i = 0) then rd_succ (h_road h !!! x) else rd_pred (h_road h !!! x)) = None) ∧
    (∃ ll, junction_linelength 1%Z 1%Z = Ok ll) ∧ (∀ y, y ∈ roads → rd_type (h_road h !!! y) = (-1)%Z ∧ rd_links (h_road h !!! y) = []) ∧
    NoDup (map (road_key h) roads ++ map (λ k, pretty (7 + Z.of_nat k)%Z) (seq 0 (length (pairs (length roads))))) ∧ h_odr h !! 24 = Some (mkOpenDrive "crossing" [] []).
  Proof.
    intros h roads. split; [by eexists|]. split_and!.
    - apply (bool_decide_unpack _); vm_compute; exact I.
    - repeat constructor; eexists; vm_compute; reflexivity.
    - intros x Hx. rewrite !elem_of_cons elem_of_nil in Hx. destruct Hx as [->|[->|[->|[]]]]; eexists _, _; split_and!; vm_compute; reflexivity.
    - intros i x Hx. destruct i as [|[|[|i]]]; simpl in Hx; try discriminate; injection Hx as <-; vm_compute; reflexivity.
    - eexists. vm_compute. reflexivity.
    - intros x Hx. rewrite !elem_of_cons elem_of_nil in Hx. destruct Hx as [->|[->|[->|[]]]]; split; vm_compute; reflexivity.
    - apply (bool_decide_unpack _); vm_compute; exact I.
    - vm_compute. reflexivity.
  Qed.
  (** nothing is checked when the network is adjusted and written: the first road may lead to a road that does not exist *)
  Definition loose_end : list (op Z) := [OpCreateStraightRoad (PInt 1) 100%Z (-1) 1 3%Z; OpAddSuccessor 7 (Some et_road) (PInt 2) (Some cp_start) 0; OpOpenDrive "loose"; OpAddRoad 8 7].
  Theorem C71_refuted_loose : let h := run heap_init loose_end in reachable h ∧ (step (OpAdjustRoadsAndLanes 8) h).1 = Ok RNone ∧
    ∃ e, odr_element "today" (step (OpAdjustRoadsAndLanes 8) h).2 8 = Ok e ∧ ¬ closed e.
  Proof.
    intros h. assert (Hr : reachable h) by (by eexists). assert (Hd : exists_in h_odr h 8) by (eexists; vm_compute; reflexivity).
    split; [done|]. split; [vm_compute; reflexivity|].
    assert (T : od_roads (h_odr h !!! 8) = [("1", 7)] ∧ rd_id (h_road h !!! 7) = PInt 1 ∧ rd_links (h_road h !!! 7) = [mkLink (Some "successor") (PInt 2) (Some et_road) (Some cp_start) None]) by (vm_compute; done).
    clearbody h. destruct T as (T1 & T2 & T3).
    assert (N : ¬ network_closed h 8).
    { intros [C1 _ _ _]. specialize (C1 "1" 7 (mkLink (Some "successor") (PInt 2) (Some et_road) (Some cp_start) None)). rewrite T1 T3 in C1.
      destruct C1 as (k & r & Hk & E); [by apply elem_of_list_singleton..|]. rewrite T1 in Hk. apply elem_of_list_singleton in Hk as [= -> ->]. by rewrite T2 in E. }
    assert (Hr' : reachable (step (OpAdjustRoadsAndLanes 8) h).2) by (exact (step_reachable h (OpAdjustRoadsAndLanes 8) Hr)).
    assert (Hd' : exists_in h_odr (step (OpAdjustRoadsAndLanes 8) h).2 8). { destruct (adjust_keeps h 8) as (_ & E & _). unfold exists_in. by rewrite E. }
    destruct (C41_reachable "today" _ 8 Hr' Hd') as [e He]. exists e. split; [done|]. intros Hc. apply N. apply (C71_adjust h 8 8). by apply (C71_exact "today" _ 8 e He).
  Qed.
  (** and the junction may be forgotten *)
  Definition no_junction : list (op Z) := [OpCreateStraightRoad (PInt 1) 100%Z (-1) 1 3%Z; OpAddSuccessor 7 (Some et_junction) (PInt 5) None 0; OpOpenDrive "loose"; OpAddRoad 8 7].
  Theorem C71_refuted_junction : let h := run heap_init no_junction in reachable h ∧ (step (OpAdjustRoadsAndLanes 8) h).1 = Ok RNone ∧
    ∃ e, odr_element "today" (step (OpAdjustRoadsAndLanes 8) h).2 8 = Ok e ∧ ¬ closed e.
  Proof.
    intros h. assert (Hr : reachable h) by (by eexists). assert (Hd : exists_in h_odr h 8) by (eexists; vm_compute; reflexivity).
    split; [done|]. split; [vm_compute; reflexivity|].
    assert (T : od_roads (h_odr h !!! 8) = [("1", 7)] ∧ od_junctions (h_odr h !!! 8) = [] ∧ rd_links (h_road h !!! 7) = [mkLink (Some "successor") (PInt 5) (Some et_junction) None None]) by (vm_compute; done).
    clearbody h. destruct T as (T1 & T2 & T3).
    assert (N : ¬ network_closed h 8).
    { intros [C1 _ _ _]. specialize (C1 "1" 7 (mkLink (Some "successor") (PInt 5) (Some et_junction) None None)). rewrite T1 T3 in C1.
      destruct C1 as (j & Hj & E); [by apply elem_of_list_singleton..|]. rewrite T2 in Hj. by apply elem_of_nil in Hj. }
    assert (Hr' : reachable (step (OpAdjustRoadsAndLanes 8) h).2) by (exact (step_reachable h (OpAdjustRoadsAndLanes 8) Hr)).
    assert (Hd' : exists_in h_odr (step (OpAdjustRoadsAndLanes 8) h).2 8). { destruct (adjust_keeps h 8) as (_ & E & _). unfold exists_in. by rewrite E. }
    destruct (C41_reachable "today" _ 8 Hr' Hd') as [e He]. exists e. split; [done|]. intros Hc. apply N. apply (C71_adjust h 8 8). by apply (C71_exact "today" _ 8 e He).
  Qed.
End Examples.

Print Assumptions C71_exact.
Print Assumptions C71_adjust.
Print Assumptions C71_intersection.
Print Assumptions C71_example.
Print Assumptions C71_refuted_loose.
Print Assumptions C71_refuted_junction.
