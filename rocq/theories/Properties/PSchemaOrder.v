(** * C70, continued: the order in which roads are added, and the order of lane links in the file *)
From Coq Require Import ssreflect.
From Verif.Model Require Import Api Xml.
From Verif.Inst Require Import Quarter.
From Verif.Spec Require Import SpecGenerate SpecLinkOrder SpecXml SpecSchema SpecSchemaOrder.
From Verif.Proof Require Import Monad DictFacts NetFrame Network Again Reach Steps History Invariants LaneLinks LinkAll LinkOrder LinkKinds.
From Verif.Properties Require Import PHistory PXml PLinkOrder PSchema.
Local Unset SsrOldRewriteGoalsOrder.
Local Open Scope general_if_scope.

Section Order.
  Context {F : Type} `{!Num F}.
  Implicit Types (h : heap F) (o : road).

  Lemma in_dict {V} (d : dict V) k v : dict_get d k = Some v → (k, v) ∈ d.
  Proof. induction d as [|[k' v'] d IH]; [done|]. simpl. destruct (String.eqb k k') eqn:E; [intros [= ->]; apply String.eqb_eq in E as ->; left|right; auto]. Qed.
  Lemma dict_in {V} (d : dict V) k v : NoDup (map fst d) → (k, v) ∈ d → dict_get d k = Some v.
  Proof.
    induction d as [|[k' v'] d IH]; [by intros _ ?%elem_of_nil|]. simpl. intros [Hk Hd]%NoDup_cons [[= -> ->]|Hin]%elem_of_cons; [by rewrite String.eqb_refl|].
    destruct (String.eqb k k') eqn:E; [|auto]. apply String.eqb_eq in E as ->. exfalso. apply Hk. apply elem_of_list_In, in_map_iff. exists (k', v). split; [done|by apply elem_of_list_In].
  Qed.
  Lemma road_lane_ids h d k r l : reachable h → (k, r) ∈ od_roads (h_odr h !!! d) → l ∈ road_lanes h r → has_id h l.
  Proof.
    intros Hr Hk Hl. destruct (h_odr h !! d) as [x|] eqn:Ed.
    - destruct (C41_reachable "" h d Hr ltac:(by exists x)) as [e He]. destruct (C41_network "" h d) as [_ HC].
      destruct (decide (has_id h l)) as [?|Hn]; [done|]. rewrite HC in He; [|done]. exists l. split; [|done].
      unfold network_lanes. apply elem_of_list_In, in_concat. exists (road_lanes h r). split; [|by apply elem_of_list_In]. apply in_map_iff. exists (k, r). split; [done|by apply elem_of_list_In].
    - rewrite /lookup_total /map_lookup_total Ed in Hk. by apply elem_of_nil in Hk.
  Qed.

  Section Net.
    Context h d (Hr : reachable h) (Hd : exists_in h_odr h d) (Hplain : plain_pairs h d) (Hapart : lanes_apart h d).
    Lemma keys_nodup : NoDup (net_keys h d).
    Proof. destruct Hd as [x Hx]. pose proof (reachable_odr h Hr d x Hx) as I. unfold net_keys. rewrite (lookup_total_correct _ _ _ Hx). apply (oi_nodup _ _ I). Qed.
    Lemma pair_kind l k k' c : k ≠ k' → c ∈ LinkOrder.pair_links h d l (k, k') →
      ∃ r r', dict_get (od_roads (h_odr h !!! d)) k = Some r ∧ dict_get (od_roads (h_odr h !!! d)) k' = Some r' ∧ gained_either h r r' l c.
    Proof.
      intros Hne Hc. unfold LinkOrder.pair_links, pair_of in Hc. simpl in Hc. destruct (dict_get _ k) as [r|] eqn:E; [|by apply elem_of_nil in Hc].
      destruct (dict_get _ k') as [r'|] eqn:E'; [|by apply elem_of_nil in Hc]. exists r, r'. do 2 (split; [done|]). apply gets_links_kind; [| | |done].
      - apply (Hplain k k'); [by rewrite /road_named E|by rewrite /road_named E'|done].
      - intros l'. apply (road_lane_ids h d k r l' Hr). by apply in_dict.
      - intros l'. apply (road_lane_ids h d k' r' l' Hr). by apply in_dict.
    Qed.
    (** what lane [l] of road [k] gets from all pairs *)
    Definition is_pred (r : ref) (y : string) : Prop := ∃ oy p, road_named h d y = Some oy ∧ rd_pred (h_road h !!! r) = Some p ∧ lk_id p = rd_id oy.
    Definition is_succ (r : ref) (y : string) : Prop := ∃ oy s, road_named h d y = Some oy ∧ rd_succ (h_road h !!! r) = Some s ∧ lk_id s = rd_id oy.
    Section Lane.
      Context k r l (Hk : (k, r) ∈ od_roads (h_odr h !!! d)) (Hl : l ∈ road_lanes h r).
      Local Notation f := (LinkOrder.pair_links h d l).
      Lemma own_key k1 r1 : dict_get (od_roads (h_odr h !!! d)) k1 = Some r1 → l ∈ road_lanes h r1 → k1 = k.
      Proof. intros E1 Hl1. exact (Hapart k1 k r1 r l (in_dict _ _ _ E1) Hk Hl1 Hl). Qed.
      Lemma own_chunk y c : y ≠ k → c ∈ f (k, y) ∨ c ∈ f (y, k) →
        (is_pred r y ∧ lk_type c = pre ∧ lk_type c ≠ suc ∨ is_succ r y ∧ lk_type c = suc ∧ lk_type c ≠ pre) ∧ ∃ z : Z, lk_id c = PStr (pretty z).
      Proof.
        pose proof (dict_in _ _ _ keys_nodup Hk) as Ek. intros Hy Hc. assert (∃ ry, dict_get (od_roads (h_odr h !!! d)) y = Some ry ∧ gained_either h r ry l c) as (ry & Ey & Hg).
        { destruct Hc as [Hc|Hc]; (apply pair_kind in Hc as (a & b & Ea & Eb & Hg); [|congruence]).
          - rewrite Ek in Ea. injection Ea as <-. by exists b.
          - rewrite Ek in Eb. injection Eb as <-. exists a. split; [done|]. destruct Hg; [by right|by left]. }
        destruct Hg as [(_ & Hkind & Hz)|(Hl' & _)]; [|exfalso; apply Hy; by apply (own_key y ry)]. split; [|done].
        destruct Hkind as [(Ht & L & HL & Hid)|(Ht & L & HL & Hid)]; [right|left]; (split; [exists (h_road h !!! ry), L; rewrite /road_named Ey; done|]); rewrite Ht; done.
      Qed.
      Lemma other_chunk x y : x ≠ y → x ≠ k → y ≠ k → f (x, y) = [].
      Proof.
        intros Hxy Hx Hy. destruct (f (x, y)) as [|c cs] eqn:Ef; [done|]. exfalso. assert (Hc : c ∈ f (x, y)) by (rewrite Ef; left).
        apply pair_kind in Hc as (a & b & Ea & Eb & [(Hl' & _)|(Hl' & _)]); [apply Hx; by apply (own_key x a)|apply Hy; by apply (own_key y b)|done].
      Qed.
      Lemma own_numbers c : c ∈ concat (map f (combinations2 (net_keys h d))) → ∃ z : Z, pystr (lk_id c) = pretty z.
      Proof.
        intros Hc. apply elem_of_list_In, in_concat in Hc as (cs & Hcs & Hc). apply in_map_iff in Hcs as ([x y] & <- & Hxy). apply elem_of_list_In in Hc, Hxy.
        apply elem_combinations2 in Hxy as (i & j & Hij & Hx & Hy). assert (Hne : x ≠ y). { intros ->. pose proof (NoDup_lookup _ _ _ _ keys_nodup Hx Hy). lia. }
        destruct (decide (x = k)) as [->|Hxk]; [|destruct (decide (y = k)) as [->|Hyk]].
        - destruct (own_chunk y c ltac:(congruence) ltac:(by left)) as [_ [z Hz]]. exists z. by rewrite Hz.
        - destruct (own_chunk x c ltac:(congruence) ltac:(by right)) as [_ [z Hz]]. exists z. by rewrite Hz.
        - exfalso. rewrite other_chunk // in Hc. by apply elem_of_nil in Hc.
      Qed.
      Lemma own_fit : in_order (is_pred r) (is_succ r) (net_keys h d) → lane_links_fit (concat (map f (combinations2 (net_keys h d)))).
      Proof.
        intros Ho. split; [|intros c Hc; by apply own_numbers].
        apply (chunks_fine f (λ c, lk_type c = pre) (λ c, lk_type c = suc) (is_pred r) (is_succ r) k); [exact other_chunk|intros x; destruct (decide (x = k)); auto| |apply keys_nodup|done].
        intros y c Hy Hc. by apply own_chunk.
      Qed.
      Lemma own_unfit : in_order (is_succ r) (is_pred r) (net_keys h d) → fine (λ c, lk_type c = suc) (λ c, lk_type c = pre) (concat (map f (combinations2 (net_keys h d)))).
      Proof.
        intros Ho. apply (chunks_fine f (λ c, lk_type c = suc) (λ c, lk_type c = pre) (is_succ r) (is_pred r) k); [exact other_chunk|intros x; destruct (decide (x = k)); auto| |apply keys_nodup|done].
        intros y c Hy Hc. destruct (own_chunk y c Hy Hc) as [[?|?] _]; auto.
      Qed.
    End Lane.
    Lemma first_in_order k r : predecessors_first h d → (k, r) ∈ od_roads (h_odr h !!! d) → in_order (is_pred r) (is_succ r) (net_keys h d).
    Proof.
      intros Hfirst Hk i j x y Hij Hx Hy (ox & s & Nx & Es & Is) (oy & p & Ny & Ep & Ip).
      destruct (Hfirst k y x (h_road h !!! r) oy ox p s) as (i' & j' & Hij' & Hi & Hj); try done; [by rewrite /road_named (dict_in _ _ _ keys_nodup Hk)|].
      pose proof (NoDup_lookup _ _ _ _ keys_nodup Hi Hy). pose proof (NoDup_lookup _ _ _ _ keys_nodup Hj Hx). lia.
    Qed.
    Lemma adjusted_lanes h' : adjust_roads_and_lanes d h = (Ok tt, h') → ∃ h1, net_frame d h h1 ∧
      ∃ us, h' = h1 <| h_lane := add_links us (h_lane h) |> ∧ ∀ l, links_for l us = concat (map (LinkOrder.pair_links h d l) (combinations2 (net_keys h d))).
    Proof.
      intros E. rewrite adjust_roads_and_lanes_split in E. unfold bind in E. destruct (adjust_startpoints d h) as [[[]|ex] h1] eqn:E1; [|done].
      assert (N : net_frame d h h1) by (change h1 with (Ok tt, h1).2; rewrite -E1; apply nf_adjust_startpoints).
      exists h1. split; [done|]. pose proof (link_all_static h h1 d (alike_frame d h h1 N)) as L. destruct (existsb _ _); [by rewrite E in L|].
      destruct L as (us & L & Hus). exists us. rewrite E in L. injection L as ->. by rewrite (nf_lane _ _ _ N).
    Qed.
    Section Linked.
    Context h' (Hno : lanes_unlinked h d) (E : adjust_roads_and_lanes d h = (Ok tt, h')).
    Lemma lane_got k r l : (k, r) ∈ od_roads (h_odr h !!! d) → l ∈ road_lanes h r →
      ln_links (h_lane h' !!! l) = concat (map (LinkOrder.pair_links h d l) (combinations2 (net_keys h d))).
    Proof.
      intros Hk Hl. destruct (adjusted_lanes h' E) as (h1 & N & us & -> & Hus).
      change (ln_links (add_links us (h_lane h) !!! l) = concat (map (LinkOrder.pair_links h d l) (combinations2 (net_keys h d)))). rewrite add_links_at. cbn [ln_links set].
      by rewrite (Hno k r l Hk Hl) Hus.
    Qed.
    (** the links that the lanes get are in the order of the schema *)
    Theorem C70_lane_links k r l : predecessors_first h d → (k, r) ∈ od_roads (h_odr h !!! d) → l ∈ road_lanes h r → lane_links_fit (ln_links (h_lane h' !!! l)).
    Proof. intros Hfirst Hk Hl. rewrite (lane_got k r l Hk Hl). apply (own_fit k r l Hk Hl). by apply (first_in_order k). Qed.
    (** and this is necessary: a lane that is linked on both sides is written well exactly if the road before was added before the road after *)
    Theorem C70_lane_order k kp ks r op os p s l : (k, r) ∈ od_roads (h_odr h !!! d) → l ∈ road_lanes h r →
      road_named h d kp = Some op → road_named h d ks = Some os → kp ≠ ks →
      rd_pred (h_road h !!! r) = Some p → lk_id p = rd_id op → rd_succ (h_road h !!! r) = Some s → lk_id s = rd_id os →
      (∃ c, c ∈ ln_links (h_lane h' !!! l) ∧ lk_type c = pre) → (∃ c, c ∈ ln_links (h_lane h' !!! l) ∧ lk_type c = suc) →
      lane_links_fit (ln_links (h_lane h' !!! l)) ↔ added_before h d kp ks.
    Proof.
      intros Hk Hl Np Ns Hne Ep Ip Es Is. rewrite (lane_got k r l Hk Hl). intros (cp & Hcp & Tp) (cs & Hcs & Ts).
      assert (Hkey : ∀ y oy, road_named h d y = Some oy → y = pystr (rd_id oy)).
      { intros y oy Hy. unfold road_named in Hy. destruct (dict_get _ y) as [ry|] eqn:Ey; [|done]. injection Hy as <-. destruct Hd as [x Hx].
        apply (oi_key _ _ (reachable_odr h Hr d x Hx)). rewrite -(lookup_total_correct _ _ _ Hx). by apply in_dict. }
      assert (Hp : ∀ y, is_pred r y → y = kp).
      { intros y (oy & p' & Ny & Ep' & Ip'). rewrite Ep in Ep'. injection Ep' as <-. rewrite (Hkey _ _ Ny) (Hkey _ _ Np). congruence. }
      assert (Hs : ∀ y, is_succ r y → y = ks).
      { intros y (oy & s' & Ny & Es' & Is'). rewrite Es in Es'. injection Es' as <-. rewrite (Hkey _ _ Ny) (Hkey _ _ Ns). congruence. }
      assert (Hin : ∀ y oy, road_named h d y = Some oy → ∃ i, net_keys h d !! i = Some y).
      { intros y oy Hy. unfold road_named in Hy. destruct (dict_get _ y) as [ry|] eqn:Ey; [|done]. apply elem_of_list_lookup. unfold net_keys.
        apply elem_of_list_In, in_map_iff. exists (y, ry). split; [done|]. apply elem_of_list_In. by apply in_dict. }
      destruct (Hin _ _ Np) as [ip Hip], (Hin _ _ Ns) as [js Hjs]. destruct (decide (ip < js)) as [Hlt|Hge]; split.
      - intros _. by exists ip, js.
      - intros _. apply (own_fit k r l Hk Hl). intros i j x y Hij Hx Hy Sx Py. apply Hs in Sx as ->. apply Hp in Py as ->.
        pose proof (NoDup_lookup _ _ _ _ keys_nodup Hx Hjs). pose proof (NoDup_lookup _ _ _ _ keys_nodup Hy Hip). lia.
      - intros [(ps & ss & Hsplit & Hps & Hss) _]. exfalso.
        destruct (own_unfit k r l Hk Hl) as (ss' & ps' & Hsplit' & Hss' & Hps').
        { intros i j x y Hij Hx Hy Px Sy. apply Hp in Px as ->. apply Hs in Sy as ->.
          pose proof (NoDup_lookup _ _ _ _ keys_nodup Hx Hip). pose proof (NoDup_lookup _ _ _ _ keys_nodup Hy Hjs). subst. apply Hge. assert (ip ≠ js) by congruence. lia. }
        destruct ps as [|c0 ps].
        { simpl in Hsplit. rewrite Hsplit in Hcp. specialize (Hss _ Hcp). rewrite Tp in Hss. done. }
        destruct ss' as [|c1 ss'].
        { simpl in Hsplit'. rewrite Hsplit' in Hcs. specialize (Hps' _ Hcs). rewrite Ts in Hps'. done. }
        rewrite Hsplit in Hsplit'. injection Hsplit' as -> _. pose proof (Hps c1 ltac:(left)) as T1. pose proof (Hss' c1 ltac:(left)) as T2. rewrite T1 in T2. done.
      - intros (i & j & Hij & Hi & Hj). pose proof (NoDup_lookup _ _ _ _ keys_nodup Hi Hip). pose proof (NoDup_lookup _ _ _ _ keys_nodup Hj Hjs). lia.
    Qed.
    Lemma adjust_same : h_odr h' = h_odr h ∧ h_road h' = h_road h ∧ h_obj h' = h_obj h ∧ h_junc h' = h_junc h ∧ (∀ r, road_lanes h' r = road_lanes h r) ∧
      (∀ o, sections h' o = sections h o) ∧ ∀ l, ln_roadmark (h_lane h' !!! l) = ln_roadmark (h_lane h !!! l).
    Proof.
      destruct (adjusted_lanes h' E) as (h1 & N & us & E' & _).
      assert (Eo : h_odr h' = h_odr h) by (rewrite E'; apply (nf_odr _ _ _ N)). assert (Er : h_road h' = h_road h) by (rewrite E'; apply (nf_road _ _ _ N)).
      assert (Es : h_sec h' = h_sec h) by (rewrite E'; apply (nf_sec _ _ _ N)). assert (Els : h_lanes h' = h_lanes h) by (rewrite E'; apply (nf_lanes _ _ _ N)).
      assert (Eob : h_obj h' = h_obj h) by (rewrite E'; apply (nf_obj _ _ _ N)). assert (Ej : h_junc h' = h_junc h) by (rewrite E'; apply (nf_junc _ _ _ N)).
      assert (El : ∀ l, ln_roadmark (h_lane h' !!! l) = ln_roadmark (h_lane h !!! l)).
      { intros l. rewrite E'. change (ln_roadmark (add_links us (h_lane h) !!! l) = ln_roadmark (h_lane h !!! l)). by rewrite add_links_at. }
      assert (Esec : ∀ o, sections h' o = sections h o) by (intros o; unfold sections; by rewrite Els).
      assert (Erl : ∀ r, road_lanes h' r = road_lanes h r). { intros r. unfold road_lanes. rewrite Er Esec. unfold section_lanes. by rewrite Es. }
      done.
    Qed.
    Lemma given_same : network_given h' d ↔ network_given h d.
    Proof.
      destruct adjust_same as (Eo & Er & Eob & Ej & Erl & Esec & El). unfold network_given. rewrite Eo Ej.
      assert (Hg : ∀ r, road_given h' r ↔ road_given h r).
      { intros r. unfold road_given. rewrite Er Esec Erl Eob. split; intros (R1 & R2 & R3 & R4 & R5 & R6 & R7); do 3 (split; [done|]); (split; [|done]); intros l m Hl Hm; apply (R4 l m Hl); by rewrite El in Hm |- *. }
      split; intros (G1 & G2 & G3); (split; [done|]); (split; [|done]); intros k r Hk; apply Hg; by apply (G2 k).
    Qed.
    (** A network whose roads are added in this order, and that has been placed and linked, is written as the schema says exactly if the user has taken care of the rest
        and all roads were placed. *)
    Theorem C70_adjusted (numbers : ∀ x : F, fstr x ≠ "None") date e : predecessors_first h d → odr_element date h' d = Ok e →
      v_OpenDRIVE F e ↔ network_given h d ∧ network_placed h' d.
    Proof.
      intros Hfirst He.
      assert (Hr' : reachable h'). { replace h' with (step (OpAdjustRoadsAndLanes d) h).2; [exact (run_reachable h [OpAdjustRoadsAndLanes d] Hr)|].
        unfold step, guarded. rewrite (has_true _ _ _ Hd). unfold as_unit. by rewrite (bind_run _ _ _ _ _ E). }
      rewrite (C70_exact numbers date h' d e Hr' He) -given_same. pose proof (λ k r l, C70_lane_links k r l Hfirst) as HL.
      destruct adjust_same as (Eo & Er & _ & _ & Erl & _ & _). split.
      - intros (N1 & N2 & N3). split; [split; [done|split; [|done]]|]; intros k r Hk; destruct (N2 k r Hk) as (R1 & R2 & R3 & R4 & R5 & R6 & R7 & R8 & R9); [|done].
        do 3 (split; [done|]). split; [|done]. intros l m Hl Hm. by apply (R6 l Hl).
      - intros [(G1 & G2 & G3) Hplaced]. split; [done|]. split; [|done]. intros k r Hk. destruct (G2 k r Hk) as (R1 & R2 & R3 & R4 & R5 & R6 & R7). destruct (Hplaced k r Hk) as [P1 P2].
        do 5 (split; [done|]). split; [|done]. intros l Hl. split; [|intros m; by apply (R4 l)]. rewrite Erl in Hl. rewrite Eo in Hk. by apply (HL k r l).
    Qed.
    End Linked.
  End Net.
  Context (numbers : ∀ x : F, fstr x ≠ "None").
  (** a geometry that got no position: what a road with several geometries has after it was placed from its end (C09) *)
  Theorem C70_refuted_position date h d e k r p : reachable h → odr_element date h d = Ok e → (k, r) ∈ od_roads (h_odr h !!! d) →
    p ∈ pv_geoms (h_pv h !!! rd_planview (h_road h !!! r)) → pg_s p = None → ¬ v_OpenDRIVE F e.
  Proof.
    intros Hr He Hk Hp Hs Hv. apply (C70_exact numbers date h d e Hr He) in Hv as (_ & H & _). destruct (H _ _ Hk) as (_ & _ & _ & H' & _).
    destruct (H' p Hp) as [[s Es] _]. congruence.
  Qed.
  (** a lane that was linked to a lane of the next section before, and to a lane of the road before now *)
  Theorem C70_refuted_sections date h h' d e k r l : reachable h → exists_in h_odr h d → adjust_roads_and_lanes d h = (Ok tt, h') → odr_element date h' d = Ok e →
    (k, r) ∈ od_roads (h_odr h !!! d) → l ∈ road_lanes h r →
    (∃ c, c ∈ ln_links (h_lane h !!! l) ∧ lk_type c = suc) → (∀ c, c ∈ ln_links (h_lane h !!! l) → lk_type c ≠ pre) → (∃ c, c ∈ ln_links (h_lane h' !!! l) ∧ lk_type c = pre) →
    ¬ v_OpenDRIVE F e.
  Proof.
    intros Hr Hd E He Hk Hl (c & Hc & Tc) Hno (c' & Hc' & Tc').
    assert (Hr' : reachable h'). { replace h' with (step (OpAdjustRoadsAndLanes d) h).2; [exact (run_reachable h [OpAdjustRoadsAndLanes d] Hr)|].
      unfold step, guarded. rewrite (has_true _ _ _ Hd). unfold as_unit. by rewrite (bind_run _ _ _ _ _ E). }
    destruct (adjust_same h d h' E) as (Eo & _ & _ & _ & Erl & _).
    destruct (adjusted_lanes h d h' E) as (h1 & N & us & E' & _). assert (El : ln_links (h_lane h' !!! l) = ln_links (h_lane h !!! l) ++ links_for l us).
    { rewrite E'. change (ln_links (add_links us (h_lane h) !!! l) = ln_links (h_lane h !!! l) ++ links_for l us). by rewrite add_links_at. }
    rewrite El in Hc'. apply elem_of_app in Hc' as [Hc'|Hc']; [by destruct (Hno _ Hc')|]. apply elem_of_list_lookup in Hc as [i Hi]. apply elem_of_list_lookup in Hc' as [j Hj].
    apply (C70_refuted_lanes numbers date h' d e k r l i (length (ln_links (h_lane h !!! l)) + j) Hr' He).
    - by rewrite Eo.
    - by rewrite Erl.
    - rewrite El list_lookup_fmap lookup_app_l; [by eapply lookup_lt_Some|]. rewrite Hi /=. by rewrite Tc.
    - rewrite El list_lookup_fmap lookup_app_r; [lia|]. rewrite (_ : length (ln_links (h_lane h !!! l)) + j - length (ln_links (h_lane h !!! l)) = j); [lia|]. rewrite Hj /=. by rewrite Tc'.
    - apply lookup_lt_Some in Hi. lia.
  Qed.
End Order.

(** ** The chain of C70 *)
Section Examples.
  Local Existing Instance QNum.
  Local Open Scope nat_scope.
  Definition roads_of (h : heap Z) d := od_roads (h_odr h !!! d).
  Definition plain_pairs_test (h : heap Z) d : bool := forallb (λ kr : string * ref, forallb (λ kr' : string * ref,
    let o := h_road h !!! kr.2 in let o' := h_road h !!! kr'.2 in String.eqb kr.1 kr'.1 ||
    (bool_decide (rd_type o = (-1)%Z) && bool_decide (rd_type o' = (-1)%Z) && negb (are_roads_consecutive o o' && are_roads_consecutive o' o))) (roads_of h d)) (roads_of h d).
  Definition first_test (h : heap Z) d : bool := forallb (λ kr : string * ref, forallb (λ kp : string * ref, forallb (λ ks : string * ref,
    match rd_pred (h_road h !!! kr.2), rd_succ (h_road h !!! kr.2) with
    | Some p, Some s => negb (bool_decide (lk_id p = rd_id (h_road h !!! kp.2)) && bool_decide (lk_id s = rd_id (h_road h !!! ks.2))) || bool_decide ((kp.1, ks.1) ∈ combinations2 (net_keys h d))
    | _, _ => true end) (roads_of h d)) (roads_of h d)) (roads_of h d).
  Definition apart_test (h : heap Z) d : bool := forallb (λ kr : string * ref, forallb (λ kr' : string * ref, String.eqb kr.1 kr'.1 ||
    forallb (λ l, negb (bool_decide (l ∈ road_lanes h kr'.2))) (road_lanes h kr.2)) (roads_of h d)) (roads_of h d).
  Definition unlinked_test (h : heap Z) d : bool := forallb (λ kr : string * ref, forallb (λ l, bool_decide (ln_links (h_lane h !!! l) = [])) (road_lanes h kr.2)) (roads_of h d).
  Lemma named_road (h : heap Z) d k o : road_named h d k = Some o → ∃ r, (k, r) ∈ roads_of h d ∧ o = h_road h !!! r.
  Proof. unfold road_named. destruct (dict_get _ k) as [r|] eqn:E; [|done]. intros [= <-]. exists r. split; [by apply in_dict|done]. Qed.
  Lemma plain_pairs_tested (h : heap Z) d : plain_pairs_test h d = true → plain_pairs h d.
  Proof.
    intros T k k' o o' (r & Hk & ->)%named_road (r' & Hk' & ->)%named_road Hne. pose proof (forallb_in _ _ _ (forallb_in _ _ _ T Hk) Hk') as H. simpl in H.
    apply orb_true_iff in H as [H|H]; [apply String.eqb_eq in H; done|]. rewrite !andb_true_iff !bool_decide_eq_true in H. destruct H as [[T1 T2] T3]. split; [intros X; by destruct (X T1)|].
    intros _ _. rewrite -!consecutive_iff. intros [C1 C2]. by rewrite C1 C2 in T3.
  Qed.
  Lemma first_tested (h : heap Z) d : first_test h d = true → predecessors_first h d.
  Proof.
    intros T k kp ks o op os p s (r & Hk & ->)%named_road (rp & Hp & ->)%named_road (rs & Hs & ->)%named_road Ep Ip Es Is.
    pose proof (forallb_in _ _ _ (forallb_in _ _ _ (forallb_in _ _ _ T Hk) Hp) Hs) as H. simpl in H. rewrite Ep Es (bool_decide_true _ Ip) (bool_decide_true _ Is) in H. simpl in H.
    apply bool_decide_eq_true in H. by apply elem_combinations2.
  Qed.
  Lemma apart_tested (h : heap Z) d : apart_test h d = true → lanes_apart h d.
  Proof.
    intros T k k' r r' l Hk Hk' Hl Hl'. pose proof (forallb_in _ _ _ (forallb_in _ _ _ T Hk) Hk') as H. simpl in H. apply orb_true_iff in H as [H|H]; [by apply String.eqb_eq in H|].
    apply (forallb_in _ _ _ H), negb_true_iff, bool_decide_eq_false in Hl. done.
  Qed.
  Lemma unlinked_tested (h : heap Z) d : unlinked_test h d = true → lanes_unlinked h d.
  Proof. intros T k r l Hk Hl. pose proof (forallb_in _ _ _ (forallb_in _ _ _ T Hk) Hl) as H. by apply bool_decide_eq_true in H. Qed.

  (** the three roads of C70 before they are placed and linked *)
  Definition unlinked_chain (order : list ref) : list (op Z) := take 13 (chain [] []) ++ map (OpAddRoad 26) order.
  Example C70_adjusted_example : let h := run heap_init (unlinked_chain [7; 15; 23]) in let h' := (adjust_roads_and_lanes 26 h).2 in
    reachable h ∧ exists_in h_odr h 26 ∧ plain_pairs h 26 ∧ lanes_apart h 26 ∧ lanes_unlinked h 26 ∧ predecessors_first h 26 ∧
    (adjust_roads_and_lanes 26 h).1 = Ok tt ∧ network_given h 26 ∧ network_placed h' 26.
  Proof.
    intros h h'. assert (Hr : reachable h) by (by eexists). assert (Hd : exists_in h_odr h 26) by (eexists; vm_compute; reflexivity).
    assert (P : plain_pairs h 26) by (apply plain_pairs_tested; vm_compute; reflexivity). assert (A : lanes_apart h 26) by (apply apart_tested; vm_compute; reflexivity).
    assert (U : lanes_unlinked h 26) by (apply unlinked_tested; vm_compute; reflexivity). assert (Hf : predecessors_first h 26) by (apply first_tested; vm_compute; reflexivity).
    assert (E1 : (adjust_roads_and_lanes 26 h).1 = Ok tt) by (vm_compute; reflexivity). assert (T : network_fits h' 26) by (apply network_tested; vm_compute; reflexivity).
    do 6 (split; [done|]). split; [done|]. assert (E : adjust_roads_and_lanes 26 h = (Ok tt, h')) by (rewrite -E1; apply surjective_pairing). clearbody h h'. clear E1.
    destruct T as (T1 & T2 & T3). split.
    - apply (given_same h 26 h' E). split; [done|]. split; [|done]. intros k r Hk. destruct (T2 k r Hk) as (R1 & R2 & R3 & R4 & R5 & R6 & R7 & R8 & R9).
      do 3 (split; [done|]). split; [|done]. intros l m Hl. by apply (R6 l Hl).
    - intros k r Hk. by destruct (T2 k r Hk) as (_ & _ & R3 & R4 & _).
  Qed.
  (** added in another order: the lanes of the road in the middle meet the conditions of [C70_lane_order], and 1 was not added before 3 *)
  Example C70_lane_order_example : let h := run heap_init (unlinked_chain [15; 23; 7]) in let h' := (adjust_roads_and_lanes 26 h).2 in
    exists_in h_odr h 26 ∧ plain_pairs h 26 ∧ lanes_apart h 26 ∧ lanes_unlinked h 26 ∧ (adjust_roads_and_lanes 26 h).1 = Ok tt ∧
    ("2", 15) ∈ od_roads (h_odr h !!! 26) ∧ 12 ∈ road_lanes h 15 ∧ map lk_type (ln_links (h_lane h' !!! 12)) = [suc; pre] ∧ net_keys h 26 = ["2"; "3"; "1"] ∧
    (lk_id <$> rd_pred (h_road h !!! 15)) = rd_id <$> road_named h 26 "1" ∧ (lk_id <$> rd_succ (h_road h !!! 15)) = rd_id <$> road_named h 26 "3".
  Proof.
    intros h h'. split; [eexists; vm_compute; reflexivity|]. split; [apply plain_pairs_tested; vm_compute; reflexivity|]. split; [apply apart_tested; vm_compute; reflexivity|].
    split; [apply unlinked_tested; vm_compute; reflexivity|]. split; [vm_compute; reflexivity|]. do 2 (split; [apply (bool_decide_unpack _); vm_compute; exact I|]).
    split; [vm_compute; reflexivity|]. split; [vm_compute; reflexivity|]. split; vm_compute; reflexivity.
  Qed.

  (** road 1, then road 2 with two lane sections that a LaneLinker joins *)
  Definition two_sections : list (op Z) :=
    [OpCreateStraightRoad (PInt 1) 100%Z (-1) 1 3%Z; OpPlanView None None None; OpLanes; OpRoad (PInt 2) 8 9 (-1) None None; OpLine 100%Z; OpAddGeometry 8 11 None;
     OpLane lt_none 0%Z 0%Z 0%Z 0%Z 0%Z; OpLane lt_driving 3%Z 0%Z 0%Z 0%Z 0%Z; OpLane lt_driving 3%Z 0%Z 0%Z 0%Z 0%Z; OpLaneSection 0%Z 12; OpAddLeftLane 15 13; OpAddRightLane 15 14;
     OpLane lt_none 0%Z 0%Z 0%Z 0%Z 0%Z; OpLane lt_driving 3%Z 0%Z 0%Z 0%Z 0%Z; OpLane lt_driving 3%Z 0%Z 0%Z 0%Z 0%Z; OpLaneSection 50%Z 16; OpAddLeftLane 19 17; OpAddRightLane 19 18;
     OpLaneLinker; OpLinkerAddLink 20 13 17 None; OpLinkerAddLink 20 14 18 None; OpAddLaneSection 9 15 [20]; OpAddLaneSection 9 19 [20];
     OpAddSuccessor 7 (Some et_road) (PInt 2) (Some cp_start) 0; OpAddPredecessor 10 (Some et_road) (PInt 1) (Some cp_end) 0;
     OpOpenDrive "net"; OpAddRoad 21 7; OpAddRoad 21 10].
  Theorem C70_refuted_two_sections : let h := run heap_init two_sections in reachable h ∧ predecessors_first h 21 ∧ plain_pairs h 21 ∧ lanes_apart h 21 ∧
    (adjust_roads_and_lanes 21 h).1 = Ok tt ∧ ∃ e, odr_element "today" (adjust_roads_and_lanes 21 h).2 21 = Ok e ∧ ¬ v_OpenDRIVE Z e.
  Proof.
    intros h. assert (Hr : reachable h) by (by eexists). assert (Hd : exists_in h_odr h 21) by (eexists; vm_compute; reflexivity).
    split; [done|]. split; [apply first_tested; vm_compute; reflexivity|]. split; [apply plain_pairs_tested; vm_compute; reflexivity|]. split; [apply apart_tested; vm_compute; reflexivity|].
    set (h' := (adjust_roads_and_lanes 21 h).2). assert (E1 : (adjust_roads_and_lanes 21 h).1 = Ok tt) by (vm_compute; reflexivity). split; [done|].
    assert (E : adjust_roads_and_lanes 21 h = (Ok tt, h')) by (rewrite -E1; apply surjective_pairing).
    assert (Hk : ("2", 10) ∈ od_roads (h_odr h !!! 21)) by (apply (bool_decide_unpack _); vm_compute; exact I).
    assert (Hl : 13 ∈ road_lanes h 10) by (apply (bool_decide_unpack _); vm_compute; exact I).
    assert (T1 : map lk_type (ln_links (h_lane h !!! 13)) = [suc]) by (vm_compute; reflexivity). assert (T2 : map lk_type (ln_links (h_lane h' !!! 13)) = [suc; pre]) by (vm_compute; reflexivity).
    assert (He : is_ok (odr_element "today" h' 21) = true) by (vm_compute; reflexivity).
    clearbody h h'. destruct (odr_element "today" h' 21) as [e|] eqn:Ee; [|done]. exists e. split; [done|].
    apply (C70_refuted_sections quarter_numbers "today" h h' 21 e "2" 10 13 Hr Hd E Ee Hk Hl).
    - destruct (ln_links (h_lane h !!! 13)) as [|c cs]; [done|]. injection T1 as T1 _. exists c. split; [left|done].
    - destruct (ln_links (h_lane h !!! 13)) as [|c [|]]; [done| |done]. injection T1 as T1. intros x ->%elem_of_list_singleton. by rewrite T1.
    - destruct (ln_links (h_lane h' !!! 13)) as [|c [|c' [|]]]; try done. injection T2 as _ T2. exists c'. split; [right; left|done].
  Qed.
  (** road 2 with two lines, followed by road 1, which is placed first *)
  Definition from_end : list (op Z) :=
    [OpCreateStraightRoad (PInt 1) 100%Z (-1) 1 3%Z; OpLine 3%Z; OpLine 5%Z; OpCreateRoad [8; 9] (PInt 2) 1 1 (-1) (standard_mark rmt_solid) 3%Z;
     OpAddPredecessor 7 (Some et_road) (PInt 2) (Some cp_end) 0; OpAddSuccessor 16 (Some et_road) (PInt 1) (Some cp_start) 0; OpOpenDrive "net";
     OpAddRoad 17 7; OpAddRoad 17 16; OpAdjustRoadsAndLanes 17].
  Theorem C70_refuted_from_end : let h := run heap_init from_end in reachable h ∧ ∃ e, odr_element "today" h 17 = Ok e ∧ ¬ v_OpenDRIVE Z e.
  Proof.
    intros h. assert (Hr : reachable h) by (by eexists). split; [done|].
    assert (Hk : ("2", 16) ∈ od_roads (h_odr h !!! 17)) by (apply (bool_decide_unpack _); vm_compute; exact I).
    assert (T : map pg_s (pv_geoms (h_pv h !!! rd_planview (h_road h !!! 16))) = [None; Some 5%Z]) by (vm_compute; reflexivity).
    assert (Hd : exists_in h_odr h 17) by (eexists; vm_compute; reflexivity). clearbody h. apply written_ill; [done|done|]. intros e He.
    destruct (pv_geoms (h_pv h !!! rd_planview (h_road h !!! 16))) as [|p ps] eqn:Eg; [done|]. injection T as T _.
    apply (C70_refuted_position quarter_numbers "today" h 17 e "2" 16 p Hr He Hk); [rewrite Eg; left|done].
  Qed.
End Examples.

Print Assumptions C70_lane_links.
Print Assumptions C70_lane_order.
Print Assumptions C70_adjusted.
Print Assumptions C70_refuted_position.
Print Assumptions C70_refuted_sections.
Print Assumptions C70_refuted_two_sections.
Print Assumptions C70_refuted_from_end.
