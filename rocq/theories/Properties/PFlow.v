(** * C72: networks that flow forwards are laid out forwards, completely, and are written as the schema of the OpenDRIVE standard says *)
From Coq Require Import ssreflect.
From Verif.Model Require Import Api.
From Verif.Inst Require Import Quarter.
From Verif.Spec Require Import SpecNetwork SpecLinkOrder SpecXml SpecSchema SpecSchemaOrder SpecFlow.
From Verif.Proof Require Import Monad DictFacts Steps Invariants Crossing PlanViewFacts NetFrame Network Flow Again LinkOrder LaneLinks LinkAll SchemaFacts.
From Verif.Properties Require Import PHistory PXml PLinkOrder PSchema PSchemaOrder.
Local Unset SsrOldRewriteGoalsOrder.
Local Open Scope general_if_scope.
Local Open Scope list_scope.

Section Flow.
  Context {F : Type} `{!Num F}.
  Implicit Types (h : heap F).

  (** In a network that flows forwards, placing it lays out every road forwards, from its start. *)
  Theorem C72_forward h h' d : fresh_network h d → connects_ordinary h d → flows_forward h d → adjust_startpoints d h = (Ok tt, h') →
    ∀ k o, road_named h d k = Some o → ∃ q, put_forward h (view h o) (view h' o) q.
  Proof. intros Hf Hc Hfl E. by apply placed_forward. Qed.

  (** ** Roads laid out forwards are placed completely *)
  Definition arc_step (l a l' a' : option F) : Prop :=
    (l' = None → l = None ∧ a' = a) ∧ (l = None → ftruthy_opt a = false → l' = None).
  Lemma arc_steps (c x y hd : F) (l a l' a' : option F) : arc_step l a l' a' → arc_step l a (arc_eval c l' a' x y hd).2.1 (arc_eval c l' a' x y hd).2.2.
  Proof.
    intros [H1 H2]. destruct l' as [l'|].
    - assert (E : ∃ z, (arc_eval c (Some l') a' x y hd).2.1 = Some z).
      { unfold arc_eval. simpl. destruct (ftruthy l'); simpl; [destruct (ftruthy _); by eexists|]. destruct a' as [a'|]; simpl; [destruct (ftruthy a'); by eexists|by eexists]. }
      destruct E as [z ->]. split; [done|]. intros Hl Ha. by specialize (H2 Hl Ha).
    - destruct (H1 eq_refl) as [-> ->]. unfold arc_eval. simpl. destruct a as [a|]; simpl; [|done]. destruct (ftruthy a) eqn:Ea; simpl; [|done].
      split; [done|]. intros _ Ha. unfold ftruthy_opt in Ha. congruence.
  Qed.
  Lemma evolves_shape (g g' : geom F) : evolves g g' →
    match g, g' with
    | GLine _, GLine _ => True
    | GSpiral _ _ _, GSpiral _ _ _ => True
    | GArc _ l a, GArc _ l' a' => arc_step l a l' a'
    | GPoly _ _ _ _ _ _ _ _ r _, GPoly _ _ _ _ _ _ _ _ r' _ => r' = r
    | _, _ => False
    end.
  Proof.
    induction 1 as [|g' x y hd H IH|g' x y hd H IH].
    - destruct g as [| |c l a|]; [done|done| |done]. split; [done|]. intros H _. exact H.
    - destruct g as [l|cs ce l|c l a|au bu cu du av bv cv dv r l], g' as [l'|cs' ce' l'|c' l' a'|au' bu' cu' du' av' bv' cv' dv' r' l']; simpl; try done.
      + pose proof (arc_steps c' x y hd l a l' a' IH) as K. by destruct (arc_eval c' l' a' x y hd) as [? [??]].
      + subst r'. by destruct (poly_param _ _ _ _ _ _ _ _) as [[p|] l2].
    - destruct g as [l|cs ce l|c l a|au bu cu du av bv cv dv r l], g' as [l'|cs' ce' l'|c' l' a'|au' bu' cu' du' av' bv' cv' dv' r' l']; simpl; try done.
      + pose proof (arc_steps (fneg c') x y hd l a l' a' IH) as K. by destruct (arc_eval (fneg c') l' a' x y hd) as [? [??]].
      + subst r'. by destruct (poly_param _ _ _ _ _ _ _ _) as [[p|] l2].
  Qed.

  (** a primitive that has a length when it is asked again had one when it was asked first *)
  Lemma reports_length (g : geom F) p q l0 p' q' l : reports_end g p q l0 → reports_end_again g p' q' (Some l) → is_Some l0.
  Proof.
    intros (g1 & E1 & R1) (g2 & E2 & R2). apply used_is_evolves in E2. apply evolves_shape in E1, E2.
    destruct g1 as [l1|cs1 ce1 l1|c1 l1 a1|au bu cu du av bv cv dv r l1]; simpl in R1.
    - injection R1 as _ <-. by eexists.
    - unfold spiral_eval in R1. destruct l1 as [l1|]; [|done]. destruct (euler_create _ _ _); simpl in R1; [|done]. injection R1 as _ <-. by eexists.
    - destruct g as [| |c l2 a2|]; try done. destruct g2 as [| |c3 l3 a3|]; try done. simpl in R2.
      destruct E1 as [E1 _], E2 as [E2 E2']. destruct l1 as [l1|].
      { unfold arc_eval in R1. destruct (ftruthy_opt (Some l1)); simpl in R1.
        - injection R1 as _ <-. destruct (ftruthy _); by eexists.
        - destruct a1 as [a1|]; [|done]. simpl in R1. injection R1 as _ <-. destruct (ftruthy a1); by eexists. }
      destruct (E1 eq_refl) as [-> ->]. unfold arc_eval in R1. simpl in R1. destruct a2 as [a2|]; [|done]. simpl in R1. injection R1 as _ <-.
      destruct (ftruthy a2) eqn:Ea; [by eexists|exfalso]. specialize (E2' eq_refl Ea). subst l3. destruct (E2 eq_refl) as [_ ->].
      unfold arc_eval in R2. simpl in R2. rewrite Ea in R2. done.
    - unfold poly_param in R1. destruct (String.eqb r "normalized"); simpl in R1.
      + injection R1 as _ <-. by eexists.
      + destruct l1 as [l1|]; [|done]. simpl in R1. injection R1 as _ <-. by eexists.
  Qed.

  Lemma chain_complete (geo : ref → geom F) ov i p s gs rs e t : SpecChain.chain geo ov i p s gs rs e t →
    ∀ r, r ∈ rs → is_Some (pg_s r) ∧ is_Some (pg_length r) ∧ pg_geom r ∈ gs.
  Proof.
    induction 1 as [|i x y hd0 hd s g gs l0 q0 q l rs e t Hh R1 R2 Hc IH]; intros r Hr; [by apply elem_of_nil in Hr|].
    apply elem_of_cons in Hr as [->|Hr]; simpl.
    - split; [by eexists|]. split; [exact (reports_length _ _ _ _ _ _ _ R1 R2)|left].
    - destruct (IH r Hr) as (A & B & C). split; [done|]. split; [done|]. by right.
  Qed.

  Lemma forward_complete h h' o q : (∀ g, evolves (h_geom h !!! g) (h_geom h' !!! g)) →
    (pv_raw (view h o) ≠ [] ∧ ∀ g, g ∈ pv_raw (view h o) → match h_geom h !!! g with GPoly _ _ _ _ _ _ _ _ range _ => range ∈ ["arcLength"; "normalized"] | _ => True end) →
    put_forward h (view h o) (view h' o) q →
    pv_geoms (view h' o) ≠ [] ∧ ∀ p, p ∈ pv_geoms (view h' o) → geometry_fits h' p.
  Proof.
    intros Hev [Hne Hrange] (_ & _ & e & Hc & _). pose proof (chain_geoms _ _ _ _ _ _ _ _ _ Hc) as Hg. split.
    - intros E. rewrite E in Hg. by apply Hne.
    - intros p Hp. destruct (chain_complete _ _ _ _ _ _ _ _ _ Hc p Hp) as (A & B & C). split; [done|]. split; [done|].
      specialize (Hrange _ C). pose proof (evolves_shape _ _ (Hev (pg_geom p))) as Hs.
      destruct (h_geom h !!! pg_geom p), (h_geom h' !!! pg_geom p); try done. by rewrite Hs.
  Qed.

  (** In a network that flows forwards, every geometry gets its position and its length. *)
  Theorem C72_placed h h' d : reachable h → exists_in h_odr h d → fresh_network h d → connects_ordinary h d → flows_forward h d → drawn h d →
    adjust_roads_and_lanes d h = (Ok tt, h') → network_placed h' d.
  Proof.
    intros Hr Hd Hf Hc Hfl Hdr E k r Hk. rewrite adjust_roads_and_lanes_split in E. apply bind_ok in E as ([] & h1 & E1 & E2).
    pose proof (pres_ok _ _ _ _ _ (lo_link_all d) E2) as Hlo. pose proof (nf_adjust_startpoints d h) as N. rewrite E1 in N. simpl in N.
    assert (Epv : h_pv h' = h_pv h1) by (rewrite Hlo; done). assert (Ero : h_road h' = h_road h1) by (rewrite Hlo; done).
    assert (Eg : h_geom h' = h_geom h1) by (rewrite Hlo; done). assert (Eo : h_odr h' = h_odr h1) by (rewrite Hlo; done).
    rewrite Epv Ero (nf_road _ _ _ N). rewrite Eo (nf_odr _ _ _ N) in Hk.
    assert (Hn : road_named h d k = Some (h_road h !!! r)).
    { unfold road_named. by rewrite (dict_in _ _ _ (keys_nodup h d Hr Hd) Hk). }
    destruct (C72_forward h h1 d Hf Hc Hfl E1 k _ Hn) as [q Hq].
    destruct (forward_complete h h1 (h_road h !!! r) q (nf_geom _ _ _ N) (Hdr k _ Hn) Hq) as [A B].
    split; [done|]. intros p Hp. specialize (B p Hp). unfold geometry_fits in *. by rewrite Eg.
  Qed.

  (** Its document is valid. *)
  Theorem C72_schema (numbers : ∀ x : F, fstr x ≠ "None") date h h' d : reachable h → exists_in h_odr h d →
    fresh_network h d → connects_ordinary h d → flows_forward h d → drawn h d →
    plain_pairs h d → lanes_apart h d → lanes_unlinked h d → predecessors_first h d → network_given h d →
    adjust_roads_and_lanes d h = (Ok tt, h') →
    ∃ e, odr_element date h' d = Ok e ∧ v_OpenDRIVE F e.
  Proof.
    intros Hr Hd Hf Hc Hfl Hdr Hp Ha Hu Hfirst Hg E.
    assert (Hr' : reachable h'). { replace h' with (step (OpAdjustRoadsAndLanes d) h).2; [exact (run_reachable h [OpAdjustRoadsAndLanes d] Hr)|].
      unfold step, guarded. rewrite (has_true _ _ _ Hd). unfold as_unit. by rewrite (bind_run _ _ _ _ _ E). }
    assert (Hd' : exists_in h_odr h' d). { destruct (adjust_same h d h' E) as (Eo & _). unfold exists_in. by rewrite Eo. }
    destruct (C41_reachable date h' d Hr' Hd') as [e He]. exists e. split; [done|].
    apply (C70_adjusted h d Hr Hd Hp Ha h' Hu E numbers date e Hfirst He). split; [done|]. by apply (C72_placed h h' d).
  Qed.

  (** ** The order of adding can make the placing impossible: a road whose predecessor (or, if it has none, whose successor) is not one of the roads,
      for example a junction, fails unless it is fixed, the first road, or a road that a connecting road added before it leads to. *)
  Theorem C72_refuted_blocked h d i k o L : fresh_network h d → net_keys h d !! i = Some k → ¬ root h d k → road_named h d k = Some o →
    rd_pred o = Some L ∨ rd_pred o = None ∧ rd_succ o = Some L → pystr (lk_id L) ∉ net_keys h d →
    (∀ x, x ∈ take i (net_keys h d) → root h d x ∨
      ¬ ∃ ox Lx, road_named h d x = Some ox ∧ rd_type ox ≠ (-1)%Z ∧ (rd_pred ox = Some Lx ∨ rd_succ ox = Some Lx) ∧ pystr (lk_id Lx) = k) →
    (∀ h', adjust_startpoints d h ≠ (Ok tt, h')) ∧ ∀ h', adjust_roads_and_lanes d h ≠ (Ok tt, h').
  Proof.
    intros Hf Hi Hk Ho HL Hid Hpre. pose proof (λ h', blocked h d Hf i k o L h' Hi Hpre Hk Ho HL Hid) as B. split; [done|].
    intros h' E. rewrite adjust_roads_and_lanes_split in E. apply bind_ok in E as ([] & h1 & E & _). exact (B h1 E).
  Qed.

  (** ** Networks in which every road continues a road added before it flow forwards *)
  Lemma named_key h d k : k ∈ net_keys h d → is_Some (road_named h d k).
  Proof.
    unfold net_keys, road_named. intros Hk. apply elem_of_list_fmap in Hk as ([k' r] & -> & Hk). simpl.
    induction (od_roads (h_odr h !!! d)) as [|[k r'] D IH]; [by apply elem_of_nil in Hk|]. simpl. destruct (String.eqb k' k) eqn:E; [by eexists|].
    apply elem_of_cons in Hk as [[= -> ->]|Hk]; [by rewrite String.eqb_refl in E|auto].
  Qed.
  Theorem C72_ordered h d : (∀ k o S, road_named h d k = Some o → rd_type o ≠ (-1)%Z → rd_succ o = Some S → lk_contact S = Some cp_start) →
    continues_earlier h d → flows_forward h d.
  Proof.
    intros Hs Hc. assert (G : ∀ n i k, i < n → net_keys h d !! i = Some k → in_time h d k n).
    { intros n. induction (lt_wf n) as [n _ IH]. intros i k Hi Hk. destruct (named_key h d k (elem_of_list_lookup_2 _ _ _ Hk)) as [o Ho].
      destruct (Hc i k o Hk Ho) as [Hroot|(P & j & HP & Et & Hj & Kj)]; [by apply it_root|]. eapply (it_own h d k n i o P); [done..|]. exact (IH i Hi j _ Hj Kj). }
    split.
    - intros i k o S Hk Ho Hroot HS _. destruct (Hc i k o Hk Ho) as [?|(P & j & HP & Et & Hj & Kj)]; [done|]. right. exists P. split; [done|]. split; [done|]. exact (G i j _ Hj Kj).
    - intros k o S Ho _ Ht HS. exact (Hs k o S Ho Ht HS).
  Qed.
End Flow.

(** ** Concrete cases (arithmetic: quarter turns) *)
Section Examples.
  Local Existing Instance QNum.
  Local Open Scope nat_scope.
  Definition flow_test (h : heap Z) (d : ref) : bool :=
    bool_decide (NoDup (net_keys h d)) && bool_decide (NoDup (map (λ kr, rd_planview (h_road h !!! kr.2)) (od_roads (h_odr h !!! d)))) &&
    forallb (λ kr, let o := h_road h !!! kr.2 in let p := view h o in
      negb (pv_adjusted p) && bool_decide (pv_geoms p = []) && bool_decide (pv_s p = 0%Z) && negb (pv_fixed p) && bool_decide (rd_type o = (-1)%Z) && negb (bool_decide (pv_raw p = [])) &&
      forallb (λ g, match h_geom h !!! g with GPoly _ _ _ _ _ _ _ _ _ _ => false | _ => true end) (pv_raw p)) (od_roads (h_odr h !!! d)) &&
    match od_roads (h_odr h !!! d) with
    | [] => false
    | _ :: D => forallb (λ x, match rd_pred (h_road h !!! (x.2.2 : ref)) with
        | Some P => negb (bool_decide (lk_etype P = Some et_junction)) && bool_decide (pystr (lk_id P) ∈ take (S x.1) (net_keys h d))
        | None => false end) (imap (λ i x, (i, x)) D)
    end.
  Lemma flow_tested (h : heap Z) d : flow_test h d = true → fresh_network h d ∧ connects_ordinary h d ∧ continues_earlier h d ∧ drawn h d ∧
    ∀ k o S, road_named h d k = Some o → rd_type o ≠ (-1)%Z → rd_succ o = Some S → lk_contact S = Some cp_start.
  Proof.
    unfold flow_test. rewrite !andb_true_iff. intros [[[T1 T2] T3] T4]. apply bool_decide_eq_true in T1, T2.
    assert (Each : ∀ k o, road_named h d k = Some o → ∃ r, (k, r) ∈ od_roads (h_odr h !!! d) ∧ o = h_road h !!! r ∧ pv_adjusted (view h o) = false ∧ pv_geoms (view h o) = [] ∧ pv_s (view h o) = 0%Z ∧
      pv_fixed (view h o) = false ∧ rd_type o = (-1)%Z ∧ pv_raw (view h o) ≠ [] ∧ ∀ g, g ∈ pv_raw (view h o) → match h_geom h !!! g with GPoly _ _ _ _ _ _ _ _ _ _ => False | _ => True end).
    { intros k o (r & Hk & ->)%named_road. exists r. split; [done|]. split; [done|]. pose proof (forallb_in _ _ _ T3 Hk) as H. cbn zeta in H. simpl in H. rewrite !andb_true_iff in H.
      destruct H as [[[[[[A B] C] D] E] G] J]. apply negb_true_iff in A, D, G. apply bool_decide_eq_true in B, C, E. apply bool_decide_eq_false in G. do 6 (split; [done|]).
      intros g Hg. pose proof (forallb_in _ _ _ J Hg) as X. simpl in X. by destruct (h_geom h !!! g). }
    split; [|split; [|split; [|split]]].
    - split; [done| |].
      + intros k1 k2 o1 o2 H1 H2 E. destruct (Each k1 o1 H1) as (r1 & [i1 I1]%elem_of_list_lookup & -> & _), (Each k2 o2 H2) as (r2 & [i2 I2]%elem_of_list_lookup & -> & _).
        assert (i1 = i2) as ->; [|by rewrite I1 in I2; injection I2]. eapply (NoDup_lookup _ i1 i2 _ T2); rewrite list_lookup_fmap; [by rewrite I1|by rewrite I2 /= E].
      + intros k o H. destruct (Each k o H) as (r & _ & _ & A & B & C & _). done.
    - intros c oc L o H Ht. destruct (Each c oc H) as (r & _ & _ & _ & _ & _ & _ & E & _). done.
    - intros i k o Hi Ho. unfold net_keys in Hi. destruct (od_roads (h_odr h !!! d)) as [|[k0 r0] D] eqn:ED; [done|]. destruct i as [|i].
      { left. right. split.
        - intros k' (o' & Ho' & Hf). destruct (Each k' o' Ho') as (r & _ & _ & _ & _ & _ & E & _). congruence.
        - unfold net_keys. rewrite ED. exact Hi. }
      simpl in Hi. apply list_lookup_fmap_Some in Hi as ([k' r] & Hi & ->). assert (Eo : o = h_road h !!! r).
      { unfold road_named in Ho. rewrite (dict_get_nodup _ _ r) in Ho; [exact T1|rewrite ED; right; by eapply elem_of_list_lookup_2|by injection Ho]. }
      assert (Hx : (i, (k', r)) ∈ imap (λ i x, (i, x)) D). { apply elem_of_lookup_imap. by exists i, (k', r). }
      pose proof (forallb_in _ _ _ T4 Hx) as X. simpl in X. rewrite -Eo in X. destruct (rd_pred o) as [P|]; [|done]. apply andb_true_iff in X as [X1 X2].
      apply negb_true_iff, bool_decide_eq_false in X1. apply bool_decide_eq_true in X2. right. exists P.
      apply elem_of_list_lookup in X2 as [j Hj]. apply lookup_take_Some in Hj as [Hj Hlt]. exists j. by split_and!.
    - intros k o H. destruct (Each k o H) as (r & _ & _ & _ & _ & _ & _ & _ & A & B). split; [done|]. intros g Hg. specialize (B g Hg). by destruct (h_geom h !!! g).
    - intros k o S H Ht. destruct (Each k o H) as (r & _ & _ & _ & _ & _ & _ & E & _). done.
  Qed.
  (** the chain of three roads of C70 meets all the conditions *)
  Example C72_example : let h := run heap_init (unlinked_chain [7; 15; 23]) in
    reachable h ∧ exists_in h_odr h 26 ∧ fresh_network h 26 ∧ connects_ordinary h 26 ∧ flows_forward h 26 ∧ drawn h 26 ∧
    plain_pairs h 26 ∧ lanes_apart h 26 ∧ lanes_unlinked h 26 ∧ predecessors_first h 26 ∧ network_given h 26 ∧ (adjust_roads_and_lanes 26 h).1 = Ok tt.
  Proof.
    intros h. destruct (flow_tested h 26) as (A & B & C & D & E); [vm_compute; reflexivity|].
    destruct C70_adjusted_example as (C1 & C2 & C3 & C4 & C5 & C6 & C7 & C8 & _).
    exact (conj C1 (conj C2 (conj A (conj B (conj (C72_ordered h 26 E C) (conj D (conj C3 (conj C4 (conj C5 (conj C6 (conj C8 C7))))))))))).
  Qed.
End Examples.

Print Assumptions C72_forward.
Print Assumptions C72_placed.
Print Assumptions C72_schema.
Print Assumptions C72_ordered.
Print Assumptions C72_refuted_blocked.
Print Assumptions C72_example.
