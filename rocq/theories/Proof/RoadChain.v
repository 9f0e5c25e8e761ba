(** Roads one after the other: placement *)
From Coq Require Import ssreflect.
From Verif.Model Require Import Api.
From Verif.Spec Require Import SpecRoadChain.
From Verif.Proof Require Import Monad DictFacts PlanViewFacts NetFrame Network Again.
Local Open Scope general_if_scope.

Section Placement.
  Context {F : Type} `{!Num F}.
  Implicit Types (h : heap F) (o : road).

  Section Chain.
    Context (h : heap F) (d : ref) (ks : list string).
    Context (Hf : fresh_network h d) (He : evaluable_network h d) (Hc : road_chain h d ks).

    Lemma rc_nodup : NoDup ks.
    Proof. rewrite -(rc_keys _ _ _ Hc). apply Hf. Qed.
    Lemma rc_named k : k ∈ ks ↔ is_Some (road_named h d k).
    Proof. rewrite -(rc_keys _ _ _ Hc). apply keys_are_named. Qed.
    Lemma rc_at i k : ks !! i = Some k → ∃ o, road_named h d k = Some o.
    Proof. intros Hi. apply rc_named. by eapply elem_of_list_lookup_2. Qed.
    Lemma rc_index i j k : ks !! i = Some k → ks !! j = Some k → i = j.
    Proof. apply NoDup_lookup, rc_nodup. Qed.

    (** the links of the road at place [i] *)
    Lemma rc_pred_link i k o L : ks !! i = Some k → road_named h d k = Some o → rd_pred o = Some L →
      ∃ j k' o', i = S j ∧ ks !! j = Some k' ∧ road_named h d k' = Some o' ∧
        lk_etype L = Some et_road ∧ lk_id L = rd_id o' ∧ lk_contact L = Some cp_end ∧ pystr (lk_id L) = k'.
    Proof.
      intros Hi Ho HL. destruct i as [|j].
      { rewrite (rc_first _ _ _ Hc k o) // in HL. by rewrite head_lookup. }
      destruct (ks !! j) as [k'|] eqn:Hj; [|apply lookup_ge_None in Hj; apply lookup_lt_Some in Hi; lia].
      destruct (rc_at _ _ Hj) as [o' Ho'].
      destruct (rc_next _ _ _ Hc j k' k o' o Hj Hi Ho' Ho) as [_ (l & El & Et & Eid & Ecp)].
      assert (l = L) as -> by congruence. exists j, k', o'. split_and!; try done.
      rewrite Eid. by apply (rc_road _ _ _ Hc).
    Qed.
    Lemma rc_succ_link i k o L : ks !! i = Some k → road_named h d k = Some o → rd_succ o = Some L →
      ∃ k' o', ks !! S i = Some k' ∧ road_named h d k' = Some o' ∧
        lk_etype L = Some et_road ∧ lk_id L = rd_id o' ∧ lk_contact L = Some cp_start ∧ pystr (lk_id L) = k'.
    Proof.
      intros Hi Ho HL. destruct (ks !! S i) as [k'|] eqn:Hj.
      - destruct (rc_at _ _ Hj) as [o' Ho'].
        destruct (rc_next _ _ _ Hc i k k' o o' Hi Hj Ho Ho') as [(l & El & Et & Eid & Ecp) _].
        assert (l = L) as -> by congruence. exists k', o'. split_and!; try done.
        rewrite Eid. by apply (rc_road _ _ _ Hc).
      - rewrite (rc_last _ _ _ Hc k o) // in HL. rewrite last_lookup. rewrite -Hi. f_equal.
        apply lookup_lt_Some in Hi. apply lookup_ge_None in Hj. lia.
    Qed.

    Lemma rc_anchored i : ∀ k, ks !! i = Some k → anchored h d k.
    Proof.
      induction i as [|i IH]; intros k Hi.
      - apply an_root; [apply (rc_root _ _ _ Hc); by rewrite head_lookup|]. apply keys_are_named. by eapply rc_at.
      - destruct (ks !! i) as [k'|] eqn:Hj; [|apply lookup_ge_None in Hj; apply lookup_lt_Some in Hi; lia].
        destruct (rc_at _ _ Hi) as [o Ho], (rc_at _ _ Hj) as [o' Ho'].
        destruct (rc_next _ _ _ Hc i k' k o' o Hj Hi Ho' Ho) as [_ (l & El & Et & Eid & Ecp)].
        eapply an_link; [|by apply IH]. exists o, l. split_and!; [done|by left|by rewrite Et|].
        rewrite Eid. by apply (rc_road _ _ _ Hc).
    Qed.
    Lemma rc_well_linked : well_linked h d.
    Proof.
      split.
      - intros k o L Ho HL. assert (Hk : k ∈ ks) by (apply rc_named; by eexists). apply elem_of_list_lookup in Hk as [i Hi].
        destruct HL as [HL|HL].
        + destruct (rc_pred_link i k o L Hi Ho HL) as (j & k' & o' & _ & _ & Ho' & _ & _ & -> & ->). split; [by eexists|done].
        + destruct (rc_succ_link i k o L Hi Ho HL) as (k' & o' & _ & Ho' & _ & _ & -> & ->). split; [by eexists|done].
      - intros k o g Ho. by apply (He k o Ho).
      - intros k o Ho. by apply (He k o Ho).
    Qed.
    Lemma rc_runs : ks ≠ [] → ∃ h', adjust_startpoints d h = (Ok tt, h').
    Proof.
      intros Hne. apply adjust_startpoints_run; [done|apply rc_well_linked|..].
      - intros c oc L o Hco Hty. destruct Hty. by apply (rc_road _ _ _ Hc c).
      - intros Hnil. apply Hne. pose proof (rc_keys _ _ _ Hc) as Hp. rewrite Hnil in Hp. by apply Permutation_nil_l in Hp.
      - intros k Hk. rewrite (rc_keys _ _ _ Hc) in Hk. apply elem_of_list_lookup in Hk as [i Hi]. by eapply rc_anchored.
    Qed.

    Context (h' : heap F) (E : adjust_startpoints d h = (Ok tt, h')).

    (** each road is placed after the one before it, from its end *)
    Lemma rc_order ord : ord ≡ₚ net_keys h d →
      (∀ pre k suf, ord = pre ++ k :: suf → root_placed h h' d k ∨ ∃ k2, k2 ∈ pre ∧ attached h h' d k k2) →
      ∀ n pre k suf i, length pre = n → ord = pre ++ k :: suf → ks !! i = Some k →
        (i = 0 ∧ root_placed h h' d k) ∨
        ∃ j k2 o o2 q, i = S j ∧ ks !! j = Some k2 ∧ k2 ∈ pre ∧ road_named h d k = Some o ∧ road_named h d k2 = Some o2 ∧
          pv_end (view h' o2) = Some q ∧ put_forward h (view h o) (view h' o) (beside 0 q).
    Proof.
      intros Hp Hj n. induction (lt_wf n) as [n _ IH]. intros pre k suf i Hn Eo Hi.
      assert (Hnd : NoDup ord) by (rewrite Hp; apply Hf).
      destruct (Hj pre k suf Eo) as [Hr|(k2 & Hk2 & Ha)].
      { left. split; [|done]. destruct Hr as [Hr _]. apply (rc_root _ _ _ Hc) in Hr. rewrite head_lookup in Hr. by eapply rc_index. }
      right. destruct Ha as [o o2 L cp q Ho Ho2 HL Het Hid Hcp Hof Hpa|o o2 L cp q Ho Ho2 HL Het Hid Hcp Hof Hpa|o o2 L q Ho Ho2 Hty|o o2 L q Ho Ho2 Hty].
      - destruct (rc_pred_link i k o L Hi Ho HL) as (j & k' & o' & -> & Hj' & Ho' & _ & _ & Ecp & Eid).
        assert (k' = k2) as -> by congruence. assert (cp = cp_end) as -> by congruence.
        exists j, k2, o, o2, q. split_and!; try done.
        unfold put_at in Hpa. by destruct (rc_road _ _ _ Hc k o Ho) as (_ & _ & <- & _).
      - exfalso. destruct (rc_succ_link i k o L Hi Ho HL) as (k' & o' & Hi' & Ho' & _ & _ & Ecp & Eid).
        assert (k' = k2) as -> by congruence.
        apply elem_of_list_split in Hk2 as (p1 & p2 & Epre).
        assert (Eo2 : ord = p1 ++ k2 :: (p2 ++ k :: suf)) by (rewrite Eo Epre -app_assoc; done).
        destruct (IH (length p1)) with (pre := p1) (k := k2) (suf := p2 ++ k :: suf) (i := S i) as [[? _]|(j & kj & _ & _ & _ & Ej & Hjj & Hin & _)]; try done.
        + rewrite -Hn Epre app_length /=. lia.
        + injection Ej as <-. assert (kj = k) as -> by congruence.
          rewrite Eo Epre in Hnd. apply NoDup_app in Hnd as (_ & Hnd & _). apply (Hnd k); [|by left]. apply elem_of_app. by left.
      - destruct Hty. by apply (rc_road _ _ _ Hc k2).
      - destruct Hty. by apply (rc_road _ _ _ Hc k2).
    Qed.

    Theorem rc_placed i k1 k2 o1 o2 : ks !! i = Some k1 → ks !! S i = Some k2 → road_named h d k1 = Some o1 → road_named h d k2 = Some o2 →
      ∃ q, pv_end (view h' o1) = Some q ∧ put_forward h (view h o2) (view h' o2) (beside 0 q).
    Proof.
      intros H1 H2 Ho1 Ho2. destruct (adjust_startpoints_result h d Hf _ _ E) as (ord & HR & Hp).
      assert (Hk : k2 ∈ ord) by (rewrite Hp; apply (keys_named h d); by eexists).
      apply elem_of_list_split in Hk as (pre & suf & Eo).
      destruct (rc_order ord Hp (ni_just _ _ _ _ (ri_inv _ _ _ _ HR)) _ pre k2 suf (S i) eq_refl Eo H2) as [[? _]|(j & k & o & o' & q & Ej & Hj & _ & Ho & Ho' & Hq & Hput)]; [done|].
      injection Ej as <-. assert (k = k1) as -> by congruence. assert (o = o2) as -> by congruence. assert (o' = o1) as -> by congruence.
      by exists q.
    Qed.
    Theorem rc_first_placed k o : head ks = Some k → road_named h d k = Some o →
      put_forward h (view h o) (view h' o) (pv_x (view h o), pv_y (view h o), pv_h (view h o)).
    Proof.
      intros Hk Ho. destruct (adjust_startpoints_result h d Hf _ _ E) as (ord & HR & Hp).
      assert (Hko : k ∈ ord) by (rewrite Hp; apply (keys_named h d); by eexists).
      destruct (ni_rootp _ _ _ _ (ri_inv _ _ _ _ HR) k Hko (proj2 (rc_root _ _ _ Hc k) Hk)) as (_ & o' & Ho' & Hpf).
      by assert (o' = o) as -> by congruence.
    Qed.
  End Chain.
End Placement.
