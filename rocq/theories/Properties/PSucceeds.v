(** * C73: when adjusting a network succeeds *)
From Coq Require Import ssreflect.
From Verif.Model Require Import Api.
From Verif.Inst Require Import Quarter.
From Verif.Spec Require Import SpecNetwork SpecLinkOrder SpecAgain SpecFlow.
From Verif.Proof Require Import Monad DictFacts Steps Invariants NetFrame Network Flow FlowRun Again LinkKinds LinkOrder.
From Verif.Properties Require Import PHistory PLaneLinks PNetwork PLinkOrder PSchemaOrder PFlow.
Local Unset SsrOldRewriteGoalsOrder.
Local Open Scope general_if_scope.
Local Open Scope list_scope.

Lemma combinations2_elem {A} (l : list A) i j x y : i < j → l !! i = Some x → l !! j = Some y → (x, y) ∈ combinations2 l.
Proof.
  revert i j. induction l as [|z l IH]; intros i j Hij Hi Hj; [done|]. simpl. apply elem_of_app. destruct j as [|j]; [lia|]. destruct i as [|i].
  - left. injection Hi as ->. simpl in Hj. apply elem_of_list_fmap. exists y. split; [done|]. by eapply elem_of_list_lookup_2.
  - right. apply (IH i j); [lia|done|done].
Qed.

Section Succeeds.
  Context {F : Type} `{!Num F}.
  Implicit Types (h : heap F).

  (** ** Placing: a network whose roads can be placed in one sweep is placed, whatever its roads' links to junctions are *)
  Theorem C73_sweep h d : fresh_network h d → connects_ordinary h d → evaluable_network h d → one_sweep h d → net_keys h d ≠ [] →
    ∃ h', adjust_startpoints d h = (Ok tt, h').
  Proof. intros Hf Ho We Hs. exact (one_sweep_runs h d Hf Ho We Hs). Qed.

  (** a network in which every road continues a road added before it, with contact points, and whose connecting roads end at roads *)
  Theorem C73_ordered h d : fresh_network h d → connects_ordinary h d → evaluable_network h d → net_keys h d ≠ [] → continues_earlier h d →
    (∀ k o P, road_named h d k = Some o → rd_pred o = Some P → lk_contact P ≠ None) →
    (∀ k o S, road_named h d k = Some o → rd_type o ≠ (-1)%Z → rd_succ o = Some S → is_Some (road_named h d (pystr (lk_id S)))) →
    ∃ h', adjust_startpoints d h = (Ok tt, h').
  Proof.
    intros Hf Ho We Hne Hc Hcp Hs. apply C73_sweep; [done..| |done].
    assert (G : ∀ n i k, i < n → net_keys h d !! i = Some k → in_time h d k n).
    { intros n. induction (lt_wf n) as [n _ IH]. intros i k Hi Hk. destruct (named_key h d k (elem_of_list_lookup_2 _ _ _ Hk)) as [o Ho'].
      destruct (Hc i k o Hk Ho') as [Hroot|(P & j & HP & Et & Hj & Kj)]; [by apply it_root|]. eapply (it_own h d k n i o P); [done..|]. exact (IH i Hi j _ Hj Kj). }
    split.
    - intros k [i Hi]%elem_of_list_lookup. apply (G _ i k); [by eapply lookup_lt_Some|done].
    - intros i k o Hk Ho'. destruct (Hc i k o Hk Ho') as [Hroot|(P & j & HP & Et & Hj & Kj)]; [left; by apply it_root|].
      right. left. exists P. split; [done|]. split; [done|]. split; [exact (Hcp k o P Ho' HP)|]. split; [exact (G i j _ Hj Kj)|]. intros Ht S HS. exact (Hs k o S Ho' Ht HS).
  Qed.

  (** ** Placing and lane linking: it succeeds exactly if placing does and every two roads, taken in the order of adding, can be linked as they are given *)
  Theorem C73_lanes h d : is_ok (adjust_roads_and_lanes d h).1 ↔
    is_ok (adjust_startpoints d h).1 ∧
    ∀ i j k k' r r', i < j → net_keys h d !! i = Some k → net_keys h d !! j = Some k' →
      dict_get (od_roads (h_odr h !!! d)) k = Some r → dict_get (od_roads (h_odr h !!! d)) k' = Some r' → is_ok (create_lane_links r r' h).1.
  Proof.
    rewrite adjust_roads_and_lanes_split. destruct (adjust_startpoints d h) as [[[]|e] h'] eqn:E.
    2: { split; [intros H; exfalso; revert H; unfold bind; by rewrite E|by intros [? _]]. }
    rewrite (bind_run _ _ _ _ _ E). pose proof (nf_adjust_startpoints d h) as N. rewrite E in N. cbn [snd] in N.
    pose proof (link_all_static h h' d (alike_frame d h h' N)) as L. cbn [fst]. destruct (existsb _ _) eqn:X.
    - rewrite L. split; [done|]. intros [_ H]. exfalso. apply existsb_exists in X as ([k k'] & Hin & Hf). apply elem_of_list_In, elem_combinations2 in Hin as (i & j & Hij & Hi & Hj).
      unfold pair_fails, pair_of in Hf. cbn [fst snd] in Hf.
      assert (G : ∀ k, k ∈ net_keys h d → is_Some (dict_get (od_roads (h_odr h !!! d)) k)).
      { clear. intros k Hk. destruct (named_key h d k Hk) as [o Ho]. unfold road_named in Ho. destruct (dict_get _ k); [by eexists|done]. }
      destruct (G k (elem_of_list_lookup_2 _ _ _ Hi)) as [r Er], (G k' (elem_of_list_lookup_2 _ _ _ Hj)) as [r' Er']. rewrite Er Er' in Hf. unfold fails in Hf.
      specialize (H i j k k' r r' Hij Hi Hj Er Er'). revert Hf H. generalize (is_ok (create_lane_links r r' h).1). intros [|] A B; [discriminate A|exact B].
    - destruct L as (us & -> & _). split; [|done]. intros _. split; [done|]. intros i j k k' r r' Hij Hi Hj Er Er'.
      pose proof (combinations2_elem _ i j k k' Hij Hi Hj) as Hin. assert (Y : pair_fails h d (k, k') = false).
      { destruct (pair_fails h d (k, k')) eqn:Z; [|done]. assert (T : existsb (pair_fails h d) (combinations2 (net_keys h d)) = true); [|congruence].
        apply existsb_exists. exists (k, k'). split; [by apply elem_of_list_In|done]. }
      unfold pair_fails, pair_of in Y. cbn [fst snd] in Y. rewrite Er Er' in Y. unfold fails in Y. revert Y. by destruct (is_ok _).
  Qed.
End Succeeds.

(** ** A concrete case: road 1, then the connecting road 3 from road 1 to road 2, then road 2, whose predecessor is junction 100, which no road is called *)
Section Examples.
  Local Existing Instance QNum.
  Local Open Scope nat_scope.
  Definition with_junction : list (op Z) := connected [(2, 1)] 8 cp_end cp_start 0 0 ++
    [OpAddSuccessor 2 (Some et_junction) (PInt 100) None 0; OpAddPredecessor 10 (Some et_junction) (PInt 100) None 0;
     OpOpenDrive "a"; OpAddRoad 24 2; OpAddRoad 24 18; OpAddRoad 24 10].
  Example C73_sweep_example : let h := run heap_init with_junction in
    reachable h ∧ net_keys h 24 = ["1"; "3"; "2"] ∧ fresh_network h 24 ∧ connects_ordinary h 24 ∧ evaluable_network h 24 ∧ one_sweep h 24 ∧
    (adjust_roads_and_lanes 24 h).1 = Ok tt.
  Proof.
    intros h. split; [by eexists|].
    assert (K : net_keys h 24 = ["1"; "3"; "2"]) by (vm_compute; reflexivity). split; [exact K|].
    assert (NF : ∀ k, ¬ fixed_road h 24 k). { intros k (o & Ho & Hf). named Ho; by vm_compute in Hf. }
    assert (T1 : ∀ n, in_time h 24 "1" n). { intros n. apply it_root; [right; split; [exact NF|by rewrite K]|eexists; vm_compute; reflexivity]. }
    assert (NR : ∀ k, k ≠ "1" → ¬ root h 24 k). { intros k Hk [Hf|[_ Hh]]; [by apply (NF k)|]. rewrite K in Hh. by injection Hh. }
    assert (R3 : ∃ o P S, road_named h 24 "3" = Some o ∧ rd_type o = 100%Z ∧ rd_pred o = Some P ∧ rd_succ o = Some S ∧ lk_etype P = Some et_road ∧ lk_contact P = Some cp_end ∧
      pystr (lk_id P) = "1" ∧ pystr (lk_id S) = "2") by (eexists _, _, _; split_and!; vm_compute; reflexivity).
    assert (R2 : is_Some (road_named h 24 "2")) by (eexists; vm_compute; reflexivity).
    assert (R : (adjust_roads_and_lanes 24 h).1 = Ok tt) by (vm_compute; reflexivity).
    assert (Fr : fresh_network h 24).
    { split.
      - apply (bool_decide_unpack _); vm_compute; exact I.
      - intros k1 k2 o1 o2 H1 H2. named H1; named H2; done.
      - intros k o H1. named H1; split_and!; vm_compute; reflexivity. }
    assert (Only : ∀ k o, road_named h 24 k = Some o → rd_type o ≠ (-1)%Z → k = "3").
    { intros k o Hk Ht. named Hk; [exfalso; apply Ht; vm_compute; reflexivity|reflexivity|exfalso; apply Ht; vm_compute; reflexivity]. }
    assert (O1 : rd_type <$> road_named h 24 "1" = Some (-1)%Z) by (vm_compute; reflexivity).
    assert (O2 : rd_type <$> road_named h 24 "2" = Some (-1)%Z) by (vm_compute; reflexivity).
    assert (Ev : evaluable_network h 24). { intros k o Ho. named Ho; (split; [intros g Hg; vm_compute in Hg; inversion Hg|left; vm_compute; reflexivity]). }
    clearbody h. split; [exact Fr|]. destruct R3 as (o3 & P & S & H3 & Ty & HP & HS & Et & Ec & EP & ES). split.
    { intros c oc L o Hc Ht HL Ho. pose proof (Only c oc Hc Ht) as ->. assert (oc = o3) as -> by congruence.
      destruct HL as [HL|HL]; [assert (L = P) as -> by congruence; rewrite EP in Ho; rewrite Ho in O1|assert (L = S) as -> by congruence; rewrite ES in Ho; rewrite Ho in O2]; by apply (inj Some). }
    split; [exact Ev|]. split; [|exact R].
    assert (Et' : lk_etype P ≠ Some et_junction) by (by rewrite Et).
    assert (T3 : ∀ n, 1 < n → in_time h 24 "3" n). { intros n Hn. apply (it_own h 24 "3" n 1 o3 P); [by rewrite K|done..|]. rewrite EP. apply T1. }
    assert (T2 : ∀ n, 1 < n → in_time h 24 "2" n). { intros n Hn. apply (it_other h 24 "3" n o3 S "2"); [by apply T3|by apply NR|done|by rewrite Ty|by right|done]. }
    split; rewrite K.
    - intros k Hk. rewrite !elem_of_cons elem_of_nil in Hk. destruct Hk as [->|[->|[->|[]]]]; [apply T1|apply T3; simpl; lia|apply T2; simpl; lia].
    - intros i k o Hi Ho. destruct i as [|[|[|i]]]; [..|done]; injection Hi as <-.
      + left. apply T1.
      + right. left. assert (o = o3) as -> by congruence. exists P. split; [done|]. split; [done|]. split; [by rewrite Ec|]. rewrite EP. split; [apply T1|].
        intros _ S' HS'. assert (S' = S) as -> by congruence. by rewrite ES.
      + left. apply T2. lia.
  Qed.
End Examples.

Print Assumptions C73_sweep.
Print Assumptions C73_ordered.
Print Assumptions C73_lanes.
Print Assumptions C73_sweep_example.
