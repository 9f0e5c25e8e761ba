(** * C64: a script that builds objects and a script that changes others *)
From Coq Require Import ssreflect.
From Verif.Model Require Import Api.
From Verif.Inst Require Import Quarter.
From Verif.Spec Require Import SpecState SpecNetwork SpecFrame SpecLocal.
From Verif.Proof Require Import Monad DictFacts NetFrame Reach Steps History Invariants Frame Local LocalAny.
From Verif.Properties Require Import PFrame PLocal.
Local Open Scope general_if_scope.
Local Open Scope nat_scope.

Section Any.
  Context {F : Type} `{!Num F}.
  Implicit Types (h : heap F).

  Lemma in_place_dec (o : op F) : in_place o ∨ ¬ in_place o.
  Proof. destruct o; simpl; tauto. Qed.
  Lemma uses_in_place o h r : in_place o → uses o h r ↔ works_on o h r.
  Proof. by destruct o. Qed.
  Lemma touches_uses o h r : touches o h r → uses o h r.
  Proof.
    destruct (in_place_dec o) as [Ho|Ho]; intros Ht; [apply uses_in_place; [done|by apply touches_works_on]|].
    destruct o; try (exfalso; by apply Ho); simpl in *; try tauto.
    - subst. by left; left.
    - exists r. split; [done|by left].
  Qed.
  Lemma uses_same o h h' r : (∀ r, uses o h r → same_object h h' r) → uses o h' r → uses o h r.
  Proof.
    destruct (in_place_dec o) as [Ho|Ho].
    { rewrite !uses_in_place //. intros S. apply works_on_same; [done|]. intros x Hx. by apply S, uses_in_place. }
    destruct o; try (exfalso; by apply Ho); simpl; intros S Hw; try exact Hw.
    - destruct Hw as [Hw|Hw]; [left|by right]. eapply (same_road_part h h'); [|exact Hw]. intros x Hx. apply S. by left.
    - destruct Hw as (x & Hx & Hw). exists x. split; [done|]. eapply (same_road_part h h'); [|exact Hw]. intros y Hy. apply S. by exists x.
    - destruct Hw as (x & Hx & Hw). exists x. split; [done|]. eapply (same_road_part h h'); [|exact Hw]. intros y Hy. apply S. by exists x.
  Qed.
  (* any call, from two states that agree on what it uses and on what is free *)
  Lemma any_call (P : ref → Prop) o h1 h2 : reachable h1 → (∀ r, uses o h1 r → P r) → both P h1 h2 → any_at P o h1 h2.
  Proof.
    intros R1 HP HB. destruct (in_place_dec o) as [Ho|Ho]; [|by apply any_step; [apply reachable_no_dangling|..]].
    destruct HB as (HA & N & Is & Hf). destruct (local_step P o h1 h2 Ho) as (E & _ & A'); [intros r Hr; by apply HP, uses_in_place|done|].
    split; [done|]. split_and!; [done|by rewrite !in_place_next|by rewrite !in_place_ids|]. by rewrite in_place_next.
  Qed.

  (** what a call returns, and what it makes of the objects in [X] and of the new ones, depends on the objects in [X] that it uses, on the
      next free address and on the ids in use only *)
  Theorem C64_any_local (X : ref → Prop) o h1 h2 : reachable h1 → reachable h2 → h_next h1 = h_next h2 → h_ids h1 = h_ids h2 → (∀ r, uses o h1 r → X r) →
    (∀ r, X r → same_object h1 h2 r) →
    (step o h1).1 = (step o h2).1 ∧ h_next (step o h1).2 = h_next (step o h2).2 ∧ h_ids (step o h1).2 = h_ids (step o h2).2 ∧
    ∀ r, X r ∨ h_next h1 ≤ r → same_object (step o h1).2 (step o h2).2 r.
  Proof.
    intros R1 R2 N Is HX HA. destruct (any_call (λ r, X r ∨ h_next h1 ≤ r) o h1 h2) as (E & HA' & N' & I' & _); [done|auto| |done].
    split_and!; [|done|done|auto]. intros r [Hr|Hr]; [by apply HA|by apply beyond_same].
  Qed.

  Lemma any_frame o h r : ¬ uses o h r → r < h_next h → same_object h (step o h).2 r.
  Proof. intros Hu Hr. destruct (frame_step o h) as (_ & _ & H). apply H; [done|]. intros Ht. by apply Hu, touches_uses. Qed.
  Lemma works_in_cons X h o ops : works_in X h (o :: ops) → (∀ r, uses o h r → X r) ∧ works_in X (step o h).2 ops.
  Proof. intros H. split; [exact (H [] o ops eq_refl)|]. intros pre o' post ->. exact (H (o :: pre) o' post eq_refl). Qed.

  Lemma any_sim (X Y : ref → Prop) a b s : (∀ r, X r → ¬ Y r) → interleaving a b s → ∀ h ha hb, reachable h → reachable ha →
    both X ha h → agree Y hb h → works_in X ha a → stays_in Y hb b →
    both X (run ha a) (run h s) ∧ agree Y (run hb b) (run h s) ∧ interleaving (trace ha a) (trace hb b) (trace h s).
  Proof.
    intros Hxy. induction 1 as [|x a b s Hi IH|x a b s Hi IH]; intros h ha hb Rh Ra Ba Ab Sa Sb.
    - split_and!; [done|done|constructor].
    - apply works_in_cons in Sa as (Hw & Sa). destruct (any_call X x ha h Ra Hw Ba) as (E & Ba').
      assert (Ab' : agree Y hb (step x h).2).
      { intros r Hr. eapply same_trans; [by apply Ab|]. assert (NX : ¬ X r) by (intros HX; by apply (Hxy r)).
        destruct Ba as (Aa & N & _ & Hf). apply any_frame.
        - intros Hu. apply NX, Hw. apply (uses_same x ha h); [|done]. intros y Hy. by apply Aa, Hw.
        - destruct (decide (r < h_next h)); [done|]. destruct NX. apply Hf. lia. }
      destruct (IH _ _ _ (reachable_step x h Rh) (reachable_step x ha Ra) Ba' Ab' Sa Sb) as (H1 & H2 & H3). split_and!; [done|done|]. simpl. rewrite E. by constructor.
    - apply stays_in_cons in Sb as (Ho & Hw & Sb). destruct Ba as (Aa & N & Is & Hf).
      destruct (schedule_step Y X x h hb ha (λ r HY HX, Hxy r HX HY) Rh Ho Hw Ab Aa) as (E & Ab' & Aa').
      assert (Ba' : both X ha (step x h).2) by (split_and!; [done|by rewrite in_place_next|by rewrite in_place_ids|done]).
      destruct (IH _ _ _ (reachable_step x h Rh) Ra Ba' Ab' Sa Sb) as (H1 & H2 & H3). split_and!; [done|done|]. simpl. rewrite E. by constructor.
  Qed.
  Lemma any_start (X : ref → Prop) h : reachable h → (∀ r, ¬ existing h r → X r) → both X h h.
  Proof.
    intros Rh Hf. split_and!; [intros r _; apply same_refl|done|done|]. intros r Hr. apply Hf. intros He. pose proof (existing_lt _ _ Rh He). lia.
  Qed.

  (** Script [a] makes any calls - it may construct objects and give out ids - and works on objects in [X], to which all new objects belong;
      script [b] changes other existing objects.  In every schedule each call returns (or raises) what it does when its script runs alone, ... *)
  Theorem C64_any_outcomes (X Y : ref → Prop) a b s h : reachable h → (∀ r, X r → ¬ Y r) → (∀ r, ¬ existing h r → X r) →
    works_in X h a → stays_in Y h b → interleaving a b s → interleaving (trace h a) (trace h b) (trace h s).
  Proof. intros Rh Hxy Hf Sa Sb Hi. by apply (any_sim X Y a b s Hxy Hi h h h Rh Rh (any_start X h Rh Hf) (λ r _, same_refl h r) Sa Sb). Qed.
  (** ... the objects of each script, and the ids given out, end up as if it had run alone, ... *)
  Theorem C64_any_objects (X Y : ref → Prop) a b s h : reachable h → (∀ r, X r → ¬ Y r) → (∀ r, ¬ existing h r → X r) →
    works_in X h a → stays_in Y h b → interleaving a b s →
    (∀ r, X r → same_object (run h a) (run h s) r) ∧ (∀ r, Y r → same_object (run h b) (run h s) r) ∧ h_ids (run h a) = h_ids (run h s).
  Proof.
    intros Rh Hxy Hf Sa Sb Hi.
    destruct (any_sim X Y a b s Hxy Hi h h h Rh Rh (any_start X h Rh Hf) (λ r _, same_refl h r) Sa Sb) as ((H1 & _ & H2 & _) & H3 & _). done.
  Qed.
  (** ... and all schedules lead to the same state *)
  Theorem C64_any_schedules (X : ref → Prop) `{!∀ r, Decision (X r)} a b s s' h : reachable h → (∀ r, ¬ existing h r → X r) →
    works_in X h a → stays_in (λ r, ¬ X r) h b → interleaving a b s → interleaving a b s' → run h s = run h s'.
  Proof.
    intros Rh Hf Sa Sb Hs Hs'. pose proof (any_start X h Rh Hf) as B0. pose proof (λ r, same_refl h r) as Rf.
    destruct (any_sim X (λ r, ¬ X r) a b s (λ r HX HY, HY HX) Hs h h h Rh Rh B0 (λ r _, Rf r) Sa Sb) as ((A1 & N1 & I1 & _) & B1 & _).
    destruct (any_sim X (λ r, ¬ X r) a b s' (λ r HX HY, HY HX) Hs' h h h Rh Rh B0 (λ r _, Rf r) Sa Sb) as ((A2 & N2 & I2 & _) & B2 & _).
    apply same_heap; [congruence|congruence|]. intros r. destruct (decide (X r)).
    - eapply same_trans; [apply same_sym; by apply A1|by apply A2].
    - eapply same_trans; [apply same_sym; by apply B1|by apply B2].
  Qed.
End Any.

Section Examples.
  Local Existing Instance QNum.
  (* while the network 25 of PFrame is linked and placed, a script makes an object, a straight road, puts the object on it, and makes a network
     of the road *)
  Definition building : list (op Z) := [OpObject 1%Z 2%Z (inl ot_pole) None None None dyn_no 0%Z or_none 0%Z 0%Z 0%Z None None None None None;
    OpCreateStraightRoad (PInt 77) 40%Z (-1) 1 3%Z; OpAddObject 34 [26]; OpOpenDrive "new"; OpAddRoad 35 34; OpAdjustRoadsAndLanes 35].
  Definition own_or_new (r : ref) : Prop := mine r ∨ 26 ≤ r.
  Lemma calls_in (X : ref → Prop) h o ops : (∀ r, uses o h r → X r) → works_in X (step o h).2 ops → works_in X h (o :: ops).
  Proof.
    intros H1 H2 pre o' post E. destruct pre as [|x pre]; injection E as <- E; [done|]. exact (H2 pre o' post E).
  Qed.
  Lemma calls_done (X : ref → Prop) h : works_in X h [].
  Proof. intros pre o post E. by destruct pre. Qed.
  Lemma six_calls (X : ref → Prop) (h : heap Z) o1 o2 o3 o4 o5 o6 : (∀ h r, uses o1 h r → X r) → (∀ h r, uses o2 h r → X r) → (∀ h r, uses o3 h r → X r) →
    (∀ h r, uses o4 h r → X r) → (∀ h r, uses o5 h r → X r) → (∀ r, uses o6 (run h [o1; o2; o3; o4; o5]) r → X r) → works_in X h [o1; o2; o3; o4; o5; o6].
  Proof. intros H1 H2 H3 H4 H5 H6. exact (calls_in X _ _ _ (H1 _) (calls_in X _ _ _ (H2 _) (calls_in X _ _ _ (H3 _) (calls_in X _ _ _ (H4 _) (calls_in X _ _ _ (H5 _) (calls_in X _ _ _ H6 (calls_done X _))))))). Qed.
  Lemma building_in (h : heap Z) : (∀ r, network_part (run h (take 5 building)) 35 r → own_or_new r) → works_in own_or_new h building.
  Proof.
    intros A. apply six_calls; [by intros ? r []|by intros ? r []|intros ? r [->|Hr%elem_of_list_singleton]; right; lia|by intros ? r []|intros ? r [->| ->]; right; lia|exact A].
  Qed.
  Example C64_any_example_hypotheses : let h := run heap_init nets in reachable h ∧ (∀ r, ¬ existing h r → own_or_new r) ∧
    works_in own_or_new h building ∧ stays_in (λ r, ¬ own_or_new r) h script_b ∧
    interleaving building script_b (take 2 building ++ take 1 script_b ++ take 2 (drop 2 building) ++ drop 1 script_b ++ drop 4 building).
  Proof.
    intros h. split; [by eexists|].
    assert (E : Forall (λ r, existing h r ∨ own_or_new r) (seq 0 26)).
    { unfold existing, own_or_new, mine. apply (bool_decide_unpack _). vm_compute. exact I. }
    assert (A : ∀ r, network_part (run h (take 5 building)) 35 r → own_or_new r).
    { apply parts_in. unfold own_or_new, mine. apply (bool_decide_unpack _). vm_compute. exact I. }
    assert (B : ∀ r, network_part (step (OpAddNeighbor 23 (Some et_road) (PInt 9) (Some dir_same)) h).2 25 r → ¬ own_or_new r).
    { apply parts_in. unfold own_or_new, mine. apply (bool_decide_unpack _). vm_compute. exact I. }
    clearbody h. split; [|split; [|split]].
    - intros r Hr. destruct (decide (r < 26)); [|right; lia]. rewrite Forall_forall in E. destruct (E r); [apply elem_of_seq; lia|done|done].
    - by apply building_in.
    - apply two_calls; [exact I|exact I| |exact B]. intros r ->. unfold own_or_new, mine. apply (bool_decide_unpack _). vm_compute. exact I.
    - unfold building, script_b. simpl. repeat constructor.
  Qed.
  (* and the script does what it should: the road with the object is placed in the network *)
  Example C64_any_example : let h := run heap_init nets in let h' := run h building in
    map (λ k, (step (nth k building OpLanes) (run h (take k building))).1) [0; 1; 2; 3; 4; 5] = [Ok (RRef 26); Ok (RRef 34); Ok RNone; Ok (RRef 35); Ok RNone; Ok RNone] ∧
    pv_adjusted (view h' (h_road h' !!! 34)) = true ∧ rd_objects (h_road h' !!! 34) = [26] ∧ so_id (h_obj h !!! 26) = None ∧ is_Some (so_id (h_obj h' !!! 26)).
  Proof. vm_compute. split_and!; [reflexivity..|by eexists]. Qed.
End Examples.

Print Assumptions C64_any_local.
Print Assumptions C64_any_outcomes.
Print Assumptions C64_any_objects.
Print Assumptions C64_any_schedules.
