(** * C68: looking up roads *)
From Coq Require Import ssreflect.
From Verif.Model Require Import Api.
From Verif.Inst Require Import Quarter.
From Verif.Spec Require Import SpecState SpecNetwork SpecKeeps.
From Verif.Proof Require Import Monad DictFacts NetFrame Reach Steps History Invariants KeepFacts.
From Verif.Properties Require Import PHistory PFrame PNetwork.
Local Open Scope general_if_scope.
Local Unset SsrOldRewriteGoalsOrder.
Local Open Scope nat_scope.

Section Lookup.
  Context {F : Type} `{!Num F}.
  Implicit Types (h : heap F).

  (** ** get_road_by_id: the first road of the list with that id, None if there is none; nothing changes *)
  Theorem C68_by_id (rs : list ref) (id : pyid) h : ∃ res, get_road_by_id rs id h = (Ok res, h) ∧
    match res with
    | Some r => ∃ pre post, rs = pre ++ r :: post ∧ rd_id (h_road h !!! r) = id ∧ ∀ x, x ∈ pre → rd_id (h_road h !!! x) ≠ id
    | None => ∀ x, x ∈ rs → rd_id (h_road h !!! x) ≠ id
    end.
  Proof.
    induction rs as [|r rs IH]; simpl; [exists None; split; [done|by intros x ?%elem_of_nil]|].
    unfold get_road. rewrite bind_gets. destruct (bool_decide_reflect (rd_id (h_road h !!! r) = id)) as [E|E].
    - exists (Some r). split; [done|]. exists [], rs. split_and!; [done|done|by intros x ?%elem_of_nil].
    - destruct IH as (res & -> & Hres). exists res. split; [done|]. destruct res as [x|].
      + destruct Hres as (pre & post & -> & Hx & Hp). exists (r :: pre), post. split_and!; [done|done|]. intros y [->|Hy]%elem_of_cons; [done|by apply Hp].
      + intros y [->|Hy]%elem_of_cons; [done|by apply Hres].
  Qed.
  (** in the roads of a network an id is found if and only if a road was added with it, and it is that road (ids that are written the same, like 1 and '1',
      name the same place in the network, of which the last one added is kept) *)
  Theorem C68_in_network d r h : reachable h → exists_in h_odr h d → r ∈ map snd (od_roads (h_odr h !!! d)) →
    get_road_by_id (map snd (od_roads (h_odr h !!! d))) (rd_id (h_road h !!! r)) h = (Ok (Some r), h).
  Proof.
    intros Rh [D HD] Hr. pose proof (reachable_odr h Rh d D HD) as [ND HK]. rewrite (lookup_total_correct _ _ _ HD) in Hr |- *.
    destruct (C68_by_id (map snd (od_roads D)) (rd_id (h_road h !!! r)) h) as (res & -> & Hres). destruct res as [x|]; [|by destruct (Hres r Hr)].
    do 3 f_equal. destruct Hres as (pre & post & Em & Hx & _).
    assert (Hxin : x ∈ map snd (od_roads D)) by (rewrite Em elem_of_app elem_of_cons; tauto).
    apply elem_of_list_fmap in Hr as ([k r'] & -> & Hk). apply elem_of_list_fmap in Hxin as ([k' x'] & -> & Hk'). simpl in *.
    pose proof (HK _ _ Hk) as E1. pose proof (HK _ _ Hk') as E2. rewrite Hx in E2. assert (k' = k) as -> by congruence.
    clear -ND Hk Hk'. induction (od_roads D) as [|[k0 x0] m IH]; [by apply elem_of_nil in Hk|]. simpl in ND. apply NoDup_cons in ND as [N0 ND].
    assert (K : ∀ y, (k, y) ∈ m → k ∈ map fst m) by (intros y Hy; apply elem_of_list_fmap; by exists (k, y)).
    apply elem_of_cons in Hk as [[= -> ->]|Hk]; apply elem_of_cons in Hk' as [[= ->]|Hk']; [done| | |by apply IH].
    - exfalso. by eapply N0, K.
    - exfalso. subst. by eapply N0, K.
  Qed.

  (** ** are_roads_consecutive: the first road's successor link and the second road's predecessor link are road links to each other *)
  Theorem C68_consecutive (o1 o2 : road) : are_roads_consecutive o1 o2 = true ↔
    ∃ L M, rd_succ o1 = Some L ∧ rd_pred o2 = Some M ∧ lk_etype L = Some et_road ∧ lk_etype M = Some et_road ∧ lk_id L = rd_id o2 ∧ lk_id M = rd_id o1.
  Proof.
    unfold are_roads_consecutive. destruct (rd_succ o1) as [L|]; [|split; [done|by intros (?&?&?&_)]].
    destruct (rd_pred o2) as [M|]; [|split; [done|by intros (?&?&?&?&_)]]. rewrite !andb_true_iff !bool_decide_eq_true. split.
    - intros [[[? ?] ?] ?]. by exists L, M.
    - intros (L' & M' & [= <-] & [= <-] & ?). tauto.
  Qed.
  (** in a network at most one road is next to a road, and at most one before it *)
  Theorem C68_one_next d h x y z : reachable h → exists_in h_odr h d → y ∈ map snd (od_roads (h_odr h !!! d)) → z ∈ map snd (od_roads (h_odr h !!! d)) →
    let cons a b := are_roads_consecutive (h_road h !!! a) (h_road h !!! b) = true in
    (cons x y → cons x z → y = z) ∧ (cons y x → cons z x → y = z).
  Proof.
    intros Rh Hd Hy Hz cons.
    assert (U : rd_id (h_road h !!! y) = rd_id (h_road h !!! z) → y = z).
    { intros E. pose proof (C68_in_network d y h Rh Hd Hy) as E1. rewrite E (C68_in_network d z h Rh Hd Hz) in E1. by injection E1. }
    split; intros H1 H2; apply C68_consecutive in H1 as (L & M & HL & HM & _ & _ & I1 & I2); apply C68_consecutive in H2 as (L' & M' & HL' & HM' & _ & _ & I1' & I2'); apply U; congruence.
  Qed.
  (** roads that are consecutive stay consecutive, whatever is called later *)
  Theorem C68_stays h x y o1 o2 os : reachable h → h_road h !! x = Some o1 → h_road h !! y = Some o2 → are_roads_consecutive o1 o2 = true →
    ∃ o1' o2', h_road (run h os) !! x = Some o1' ∧ h_road (run h os) !! y = Some o2' ∧ are_roads_consecutive o1' o2' = true.
  Proof.
    intros Rh Hx Hy Hc. pose proof (keep_road _ _ (run_keeps h os Rh)) as K. destruct (K x o1 Hx) as (o1' & Hx' & K1). destruct (K y o2 Hy) as (o2' & Hy' & K2).
    exists o1', o2'. split_and!; [done|done|]. apply C68_consecutive in Hc as (L & M & HL & HM & T1 & T2 & I1 & I2). apply C68_consecutive.
    destruct (rk_succ _ _ K1) as [S1 _]; [by rewrite HL|]. destruct (rk_pred _ _ K2) as [S2 _]; [by rewrite HM|].
    pose proof (rk_ids _ _ K1) as [= J1]. pose proof (rk_ids _ _ K2) as [= J2]. exists L, M. split_and!; congruence.
  Qed.
  (** two roads become consecutive by adding the two links, in either order *)
  Theorem C68_become h x y o1 o2 cp1 cp2 n1 n2 : reachable h → h_road h !! x = Some o1 → h_road h !! y = Some o2 → rd_succ o1 = None → rd_pred o2 = None →
    let s := OpAddSuccessor x (Some et_road) (rd_id o2) cp1 n1 in let p := OpAddPredecessor y (Some et_road) (rd_id o1) cp2 n2 in
    ∀ ops, ops = [s; p] ∨ ops = [p; s] → let h' := run h ops in are_roads_consecutive (h_road h' !!! x) (h_road h' !!! y) = true.
  Proof.
    intros Rh Hx Hy Hs Hp s p.
    assert (Es : ∀ h1 o, h_road h1 !! x = Some o → rd_succ o = None → ∃ h2 o', step s h1 = (Ok RNone, h2) ∧ h_road h2 = <[x := o']> (h_road h1) ∧
      (∃ L, rd_succ o' = Some L ∧ lk_etype L = Some et_road ∧ lk_id L = rd_id o2) ∧ rd_pred o' = rd_pred o ∧ rd_id o' = rd_id o).
    { intros h1 o Ho Hn. pose proof (lookup_total_correct _ _ _ Ho) as Et. eexists _, _. split; [unfold s, step; rewrite guarded_true; [apply has_true; by eexists|];
        apply as_unit_ok; unfold add_successor, get_road; rewrite bind_gets Et Hn; reflexivity|]. split; [simpl; reflexivity|]. split; [eexists; split; [reflexivity|done]|].
        rewrite Et. done. }
    assert (Ep : ∀ h1 o, h_road h1 !! y = Some o → rd_pred o = None → ∃ h2 o', step p h1 = (Ok RNone, h2) ∧ h_road h2 = <[y := o']> (h_road h1) ∧
      (∃ L, rd_pred o' = Some L ∧ lk_etype L = Some et_road ∧ lk_id L = rd_id o1) ∧ rd_succ o' = rd_succ o ∧ rd_id o' = rd_id o).
    { intros h1 o Ho Hn. pose proof (lookup_total_correct _ _ _ Ho) as Et. eexists _, _. split; [unfold p, step; rewrite guarded_true; [apply has_true; by eexists|];
        apply as_unit_ok; unfold add_predecessor, get_road; rewrite bind_gets Et Hn; reflexivity|]. split; [simpl; reflexivity|]. split; [eexists; split; [reflexivity|done]|].
        rewrite Et. done. }
    clearbody s p. intros ops [->| ->]; intros h'.
    - destruct (Es h o1 Hx Hs) as (h1 & a & E1 & R1 & (L & HL & TL & IL) & Pa & Ia).
      assert (∃ b, h_road h1 !! y = Some b ∧ rd_pred b = None ∧ rd_id b = rd_id o2 ∧ (y = x → rd_succ b = Some L) ∧ (y = x → b = a)) as (b & Hb & Pb & Ib & Hyx & Hba).
      { rewrite R1. destruct (decide (y = x)) as [->|Hn]; [|rewrite lookup_insert_ne //; by exists o2]. assert (o2 = o1) as -> by congruence. exists a. rewrite lookup_insert. split_and!; congruence. }
      destruct (Ep h1 b Hb Pb) as (h2 & c & E2 & R2 & (M & HM & TM & IM) & Sc & Ic).
      assert (Eh : h' = h2). { unfold h', run. simpl. by rewrite E1 /= E2. } rewrite Eh. apply C68_consecutive. rewrite R2 lookup_total_insert.
      destruct (decide (y = x)) as [->|Hn].
      + rewrite lookup_total_insert. exists L, M. split_and!; try congruence. by rewrite Sc Hyx.
      + rewrite lookup_total_insert_ne // R1 lookup_total_insert. exists L, M. split_and!; congruence.
    - destruct (Ep h o2 Hy Hp) as (h1 & a & E1 & R1 & (L & HL & TL & IL) & Pa & Ia).
      assert (∃ b, h_road h1 !! x = Some b ∧ rd_succ b = None ∧ rd_id b = rd_id o1 ∧ (y = x → rd_pred b = Some L) ∧ (y = x → b = a)) as (b & Hb & Pb & Ib & Hyx & Hba).
      { rewrite R1. destruct (decide (y = x)) as [->|Hn]; [|rewrite lookup_insert_ne //; by exists o1]. assert (o2 = o1) as -> by congruence. exists a. rewrite lookup_insert. split_and!; congruence. }
      destruct (Es h1 b Hb Pb) as (h2 & c & E2 & R2 & (M & HM & TM & IM) & Sc & Ic).
      assert (Eh : h' = h2). { unfold h', run. simpl. by rewrite E1 /= E2. } rewrite Eh. apply C68_consecutive. rewrite R2 lookup_total_insert.
      destruct (decide (y = x)) as [->|Hn].
      + rewrite lookup_total_insert. exists M, L. split_and!; try congruence. by rewrite Sc Hyx.
      + rewrite lookup_total_insert_ne // R1 lookup_total_insert. exists M, L. split_and!; congruence.
  Qed.
End Lookup.

Section Examples.
  Local Existing Instance QNum.
  (** the network of four roads: road 4 follows road 2 only if both links are there *)
  Example C68_example : let h := run heap_init four_roads in let h' := run h [OpAddSuccessor 7 (Some et_road) (PInt 4) (Some cp_start) 0] in
    let cons h a b := are_roads_consecutive (h_road h !!! a) (h_road h !!! b) in
    reachable h ∧ exists_in h_odr h 16 ∧ map snd (od_roads (h_odr h !!! 16)) = [15; 7; 11; 3] ∧
    map (λ i, (get_road_by_id [15; 7; 11; 3] i h).1) [PInt 2; PInt 4; PInt 5; PStr "2"] = [Ok (Some 7); Ok (Some 15); Ok None; Ok None] ∧
    cons h 7 15 = false ∧ cons h' 7 15 = true ∧ cons h' 15 7 = false.
  Proof.
    split; [by exists four_roads|]. split; [unfold exists_in; vm_compute; by eexists|]. split_and!; vm_compute; reflexivity.
  Qed.
  (** the hypotheses of C68_become *)
  Example C68_become_case : let h := run heap_init (four_roads ++ line_road 17 5 (-1) 7 None) in
    reachable h ∧ ∃ o1 o2, h_road h !! 15 = Some o1 ∧ h_road h !! 20 = Some o2 ∧ rd_succ o1 = None ∧ rd_pred o2 = None.
  Proof. split; [by eexists|]. do 2 eexists. split_and!; vm_compute; reflexivity. Qed.
End Examples.

Print Assumptions C68_in_network.
Print Assumptions C68_one_next.
Print Assumptions C68_stays.
Print Assumptions C68_become.
