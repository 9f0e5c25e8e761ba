(** * C21 - C24, C29, C33 - C35: properties of all histories of API calls *)
From Coq Require Import ssreflect.
From Verif.Model Require Import Api.
From Verif.Inst Require Import Quarter.
From Verif.Spec Require Import SpecState SpecHistory.
From Verif.Proof Require Import Monad DictFacts PlanViewFacts NetFrame Reach Steps History Invariants LinkerFacts.
Local Open Scope general_if_scope.

Section Steps.
  Context {F : Type} `{!Num F}.
  Lemma has_true {V} (f : heap F → gmap nat V) r h : exists_in f h r → has f r h = true.
  Proof. intros H. unfold has. by apply bool_decide_eq_true. Qed.
  Lemma all_have_true {V} (f : heap F → gmap nat V) rs h : Forall (exists_in f h) rs → all_have f rs h = true.
  Proof. intros H. unfold all_have. apply forallb_forall. intros x Hx. apply has_true. rewrite Forall_forall in H. by apply H, elem_of_list_In. Qed.
  Lemma guarded_true b (m : H (F:=F) (retval F)) h : b h = true → guarded b m h = m h.
  Proof. unfold guarded. by intros ->. Qed.
  Lemma as_unit_ok (m : H (F:=F) unit) h h' : m h = (Ok tt, h') → as_unit m h = (Ok RNone, h').
  Proof. intros E. unfold as_unit. by rewrite (bind_run _ _ _ _ _ E). Qed.
  Lemma as_unit_err (m : H (F:=F) unit) h h' e : m h = (Err e, h') → as_unit m h = (Err e, h').
  Proof. intros E. unfold as_unit. by rewrite (bind_run_err _ _ _ _ _ E). Qed.
End Steps.

Section Roads.
  Context {F : Type} `{!Num F}.
  Implicit Types (h : heap F) (o : road).

  (** ** C21: at most one successor and one predecessor link, and it is the one that was set first *)
  Theorem C21_history h r o : reachable h → h_road h !! r = Some o →
    links_of "successor" o = option_list (rd_succ o) ∧ links_of "predecessor" o = option_list (rd_pred o) ∧
    length (links_of "successor" o) ≤ 1 ∧ length (links_of "predecessor" o) ≤ 1.
  Proof.
    intros Hr Ho. destruct (reachable_road _ _ _ Hr Ho) as [I1 I2 _ _]. rewrite I1 I2.
    split_and!; [done|done|destruct (rd_succ o); simpl; lia|destruct (rd_pred o); simpl; lia].
  Qed.
  (** nothing that happens later removes or replaces it *)
  Theorem C21_forever h r o os : reachable h → h_road h !! r = Some o → ∃ o', h_road (run h os) !! r = Some o' ∧
    (links_of "successor" o ≠ [] → links_of "successor" o' = links_of "successor" o) ∧
    (links_of "predecessor" o ≠ [] → links_of "predecessor" o' = links_of "predecessor" o).
  Proof.
    intros Hr Ho.
    assert (∃ o', h_road (run h os) !! r = Some o' ∧ (rd_succ o ≠ None → rd_succ o' = rd_succ o) ∧ (rd_pred o ≠ None → rd_pred o' = rd_pred o)) as (o' & Ho' & S1 & S2).
    { apply (run_ind (λ h', ∃ o', h_road h' !! r = Some o' ∧ (rd_succ o ≠ None → rd_succ o' = rd_succ o) ∧ (rd_pred o ≠ None → rd_pred o' = rd_pred o)) h os Hr).
      - eauto.
      - intros h1 h2 N (o1 & Ho1 & S1 & S2) A. destruct (astep_road_old h1 h2 r o1 N A Ho1) as [?|(o2 & Ho2 & Hs)]; [eauto|].
        exists o2. split; [done|]. destruct Hs as [? ? ? ? E| ? ? ? ? E| | |]; simpl; try done; split; try done.
        + intros Hn. rewrite S1 // in E.
        + intros Hn. rewrite S2 // in E. }
    exists o'. split; [done|]. destruct (C21_history _ _ _ Hr Ho) as (-> & -> & _).
    destruct (C21_history _ _ _ (run_reachable h os Hr) Ho') as (-> & -> & _).
    split; intros Hn; [rewrite S1 //|rewrite S2 //]; intros E; by rewrite E in Hn.
  Qed.
  (** a second link is refused and nothing changes *)
  Theorem C21_second_refused h r o et id cp off : reachable h → h_road h !! r = Some o →
    (links_of "successor" o ≠ [] → step (OpAddSuccessor r et id cp off) h = (Err ValueError, h)) ∧
    (links_of "predecessor" o ≠ [] → step (OpAddPredecessor r et id cp off) h = (Err ValueError, h)).
  Proof.
    intros Hr Ho. destruct (C21_history _ _ _ Hr Ho) as (-> & -> & _).
    pose proof (lookup_total_correct _ _ _ Ho) as Et. assert (He : exists_in h_road h r) by by eexists.
    split; intros Hn; unfold step; rewrite guarded_true ?has_true //; apply as_unit_err;
      [unfold add_successor|unfold add_predecessor]; unfold get_road; rewrite bind_gets Et; [by destruct (rd_succ o)|by destruct (rd_pred o)].
  Qed.
  (** the first one is added, with the given data, and nothing else changes *)
  Theorem C21_first_added h r o et id cp off : reachable h → h_road h !! r = Some o →
    (links_of "successor" o = [] → ∃ o', step (OpAddSuccessor r et id cp off) h = (Ok RNone, h <| h_road := <[r := o']> (h_road h) |>) ∧
       links_of "successor" o' = [mkLink (Some "successor") id et cp None] ∧ rd_off_suc o' = off ∧
       links_of "predecessor" o' = links_of "predecessor" o ∧ links_of "neighbor" o' = links_of "neighbor" o ∧
       rd_off_pred o' = rd_off_pred o ∧ rd_id o' = rd_id o ∧ rd_planview o' = rd_planview o ∧ rd_lanes o' = rd_lanes o ∧ rd_type o' = rd_type o ∧
       rd_objects o' = rd_objects o ∧ rd_signals o' = rd_signals o) ∧
    (links_of "predecessor" o = [] → ∃ o', step (OpAddPredecessor r et id cp off) h = (Ok RNone, h <| h_road := <[r := o']> (h_road h) |>) ∧
       links_of "predecessor" o' = [mkLink (Some "predecessor") id et cp None] ∧ rd_off_pred o' = off ∧
       links_of "successor" o' = links_of "successor" o ∧ links_of "neighbor" o' = links_of "neighbor" o ∧
       rd_off_suc o' = rd_off_suc o ∧ rd_id o' = rd_id o ∧ rd_planview o' = rd_planview o ∧ rd_lanes o' = rd_lanes o ∧ rd_type o' = rd_type o ∧
       rd_objects o' = rd_objects o ∧ rd_signals o' = rd_signals o).
  Proof.
    intros Hr Ho. destruct (C21_history _ _ _ Hr Ho) as (E1 & E2 & _).
    pose proof (lookup_total_correct _ _ _ Ho) as Et. assert (He : exists_in h_road h r) by by eexists.
    split; intros Hn.
    - rewrite E1 in Hn. assert (Es : rd_succ o = None) by by destruct (rd_succ o).
      eexists. split.
      + unfold step. rewrite guarded_true ?has_true //. apply as_unit_ok. unfold add_successor, get_road. rewrite bind_gets Et Es mk_link_ok //.
      + unfold links_of in *. simpl. rewrite Et !filter_app E1 Es /= ?app_nil_r //.
    - rewrite E2 in Hn. assert (Es : rd_pred o = None) by by destruct (rd_pred o).
      eexists. split.
      + unfold step. rewrite guarded_true ?has_true //. apply as_unit_ok. unfold add_predecessor, get_road. rewrite bind_gets Et Es mk_link_ok //.
      + unfold links_of in *. simpl. rewrite Et !filter_app E2 Es /= ?app_nil_r //.
  Qed.

  (** ** C22: at most two neighbour links, each with a direction *)
  Theorem C22_history h r o : reachable h → h_road h !! r = Some o →
    length (links_of "neighbor" o) ≤ 2 ∧ ∀ l, l ∈ links_of "neighbor" o → is_Some (lk_dir l).
  Proof. intros Hr Ho. destruct (reachable_road _ _ _ Hr Ho) as [_ _ [E1 E2] E3]. split; [lia|done]. Qed.
  (** [add_neighbor] succeeds exactly if the road has at most one neighbour and a direction is given *)
  Theorem C22_add h r o et id dir : reachable h → h_road h !! r = Some o →
    match dir with
    | Some d =>
      if decide (length (links_of "neighbor" o) ≤ 1) then
        ∃ o', step (OpAddNeighbor r et id dir) h = (Ok RNone, h <| h_road := <[r := o']> (h_road h) |>) ∧
          links_of "neighbor" o' = links_of "neighbor" o ++ [mkLink (Some "neighbor") id et None (Some d)] ∧
          links_of "successor" o' = links_of "successor" o ∧ links_of "predecessor" o' = links_of "predecessor" o
      else step (OpAddNeighbor r et id dir) h = (Err ValueError, h)
    | None => step (OpAddNeighbor r et id dir) h = (Err ValueError, h)
    end.
  Proof.
    intros Hr Ho. destruct (reachable_road _ _ _ Hr Ho) as [_ _ [E1 E2] _].
    pose proof (lookup_total_correct _ _ _ Ho) as Et. assert (He : exists_in h_road h r) by by eexists.
    unfold step. rewrite guarded_true ?has_true //.
    assert (Hrun : add_neighbor r et id dir h = (if decide (1 < rd_neighbors o) then raise ValueError
      else let! k := lift (mk_link (Some "neighbor") id et None dir) in
           upd_road r (λ o, o <| rd_links := rd_links o ++ [k] |>) ;; upd_road r (λ o, o <| rd_neighbors := S (rd_neighbors o) |>)) h).
    { unfold add_neighbor, get_road. by rewrite bind_gets Et. }
    destruct dir as [d|].
    - rewrite E1. destruct (decide (rd_neighbors o ≤ 1)) as [Hle|Hgt].
      + eexists. split.
        * apply as_unit_ok. rewrite Hrun. destruct (decide _); [lia|]. unfold mk_link, lift, bind, upd_road, modify. simpl.
          rewrite insert_insert ltm_insert Et. reflexivity.
        * unfold links_of. simpl. rewrite !filter_app /= ?app_nil_r //.
      + apply as_unit_err. rewrite Hrun. destruct (decide _); [done|lia].
    - apply as_unit_err. rewrite Hrun. by destruct (decide _).
  Qed.
End Roads.

Section Lanes.
  Context {F : Type} `{!Num F}.
  Implicit Types (h : heap F).

  (** ** C23: lane ids.  In every reachable state a lane that is in one place only has the number of that place. *)
  Theorem C23_numbering h sec p l : reachable h → lane_at h sec p = Some l →
    (∀ sec' p', lane_at h sec' p' = Some l → sec' = sec ∧ p' = p) →
    ln_id (h_lane h !!! l) = Some (lane_number p).
  Proof.
    intros Hr Hl Hu. destruct (si_ids _ (reachable_sec _ Hr) sec p l Hl) as (sec' & p' & Hl' & Hid). by destruct (Hu _ _ Hl') as [-> ->].
  Qed.

  (** adding lanes, left or right, in any order *)
  Definition add_op (sec : ref) (a : bool * ref) : op F := if a.1 then OpAddLeftLane sec a.2 else OpAddRightLane sec a.2.
  Definition side_of (b : bool) (adds : list (bool * ref)) : list ref := map snd (filter (λ a, a.1 = b) adds).
  Theorem C23_sequence h sec s adds : reachable h → h_sec h !! sec = Some s →
    Forall (λ a, exists_in h_lane h a.2) adds → NoDup (map snd adds) →
    let h' := run h (map (add_op sec) adds) in
    (∃ s', h_sec h' !! sec = Some s' ∧ ls_left s' = ls_left s ++ side_of true adds ∧ ls_right s' = ls_right s ++ side_of false adds ∧
       ls_center s' = ls_center s ∧ ls_s s' = ls_s s) ∧
    (∀ i l, side_of true adds !! i = Some l → ln_id (h_lane h' !!! l) = Some (Z.of_nat (length (ls_left s) + i) + 1)%Z) ∧
    (∀ i l, side_of false adds !! i = Some l → ln_id (h_lane h' !!! l) = Some (- (Z.of_nat (length (ls_right s) + i) + 1))%Z) ∧
    (∀ l, l ∉ map snd adds → h_lane h' !!! l = h_lane h !!! l) ∧
    (∀ l, exists i, h_lane h' !!! l = (h_lane h !!! l) <| ln_id := i |>).
  Proof.
    revert h s. induction adds as [|[b x] adds IH]; intros h s Hr Hs Hex Hnd; simpl.
    - split; [exists s; unfold side_of; simpl; rewrite !app_nil_r //|]. split; [done|]. split; [done|]. split; [done|].
      intros l. exists (ln_id (h_lane h !!! l)). by destruct (h_lane h !!! l).
    - apply Forall_cons in Hex as [Hx Hex]. apply NoDup_cons in Hnd as [Hni Hnd].
      pose proof (lookup_total_correct _ _ _ Hs) as Et. assert (He : exists_in h_sec h sec) by by eexists.
      pose proof (si_left _ (reachable_sec _ Hr) _ _ Hs) as EL. pose proof (si_right _ (reachable_sec _ Hr) _ _ Hs) as ER.
      change (run h (add_op sec (b, x) :: map (add_op sec) adds)) with (run (step (add_op sec (b, x)) h).2 (map (add_op sec) adds)).
      set (h1 := (step (add_op sec (b, x)) h).2).
      assert (Hr1 : reachable h1) by (apply (run_reachable h [add_op sec (b, x)] Hr)).
      assert (E1 : h1 = h <| h_lane := <[x := (h_lane h !!! x) <| ln_id := Some (if b then ls_left_id s else ls_right_id s) |>]> (h_lane h) |>
        <| h_sec := <[sec := if b then s <| ls_left_id := (ls_left_id s + 1)%Z |> <| ls_left := ls_left s ++ [x] |>
                            else s <| ls_right_id := (ls_right_id s - 1)%Z |> <| ls_right := ls_right s ++ [x] |>]> (h_sec h) |>).
      { unfold h1, add_op. destruct b; simpl; unfold guarded; rewrite has_true // has_true //; simpl;
          unfold as_unit, add_left_lane, add_right_lane, get_sec, bind, gets, lane_set_id, upd_lane, upd_sec, modify, ret; simpl; by rewrite insert_insert ltm_insert Et. }
      clearbody h1.
      assert (Hs1 : ∃ s1, h_sec h1 !! sec = Some s1 ∧ ls_left s1 = ls_left s ++ (if b then [x] else []) ∧ ls_right s1 = ls_right s ++ (if b then [] else [x]) ∧
        ls_center s1 = ls_center s ∧ ls_s s1 = ls_s s).
      { rewrite E1. simpl. rewrite lookup_insert. eexists. split; [reflexivity|]. destruct b; simpl; by rewrite app_nil_r. }
      destruct Hs1 as (s1 & Hs1 & L1 & R1 & C1 & S1).
      assert (Hex1 : Forall (λ a, exists_in h_lane h1 a.2) adds).
      { eapply Forall_impl; [exact Hex|]. intros a Ha. rewrite E1. unfold exists_in. simpl. by apply insert_exists. }
      assert (Ex : h_lane h1 !!! x = (h_lane h !!! x) <| ln_id := Some (if b then ls_left_id s else ls_right_id s) |>) by (rewrite E1; simpl; by rewrite ltm_insert).
      assert (Ene : ∀ l, l ≠ x → h_lane h1 !!! l = h_lane h !!! l) by (intros l Hl; rewrite E1; simpl; by rewrite ltm_insert_ne).
      destruct (IH h1 s1 Hr1 Hs1 Hex1 Hnd) as ((s' & Hs' & L' & R' & C' & S') & IL & IR & IN & IA). clear IH.
      assert (Esl : side_of true ((b, x) :: adds) = (if b then [x] else []) ++ side_of true adds) by by destruct b.
      assert (Esr : side_of false ((b, x) :: adds) = (if b then [] else [x]) ++ side_of false adds) by by destruct b.
      split_and!.
      + exists s'. rewrite Hs' L' R' L1 R1 Esl Esr -!app_assoc C' S'. done.
      + intros i l. rewrite Esl. destruct b; simpl.
        * destruct i as [|i]; simpl.
          -- intros [= <-]. rewrite IN // Ex /= EL. f_equal. lia.
          -- intros Hi. rewrite (IL i l Hi) L1 app_length /=. f_equal. lia.
        * intros Hi. rewrite (IL i l Hi) L1 app_length /=. f_equal. lia.
      + intros i l. rewrite Esr. destruct b; simpl.
        * intros Hi. rewrite (IR i l Hi) R1 app_length /=. f_equal. lia.
        * destruct i as [|i]; simpl.
          -- intros [= <-]. rewrite IN // Ex /= ER. f_equal. lia.
          -- intros Hi. rewrite (IR i l Hi) R1 app_length /=. f_equal. lia.
      + intros l. rewrite not_elem_of_cons. intros [Hn1 Hn2]. rewrite IN // Ene //.
      + intros l. destruct (IA l) as [i Hi]. exists i. rewrite Hi. destruct (decide (l = x)) as [->|Hne]; [by rewrite Ex|by rewrite Ene].
  Qed.

  (** ** C24: LaneLinkers.  One call applies every link that was not applied before, once, in both directions. *)
  Theorem C24_apply h ls sec ks : exists_in h_lanes h ls → exists_in h_sec h sec → Forall (exists_in h_linker h) ks →
    ∃ lanes linkers, let h' := h <| h_lane := lanes |> <| h_linker := linkers |> <| h_lanes := <[ls := (h_lanes h !!! ls) ++ [sec]]> (h_lanes h) |> in
      step (OpAddLaneSection ls sec ks) h = (Ok RNone, h') ∧
      (∀ l, h_lane h' !!! l = (h_lane h !!! l) <| ln_links := ln_links (h_lane h !!! l) ++ links_given h l (pending h ks) |>) ∧
      (∀ k, k ∈ ks → h_linker h' !!! k = map (λ ll, ll <| ll_used := true |>) (h_linker h !!! k)) ∧
      (∀ k, k ∉ ks → h_linker h' !!! k = h_linker h !!! k).
  Proof.
    intros Hls Hsec Hks. destruct (use_linkers ks [] h) as (m & m' & E & G & L & D); [by intros k ?%elem_of_nil|done|].
    exists m, m'. split; [|split; [|split]].
    - unfold step. rewrite guarded_true ?has_true ?all_have_true //. apply as_unit_ok. unfold add_lanesection.
      rewrite (bind_run _ _ _ _ _ E). done.
    - intros l. apply G.
    - intros k Hk. simpl. rewrite L. by destruct (decide (k ∈ ks)).
    - intros k Hk. simpl. rewrite L. by destruct (decide (k ∈ ks)).
  Qed.
  (** an applied link stays applied and keeps its lanes in every later state *)
  Theorem C24_forever h os k i ll : reachable h → exists_in h_linker h k → (h_linker h !!! k) !! i = Some ll → ll_used ll = true →
    ∃ ll', (h_linker (run h os) !!! k) !! i = Some ll' ∧ ll_used ll' = true ∧ ll_pred ll' = ll_pred ll ∧ ll_succ ll' = ll_succ ll.
  Proof.
    intros Hr Hk Hi Hu.
    assert (exists_in h_linker (run h os) k ∧ linker_grows (h_linker h !!! k) (h_linker (run h os) !!! k)) as [_ G].
    { apply (run_ind (λ h', exists_in h_linker h' k ∧ linker_grows (h_linker h !!! k) (h_linker h' !!! k)) h os Hr).
      - split; [done|apply linker_grows_refl].
      - intros h1 h2 N [Hk1 G] A. split; [by apply (e_linker _ _ (astep_ext _ _ A))|]. eapply linker_grows_trans; [exact G|]. by apply astep_linker. }
    destruct (G i ll Hi) as (ll' & ? & ? & ? & Hu'). exists ll'. auto.
  Qed.
  (** so, however the program goes on, the links still to be applied are ones that were added to the LaneLinker later *)
  Theorem C24_only_new h ls sec ks h' os k i ll : reachable h → exists_in h_linker h k → k ∈ ks →
    step (OpAddLaneSection ls sec ks) h = (Ok RNone, h') →
    (h_linker (run h' os) !!! k) !! i = Some ll → ll_used ll = false → length (h_linker h !!! k) ≤ i.
  Proof.
    intros Hr Hk Hin E Hi Hu. destruct (decide (length (h_linker h !!! k) ≤ i)) as [?|Hlt]; [done|exfalso].
    assert (Eh' : h' = run h [OpAddLaneSection ls sec ks]) by (unfold run; cbn [foldl]; by rewrite E).
    assert (Hr' : reachable h') by (rewrite Eh'; by apply run_reachable).
    assert (Hk' : exists_in h_linker h' k).
    { pose proof (run_asteps [OpAddLaneSection ls sec ks] h (reachable_no_dangling _ Hr)) as Ha. rewrite -Eh' in Ha. by apply (e_linker _ _ (asteps_ext _ _ Ha)). }
    unfold step, guarded in E. destruct (_ && _) eqn:Eb in E; [|done]. apply andb_prop in Eb as [Eb Eks]. apply andb_prop in Eb as [Els Esec].
    destruct (C24_apply h ls sec ks (has_exists _ _ _ Els) (has_exists _ _ _ Esec) (all_have_exists _ _ _ Eks)) as (m & m' & E3 & _ & Lu & _).
    unfold step in E3. rewrite guarded_true in E3; [by rewrite Els Esec Eks|]. rewrite E3 in E. injection E as E.
    destruct (lookup_lt_is_Some_2 (h_linker h !!! k) i ltac:(lia)) as [ll0 Hll0].
    destruct (C24_forever h' os k i (mark ll0) Hr' Hk') as (ll' & Hll' & Hu' & _); [|done|congruence].
    rewrite -E Lu // list_lookup_fmap Hll0 //.
  Qed.
  (** passing the same LaneLinkers again adds nothing to any lane *)
  Theorem C24_again h ls sec ks ls' sec' h' h'' : exists_in h_lanes h ls → exists_in h_sec h sec → Forall (exists_in h_linker h) ks →
    step (OpAddLaneSection ls sec ks) h = (Ok RNone, h') →
    step (OpAddLaneSection ls' sec' ks) h' = (Ok RNone, h'') → ∀ l, h_lane h'' !!! l = h_lane h' !!! l.
  Proof.
    intros Hls Hsec Hks E1 E2 l. destruct (C24_apply h ls sec ks Hls Hsec Hks) as (m & m' & E & _ & Lu & _).
    rewrite E in E1. injection E1 as <-.
    unfold step in E2. unfold guarded in E2. destruct (_ && _) eqn:Eb in E2; [|done]. apply andb_prop in Eb as [Eb Eks]. apply andb_prop in Eb as [Els Esec].
    match type of E2 with as_unit _ ?x = _ => destruct (C24_apply x ls' sec' ks (has_exists _ _ _ Els) (has_exists _ _ _ Esec) (all_have_exists _ _ _ Eks)) as (m2 & m2' & E3 & G & _) end.
    unfold step in E3. rewrite guarded_true in E3; [by rewrite Els Esec Eks|]. rewrite E3 in E2. injection E2 as <-. rewrite G.
    rewrite (_ : pending _ ks = []).
    - unfold pending.
      assert (Hd : ∀ k, k ∈ distinct ks [] → k ∈ ks).
      { intros k. generalize (@nil nat). clear. induction ks as [|k2 ks IH]; intros s; simpl; [done|].
        destruct (decide (k2 ∈ s)); [intros Hk; right; by eapply IH|]. rewrite !elem_of_cons. intros [->|Hk]; [by left|right; by eapply IH]. }
      revert Hd. generalize (distinct ks []). intros dk Hd. induction dk as [|k dk IH]; [done|]. simpl map. simpl concat.
      rewrite IH; [intros k' Hk'; apply Hd; by right|]. rewrite Lu; [apply Hd; by left|]. rewrite app_nil_r. apply unused_mark.
    - unfold links_given. simpl. rewrite app_nil_r. by destruct (m !!! l).
  Qed.
End Lanes.

Section Junctions.
  Context {F : Type} `{!Num F}.
  Implicit Types (h : heap F).

  (** ** C29: connection ids.  Adding different connections gives those without an id their position in the junction. *)
  Theorem C29_sequence h j x cs : reachable h → h_junc h !! j = Some x → Forall (exists_in h_conn h) cs → NoDup cs →
    let h' := run h (map (OpAddConnection j) cs) in
    (∃ x', h_junc h' !! j = Some x' ∧ jn_conns x' = jn_conns x ++ cs ∧ jn_id x' = jn_id x ∧ jn_name x' = jn_name x) ∧
    (∀ i c, cs !! i = Some c → cn_id (h_conn h' !!! c) = Some (default (PInt (Z.of_nat (length (jn_conns x) + i))) (cn_id (h_conn h !!! c)))) ∧
    (∀ c, c ∉ cs → h_conn h' !!! c = h_conn h !!! c) ∧
    (∀ c, ∃ i, h_conn h' !!! c = (h_conn h !!! c) <| cn_id := i |>).
  Proof.
    revert h x. induction cs as [|c0 cs IH]; intros h x Hr Hx Hex Hnd; cbn [map]; cbn zeta.
    - simpl. split; [exists x; by rewrite app_nil_r|]. split; [done|]. split; [done|]. intros c. exists (cn_id (h_conn h !!! c)). by destruct (h_conn h !!! c).
    - apply Forall_cons in Hex as [Hc Hex]. apply NoDup_cons in Hnd as [Hni Hnd].
      pose proof (lookup_total_correct _ _ _ Hx) as Et. assert (He : exists_in h_junc h j) by by eexists.
      pose proof (ji_counter _ (reachable_junc _ Hr) _ _ Hx) as EC.
      change (run h (OpAddConnection j c0 :: map (OpAddConnection j) cs)) with (run (step (OpAddConnection j c0) h).2 (map (OpAddConnection j) cs)).
      set (h1 := (step (OpAddConnection j c0) h).2).
      assert (Hr1 : reachable h1) by (apply (run_reachable h [OpAddConnection j c0] Hr)).
      assert (E1 : h1 = h <| h_conn := <[c0 := (h_conn h !!! c0) <| cn_id := Some (default (PInt (jn_counter x)) (cn_id (h_conn h !!! c0))) |>]> (h_conn h) |>
        <| h_junc := <[j := x <| jn_counter := (jn_counter x + 1)%Z |> <| jn_conns := jn_conns x ++ [c0] |>]> (h_junc h) |>).
      { unfold h1. simpl. unfold guarded. rewrite has_true // has_true //. simpl.
        unfold as_unit, add_connection, get_junc, bind, gets, conn_set_id, upd_conn, upd_junc, modify, ret. simpl. rewrite insert_insert ltm_insert Et.
        destruct (h_conn h !!! c0) as [a b c [i|] l]; done. }
      clearbody h1.
      assert (Hx1 : h_junc h1 !! j = Some (x <| jn_counter := (jn_counter x + 1)%Z |> <| jn_conns := jn_conns x ++ [c0] |>)) by (rewrite E1; simpl; by rewrite lookup_insert).
      assert (Hex1 : Forall (exists_in h_conn h1) cs).
      { eapply Forall_impl; [exact Hex|]. intros c Hc'. rewrite E1. unfold exists_in. simpl. by apply insert_exists. }
      assert (E0 : h_conn h1 !!! c0 = (h_conn h !!! c0) <| cn_id := Some (default (PInt (jn_counter x)) (cn_id (h_conn h !!! c0))) |>) by (rewrite E1; simpl; by rewrite ltm_insert).
      assert (Ene : ∀ c, c ≠ c0 → h_conn h1 !!! c = h_conn h !!! c) by (intros c Hne; rewrite E1; simpl; by rewrite ltm_insert_ne).
      destruct (IH h1 _ Hr1 Hx1 Hex1 Hnd) as ((x' & Hx' & EC' & EI' & EN') & Iid & Ino & Iall). clear IH.
      split_and!.
      + exists x'. split; [exact Hx'|]. rewrite EC' EI' EN'. simpl. by rewrite -app_assoc.
      + intros i c. destruct i as [|i]; simpl.
        * intros [= <-]. rewrite Ino // E0 /= EC. repeat f_equal. lia.
        * intros Hi. rewrite (Iid i c Hi) Ene. { intros ->. apply Hni. by eapply elem_of_list_lookup_2. }
          simpl. rewrite app_length /=. do 3 f_equal. lia.
      + intros c. rewrite not_elem_of_cons. intros [Hn1 Hn2]. by rewrite Ino // Ene.
      + intros c. destruct (Iall c) as [i Hi]. exists i. rewrite Hi. destruct (decide (c = c0)) as [->|Hne]; [by rewrite E0|by rewrite Ene].
  Qed.

  (** if none has an explicit id, a new junction numbers its connections 0, 1, 2, ... *)
  Theorem C29_automatic h j x cs : reachable h → h_junc h !! j = Some x → jn_conns x = [] → Forall (exists_in h_conn h) cs → NoDup cs →
    (∀ c, c ∈ cs → cn_id (h_conn h !!! c) = None) →
    let h' := run h (map (OpAddConnection j) cs) in
    (λ c, cn_id (h_conn h' !!! c)) <$> cs = (λ i, Some (PInt (Z.of_nat i))) <$> seq 0 (length cs).
  Proof.
    intros Hr Hx Hnil Hex Hnd Hno h'. destruct (C29_sequence h j x cs Hr Hx Hex Hnd) as (_ & Hid & _). fold h' in Hid.
    apply list_eq. intros i. rewrite !list_lookup_fmap. destruct (cs !! i) as [c|] eqn:Ei; simpl.
    - rewrite lookup_seq_lt; [by eapply lookup_lt_Some|]. simpl. rewrite (Hid i c Ei) Hno; [by eapply elem_of_list_lookup_2|]. by rewrite Hnil.
    - rewrite lookup_seq_ge //. by apply lookup_ge_None in Ei.
  Qed.

  (** ids written by one junction are pairwise different if the explicit ids are, and none of them is the text of a position *)
  Definition written_ids h (cs : list ref) : list string := (λ c, pystr_opt (cn_id (h_conn h !!! c))) <$> cs.
  Theorem C29_distinct h j x cs : reachable h → h_junc h !! j = Some x → jn_conns x = [] → Forall (exists_in h_conn h) cs → NoDup cs →
    (∀ c1 c2 i1 i2, c1 ∈ cs → c2 ∈ cs → c1 ≠ c2 → cn_id (h_conn h !!! c1) = Some i1 → cn_id (h_conn h !!! c2) = Some i2 → pystr i1 ≠ pystr i2) →
    (∀ c i n, c ∈ cs → cn_id (h_conn h !!! c) = Some i → n < length cs → pystr i ≠ pretty n) →
    NoDup (written_ids (run h (map (OpAddConnection j) cs)) cs).
  Proof.
    intros Hr Hx Hnil Hex Hnd Hdis Hcl. destruct (C29_sequence h j x cs Hr Hx Hex Hnd) as (_ & Hid & _).
    assert (Hpn : ∀ n : nat, pystr (PInt (Z.of_nat n)) = pretty n).
    { intros n. simpl. unfold pretty at 1, pretty_Z. by destruct n. }
    unfold written_ids. apply NoDup_alt. intros i1 i2 y. rewrite !list_lookup_fmap.
    destruct (cs !! i1) as [c1|] eqn:E1; [|done]. destruct (cs !! i2) as [c2|] eqn:E2; [|done]. simpl.
    rewrite (Hid _ _ E1) (Hid _ _ E2) Hnil. simpl. intros [= <-] [= E].
    destruct (decide (c1 = c2)) as [<-|Hne]; [by eapply NoDup_lookup|exfalso].
    pose proof (elem_of_list_lookup_2 _ _ _ E1) as Hin1. pose proof (elem_of_list_lookup_2 _ _ _ E2) as Hin2.
    pose proof (lookup_lt_Some _ _ _ E1). pose proof (lookup_lt_Some _ _ _ E2).
    destruct (cn_id (h_conn h !!! c1)) as [a|] eqn:Ea, (cn_id (h_conn h !!! c2)) as [b|] eqn:Eb; simpl default in E.
    - by eapply (Hdis c2 c1 b a).
    - rewrite Hpn in E. eapply (Hcl c1 a i2); eauto.
    - rewrite Hpn in E. eapply (Hcl c2 b i1); eauto.
    - rewrite !Hpn in E. apply (inj pretty) in E. subst. congruence.
  Qed.

  (** in every reachable state the connections of a junction have ids, and no later call changes them *)
  Theorem C29_forever h j x c os : reachable h → h_junc h !! j = Some x → c ∈ jn_conns x →
    ∃ i, cn_id (h_conn h !!! c) = Some i ∧ cn_id (h_conn (run h os) !!! c) = Some i.
  Proof.
    intros Hr Hx Hc. destruct (ji_ids _ (reachable_junc _ Hr) _ _ _ Hx Hc) as [i Hi]. exists i. split; [done|].
    assert (Hex : exists_in h_conn h c) by by apply (nd_junc _ (reachable_no_dangling _ Hr) _ _ Hx).
    apply (run_ind (λ h', exists_in h_conn h' c ∧ cn_id (h_conn h' !!! c) = Some i) h os Hr).
    - done.
    - intros h1 h2 N [H1 H2] A. split; [by apply (e_conn _ _ (astep_ext _ _ A))|by eapply astep_conn_id].
  Qed.
End Junctions.

Section Objects.
  Context {F : Type} `{!Num F}.
  Implicit Types (h : heap F).

  (** ** C33: in every reachable state, different objects (signals) that are on a road have ids, and different ones (as written) *)
  Theorem C33_unique h o1 o2 : reachable h → placed h o1 → placed h o2 → o1 ≠ o2 → so_class (h_obj h !!! o1) = so_class (h_obj h !!! o2) →
    ∃ i1 i2, so_id (h_obj h !!! o1) = Some i1 ∧ so_id (h_obj h !!! o2) = Some i2 ∧ pystr i1 ≠ pystr i2.
  Proof.
    intros Hr H1 H2 Hne Hc. destruct (reachable_ids _ Hr) as [_ Hu Hd]. destruct (Hu _ H1) as (i1 & E1 & _). destruct (Hu _ H2) as (i2 & E2 & _).
    exists i1, i2. split_and!; [done|done|]. eapply (Hd o1 o2); eauto.
  Qed.
  (** adding an object whose id was not handed out before keeps the id; otherwise it gets a new decimal number.  Nothing else changes. *)
  Theorem C33_added h r R o (sig : bool) : h_road h !! r = Some R → exists_in h_obj h o →
    let X := h_obj h !!! o in
    ∃ i objs ids R', step (if sig then OpAddSignal r [o] else OpAddObject r [o]) h =
        (Ok RNone, h <| h_obj := objs |> <| h_ids := ids |> <| h_road := <[r := R']> (h_road h) |>) ∧
      R' = (if sig then R <| rd_signals := rd_signals R ++ [o] |> else R <| rd_objects := rd_objects R ++ [o] |>) ∧
      objs = <[o := X <| so_id := Some i |>]> (h_obj h) ∧
      pystr i ∉ ids_used h (so_class X) ∧
      (∀ j, so_id X = Some j → pystr j ∉ ids_used h (so_class X) → i = j) ∧
      (so_id X = None ∨ (∃ j, so_id X = Some j ∧ pystr j ∈ ids_used h (so_class X)) → ∃ n : N, i = PStr (pretty n)).
  Proof.
    intros HR Ho X. pose proof (lookup_total_correct _ _ _ HR) as Et. assert (He : exists_in h_road h r) by by eexists.
    destruct (update_id_spec o h Ho) as (h' & E & [(i & Eo & Hni & _ & Hk & Hn) _ (m & m' & Eh)]). subst h'. simpl in Eo. subst m.
    assert (Ef : for_each update_id [o] h = (Ok tt, h <| h_obj := <[o := X <| so_id := Some i |>]> (h_obj h) |> <| h_ids := m' |>)).
    { cbn [for_each]. by rewrite (bind_run _ _ _ _ _ E). }
    eexists i, _, m', _. split; [|split; [reflexivity|split; [reflexivity|done]]].
    assert (HF : Forall (exists_in h_obj h) [o]) by by apply Forall_singleton.
    destruct sig; unfold step; (rewrite guarded_true; [by rewrite (has_true _ _ _ He) (all_have_true _ _ _ HF)|]);
      apply as_unit_ok; [unfold add_signal|unfold add_object]; rewrite (bind_run _ _ _ _ _ Ef); unfold upd_road, modify; simpl; by rewrite Et.
  Qed.
  (** the table of ids handed out only grows, and holds the ids of all placed objects *)
  Theorem C33_used h o : reachable h → placed h o → ∃ i, so_id (h_obj h !!! o) = Some i ∧ pystr i ∈ ids_used h (so_class (h_obj h !!! o)).
  Proof. intros Hr Ho. by apply (io_used _ _ (reachable_ids _ Hr)). Qed.

  (** different objects with different ids of their own, added to any roads of a program that added no object of this class before, keep them *)
  Theorem C33_kept h (adds : list (ref * ref)) : Forall (λ a, exists_in h_road h a.1 ∧ exists_in h_obj h a.2) adds → NoDup (map snd adds) →
    (∀ o, o ∈ map snd adds → so_class (h_obj h !!! o) = CObject ∧ ∃ i, so_id (h_obj h !!! o) = Some i ∧ pystr i ∉ ids_used h CObject) →
    (∀ o1 o2 i1 i2, o1 ∈ map snd adds → o2 ∈ map snd adds → o1 ≠ o2 → so_id (h_obj h !!! o1) = Some i1 → so_id (h_obj h !!! o2) = Some i2 → pystr i1 ≠ pystr i2) →
    ∀ o, h_obj (run h (map (λ a, OpAddObject a.1 [a.2]) adds)) !!! o = h_obj h !!! o.
  Proof.
    revert h. induction adds as [|[r o0] adds IH]; intros h Hex Hnd Hids Hdis o; [done|].
    apply Forall_cons in Hex as [[Hr Ho] Hex]. apply NoDup_cons in Hnd as [Hni Hnd]. simpl in Hr, Ho, Hni.
    cbn [map]. change (run h (?a :: ?b)) with (run (step a h).2 b).
    destruct (Hids o0 ltac:(by left)) as [Hc0 (i0 & Ei0 & Hu0)].
    destruct (update_id_spec o0 h Ho) as (h1 & E & [(i & Eo & Hn1 & Eu & Hk & _) Hoth (m & m' & Eh)]).
    rewrite Hc0 in Eu Hk Hn1 Hoth. assert (i = i0) as -> by (by apply Hk).
    assert (Eobj : ∀ x, h_obj h1 !!! x = h_obj h !!! x).
    { intros x. rewrite Eo. destruct (decide (o0 = x)) as [->|Hne]; [|by rewrite ltm_insert_ne]. rewrite ltm_insert -Ei0. by destruct (h_obj h !!! x). }
    assert (Es : (step (OpAddObject r [o0]) h).2 = h1 <| h_road := <[r := (h_road h1 !!! r) <| rd_objects := rd_objects (h_road h1 !!! r) ++ [o0] |>]> (h_road h1) |>).
    { assert (HF : Forall (exists_in h_obj h) [o0]) by by apply Forall_singleton. unfold step. rewrite guarded_true; [by rewrite (has_true _ _ _ Hr) (all_have_true _ _ _ HF)|].
      assert (Ef : for_each update_id [o0] h = (Ok tt, h1)) by (cbn [for_each]; by rewrite (bind_run _ _ _ _ _ E)).
      unfold as_unit, add_object. by rewrite (bind_run _ _ _ _ _ (bind_run _ _ _ _ _ Ef)). }
    cbn [fst snd] in *. rewrite Es. set (h2 := h1 <| h_road := _ |>).
    assert (Eu2 : ∀ c, ids_used h2 c = ids_used h1 c) by done.
    assert (Eo2 : ∀ x, h_obj h2 !!! x = h_obj h !!! x) by exact Eobj.
    rewrite IH.
    - eapply Forall_impl; [exact Hex|]. intros [r' o'] [Hr' Ho']. split; simpl in *.
      + unfold exists_in, h2. simpl. apply insert_exists. by rewrite Eh.
      + unfold exists_in, h2. simpl. rewrite Eo. by apply insert_exists.
    - done.
    - intros o' Ho'. rewrite Eo2 Eu2 Eu. destruct (Hids o') as [Hc' (i' & Ei' & Hu')]; [by right|]. split; [done|]. exists i'. split; [done|].
      rewrite not_elem_of_app not_elem_of_cons. split; [done|]. split; [|apply not_elem_of_nil].
      eapply (Hdis o' o0); [by right|by left| |done|done]. intros ->. done.
    - intros o1 o2 i1 i2 H1 H2. rewrite !Eo2. apply Hdis; by right.
    - by rewrite Eo2.
  Qed.

  (** ** C34: the search for a free id ends within as many steps as there are used ids, with the smallest unused number from the counter on *)
  Theorem C34_search (used : list string) (c : N) : ∃ n : N, (c ≤ n ≤ c + N.of_nat (length used))%N ∧ pretty n ∉ used ∧
    (∀ k : N, (c ≤ k < n)%N → pretty k ∈ used) ∧
    ∀ fuel, S (N.to_nat (n - c)) ≤ fuel → free_id fuel used c = Some n.
  Proof.
    destruct (free_id_total used c) as [n Hn]. pose proof (free_id_Some _ _ _ _ Hn) as (Hni & Hr & Hall).
    exists n. split; [lia|]. split; [done|]. split; [done|]. clear Hn. assert (Hc : (c ≤ n)%N) by lia. clear Hr. revert c Hc Hall.
    intros c Hc Hall fuel. revert c Hc Hall. induction fuel as [|fuel IH]; intros c Hc Hall Hf; [lia|]. simpl.
    destruct (decide (c = n)) as [->|Hne]; [by rewrite bool_decide_false|].
    rewrite bool_decide_true; [apply Hall; lia|]. apply IH; [lia| |lia]. intros k Hk. apply Hall. lia.
  Qed.
  (** so adding objects or signals to an existing road always succeeds *)
  Theorem C34_adding_succeeds h r os (sig : bool) : reachable h → exists_in h_road h r → Forall (exists_in h_obj h) os →
    (step (if sig then OpAddSignal r os else OpAddObject r os) h).1 = Ok RNone.
  Proof.
    intros Hreach Hr Hos. destruct (update_ids_ok os _ h Hos (reachable_ids _ Hreach)) as (h1 & E1 & _).
    destruct sig; unfold step; (rewrite guarded_true; [by rewrite (has_true _ _ _ Hr) (all_have_true _ _ _ Hos)|]);
      unfold as_unit; [unfold add_signal|unfold add_object]; by rewrite (bind_run _ _ _ _ _ (bind_run _ _ _ _ _ E1)).
  Qed.

  (** ** C35: the same object added twice is written twice, with the same id (whatever ids it had) *)
  Theorem C35_refuted h r R o : reachable h → h_road h !! r = Some R → exists_in h_obj h o →
    ∃ R' a b c, h_road (run h [OpAddObject r [o]; OpAddObject r [o]]) !! r = Some R' ∧ rd_objects R' = a ++ o :: b ++ o :: c.
  Proof.
    intros Hreach HR Ho.
    destruct (C33_added h r R o false HR Ho) as (i & objs & ids & R1 & E1 & -> & _). 
    set (h1 := h <| h_obj := objs |> <| h_ids := ids |> <| h_road := _ |>) in E1.
    assert (HR1 : h_road h1 !! r = Some (R <| rd_objects := rd_objects R ++ [o] |>)) by (simpl; by rewrite lookup_insert).
    assert (Ho1 : exists_in h_obj h1 o).
    { pose proof (run_asteps [OpAddObject r [o]] h (reachable_no_dangling _ Hreach)) as Ha. unfold run in Ha. cbn [foldl] in Ha. rewrite E1 in Ha. by apply (e_obj _ _ (asteps_ext _ _ Ha)). }
    destruct (C33_added h1 r _ o false HR1 Ho1) as (i2 & objs2 & ids2 & R2 & E2 & -> & _).
    unfold run. cbn [foldl]. rewrite E1. cbn [snd]. rewrite E2. cbn [snd].
    eexists _, (rd_objects R), [], []. split; [simpl; by rewrite lookup_insert|]. simpl. by rewrite -app_assoc.
  Qed.
  (** if every object is on one road, once, all written object ids of a file are different *)
  Theorem C35_once h (rs : list ref) : reachable h →
    let os := rs ≫= λ r, rd_objects (h_road h !!! r) in
    Forall (exists_in h_road h) rs → NoDup os → (∀ o, o ∈ os → so_class (h_obj h !!! o) = CObject) →
    NoDup ((λ o, pystr_opt (so_id (h_obj h !!! o))) <$> os).
  Proof.
    intros Hr os Hrs Hnd Hcl. rewrite Forall_forall in Hrs.
    assert (Hpl : ∀ o, o ∈ os → placed h o).
    { intros o Ho. apply elem_of_list_bind in Ho as (r & Hin & Hrin). exists r, (h_road h !!! r). split; [by apply exists_at, Hrs|]. apply elem_of_app. by left. }
    apply NoDup_fmap_2_strong; [|done]. intros o1 o2 H1 H2 E. destruct (decide (o1 = o2)) as [?|Hne]; [done|exfalso].
    destruct (C33_unique h o1 o2 Hr (Hpl _ H1) (Hpl _ H2) Hne) as (i1 & i2 & E1 & E2 & Hd); [by rewrite !Hcl|].
    rewrite E1 E2 in E. by apply Hd.
  Qed.
End Objects.

(** ** Concrete cases, in the executable instance *)
Section Examples.
  (* two roads (refs 3 and 7), each with its planview and lanes *)
  Definition a_road (base : nat) (id : Z) : list (op Z) :=
    [OpLine 10%Z; OpPlanView None None None; OpLanes; OpRoad (PInt id) (base + 1) (base + 2) (-1) None None].
  Definition linked : list (op Z) := a_road 0 1 ++ [OpAddSuccessor 3 (Some et_road) (PInt 2) (Some cp_start) 0;
    OpAddNeighbor 3 (Some et_road) (PInt 5) (Some dir_same); OpAddNeighbor 3 (Some et_road) (PInt 6) (Some dir_opposite)].
  Example C21_example : ∃ o, h_road (run heap_init linked) !! 3 = Some o ∧
    links_of "successor" o = [mkLink (Some "successor") (PInt 2) (Some et_road) (Some cp_start) None] ∧ links_of "predecessor" o = [] ∧
    length (links_of "neighbor" o) = 2.
  Proof. eexists. split; [vm_compute; reflexivity|]. split_and!; vm_compute; reflexivity. Qed.
  Example C21_example_second :
    (step (OpAddSuccessor 3 (Some et_junction) (PInt 9) None 0) (run heap_init linked)).1 = Err ValueError ∧
    (step (OpAddPredecessor 3 (Some et_junction) (PInt 9) None 0) (run heap_init linked)).1 = Ok RNone ∧
    (step (OpAddNeighbor 3 None (PInt 9) (Some dir_same)) (run heap_init linked)).1 = Err ValueError.
  Proof. split_and!; vm_compute; reflexivity. Qed.

  (* five lanes 0..4, a section 5 with centre 0, two lanes left, two right, added alternately *)
  Definition five_lanes : list (op Z) := map (λ _, OpLane lt_driving 3 0 0 0 0)%Z (seq 0 5) ++ [OpLaneSection 0%Z 0].
  Definition adds : list (bool * nat) := [(true, 3); (false, 1); (true, 2); (false, 4)].
  Example C23_example : let h := run heap_init five_lanes in
    (∃ s, h_sec h !! 5 = Some s) ∧ Forall (λ a : bool * nat, exists_in h_lane h a.2) adds ∧ NoDup (map snd adds) ∧
    map (λ l, ln_id (h_lane (run h (map (add_op 5) adds)) !!! l)) (seq 0 5) = [Some 0; Some (-1); Some 2; Some 1; Some (-2)]%Z.
  Proof.
    split_and!; [eexists; vm_compute; reflexivity| |apply (bool_decide_unpack _); vm_compute; exact I|vm_compute; reflexivity].
    repeat constructor; eexists; vm_compute; reflexivity.
  Qed.
  (** [C23_numbering] applies to the lanes of this section *)
  Example C23_example_unique : let h := run heap_init (five_lanes ++ map (add_op 5) adds) in
    lane_at h 5 (LeftOf 1) = Some 2 ∧ ∀ sec' p', lane_at h sec' p' = Some 2 → sec' = 5 ∧ p' = LeftOf 1.
  Proof.
    split; [vm_compute; reflexivity|]. intros sec' p'. unfold lane_at.
    assert (Hs : h_sec (run heap_init (five_lanes ++ map (add_op 5) adds)) = {[5 := mkLaneSection 0%Z 0 [3; 2] [1; 4] 3 (-3)]}).
    { apply map_eq. intros i. destruct (decide (i = 5)) as [->|Hi]; [vm_compute; reflexivity|].
      rewrite lookup_singleton_ne; [congruence|].
      assert (E : dom (h_sec (run heap_init (five_lanes ++ map (add_op 5) adds))) = {[5]}) by (apply leibniz_equiv, (bool_decide_unpack _); vm_compute; exact I).
      apply not_elem_of_dom. rewrite E. apply not_elem_of_singleton. exact Hi. }
    rewrite Hs. destruct (decide (sec' = 5)) as [->|Hne]; [|by rewrite lookup_singleton_ne].
    rewrite lookup_singleton. destruct p' as [|[|[|?]]|[|[|?]]]; simpl; intros [=]. done.
  Qed.

  (* two sections (5: lanes 0,1; 6: lanes 2,3), a LaneLinker (8) 1 -> 3, passed for both sections *)
  Definition two_sections : list (op Z) := map (λ _, OpLane lt_driving 3 0 0 0 0)%Z (seq 0 5) ++
    [OpLaneSection 0%Z 0; OpLaneSection 50%Z 2; OpLanes; OpLaneLinker; OpAddLeftLane 5 1; OpAddLeftLane 6 3; OpAddLeftLane 6 4; OpLinkerAddLink 8 1 4 None].
  Example C24_example : let h := run heap_init two_sections in
    exists_in h_lanes h 7 ∧ exists_in h_sec h 5 ∧ Forall (exists_in h_linker h) [8; 8] ∧ length (pending h [8; 8]) = 1 ∧
    map (λ l, ln_links (h_lane (run h [OpAddLaneSection 7 5 [8; 8]; OpAddLaneSection 7 6 [8]]) !!! l)) [1; 3; 4] =
      [[lane_link "successor" "2"]; []; [lane_link "predecessor" "1"]].
  Proof.
    split_and!; [eexists; vm_compute; reflexivity|eexists; vm_compute; reflexivity| |vm_compute; reflexivity|vm_compute; reflexivity].
    repeat constructor; eexists; vm_compute; reflexivity.
  Qed.

  (* connections 0,1,2 and junction 3 *)
  Definition conns (ids : list (option pyid)) : list (op Z) := map (λ i, OpConnection (PInt 1) (PInt 2) cp_start i) ids ++ [OpJunction "j" (PInt 1)].
  Example C29_example : let h := run heap_init (conns [None; Some (PStr "x"); None]) in
    (∃ x, h_junc h !! 3 = Some x ∧ jn_conns x = []) ∧ Forall (exists_in h_conn h) [0; 1; 2] ∧
    written_ids (run h (map (OpAddConnection 3) [0; 1; 2])) [0; 1; 2] = ["0"; "x"; "2"].
  Proof. split_and!; [eexists; split; vm_compute; reflexivity|repeat constructor; eexists; vm_compute; reflexivity|vm_compute; reflexivity]. Qed.
  (** an explicit id can collide with an automatic one *)
  Theorem C29_refuted : let h := run heap_init (conns [Some (PInt 1); None]) in
    (∃ x, h_junc h !! 2 = Some x ∧ jn_conns x = []) ∧ Forall (exists_in h_conn h) [0; 1] ∧ NoDup [0; 1] ∧
    ¬ NoDup (written_ids (run h (map (OpAddConnection 2) [0; 1])) [0; 1]).
  Proof.
    split_and!; [eexists; split; vm_compute; reflexivity|repeat constructor; eexists; vm_compute; reflexivity|apply (bool_decide_unpack _); vm_compute; exact I|].
    replace (written_ids _ _) with ["1"; "1"] by (vm_compute; reflexivity). intros [Hn _]%NoDup_cons. apply Hn. by left.
  Qed.

  (* a road (3), objects 4 (no id), 5 (id "0"), 6 (id "7"), signal 7 *)
  Definition obj (id : option pyid) : op Z := OpObject 0%Z 0%Z (inl ot_none) None id None dyn_no 0%Z or_none 0%Z 0%Z 0%Z None None None None None.
  Definition objects : list (op Z) := a_road 0 1 ++ [obj None; obj (Some (PStr "0")); obj (Some (PInt 7));
    OpSignal 0%Z 0%Z "se" (inr "1") None None None dyn_no None None 0%Z or_none 0%Z 0%Z 0%Z None None].
  Example C33_example : let h := run heap_init (objects ++ [OpAddObject 3 [4; 5]; OpAddObject 3 [6]; OpAddSignal 3 [7]]) in
    placed h 4 ∧ placed h 5 ∧ placed h 7 ∧ map (λ o, so_id (h_obj h !!! o)) [4; 5; 6; 7] = [Some (PStr "0"); Some (PStr "1"); Some (PInt 7); Some (PStr "0")].
  Proof.
    split_and!; [| | |vm_compute; reflexivity]; eexists 3, _; (split; [vm_compute; reflexivity|]); apply (bool_decide_unpack _); vm_compute; exact I.
  Qed.
  Example C33_kept_example : let h := run heap_init objects in
    Forall (λ a : nat * nat, exists_in h_road h a.1 ∧ exists_in h_obj h a.2) [(3, 6); (3, 5)] ∧
    (∀ o, o ∈ [6; 5] → so_class (h_obj h !!! o) = CObject ∧ ∃ i, so_id (h_obj h !!! o) = Some i ∧ pystr i ∉ ids_used h CObject).
  Proof.
    split.
    - repeat constructor; eexists; vm_compute; reflexivity.
    - intros o. rewrite !elem_of_cons. intros [->|[->|[]%elem_of_nil]]; (split; [vm_compute; reflexivity|]; eexists; split; [vm_compute; reflexivity|]);
        apply (bool_decide_unpack _); vm_compute; exact I.
  Qed.
End Examples.

Print Assumptions C21_history.
Print Assumptions C21_forever.
Print Assumptions C21_second_refused.
Print Assumptions C21_first_added.
Print Assumptions C22_history.
Print Assumptions C22_add.
Print Assumptions C23_numbering.
Print Assumptions C23_sequence.
Print Assumptions C24_apply.
Print Assumptions C24_forever.
Print Assumptions C24_only_new.
Print Assumptions C24_again.
Print Assumptions C29_sequence.
Print Assumptions C29_automatic.
Print Assumptions C29_distinct.
Print Assumptions C29_forever.
Print Assumptions C29_refuted.
Print Assumptions C33_unique.
Print Assumptions C33_added.
Print Assumptions C33_used.
Print Assumptions C33_kept.
Print Assumptions C34_search.
Print Assumptions C34_adding_succeeds.
Print Assumptions C35_refuted.
Print Assumptions C35_once.
