(** What the atomic changes do to each kind of object *)
From Coq Require Import ssreflect.
From Verif.Model Require Import Api.
From Verif.Spec Require Import SpecChain SpecState SpecHistory.
From Verif.Proof Require Import Monad DictFacts PlanViewFacts NetFrame Reach Steps.
Local Open Scope general_if_scope.

Section History.
  Context {F : Type} `{!Num F}.
  Local Arguments geom_end : simpl never.
  Local Arguments geom_start : simpl never.
  Implicit Types (h : heap F).

  (** explicit forms of the composite changes *)
  Lemma lane_add_link_form l ty id h : ∃ m, (lane_add_link l ty id h).2 = h <| h_lane := m |> ∧
    ∀ r, ∃ ls, (m !!! r) = (h_lane h !!! r) <| ln_links := ls |>.
  Proof.
    unfold lane_add_link, mk_link. destruct (_ && _); simpl.
    - exists (h_lane h). split; [by destruct h|]. intros r. exists (ln_links (h_lane h !!! r)). by destruct (h_lane h !!! r).
    - eexists. split; [reflexivity|]. intros r. destruct (decide (l = r)) as [->|Hne].
      + rewrite ltm_insert. eexists. reflexivity.
      + rewrite ltm_insert_ne //. exists (ln_links (h_lane h !!! r)). by destruct (h_lane h !!! r).
  Qed.
  Lemma use_lanelink_form k i h : ∃ m m', (use_lanelink k i h).2 = h <| h_lane := m |> <| h_linker := m' |> ∧
    ∀ r, ∃ ls, (m !!! r) = (h_lane h !!! r) <| ln_links := ls |>.
  Proof.
    assert (Hid : ∃ m m', h = h <| h_lane := m |> <| h_linker := m' |> ∧ ∀ r, ∃ ls, (m !!! r) = (h_lane h !!! r) <| ln_links := ls |>).
    { exists (h_lane h), (h_linker h). split; [by destruct h|]. intros r. exists (ln_links (h_lane h !!! r)). by destruct (h_lane h !!! r). }
    unfold use_lanelink, get_linker. rewrite bind_gets. destruct (_ !! i) as [ll|]; [|exact Hid]. destruct (ll_used ll); [exact Hid|]. clear Hid.
    unfold get_lane. rewrite bind_gets. unfold lane_add_link, mk_link. simpl. eexists _, _. split; [reflexivity|].
    intros r. destruct (decide (ll_succ ll = r)) as [->|H1].
    - rewrite ltm_insert. destruct (decide (ll_pred ll = r)) as [->|H2].
      + rewrite ltm_insert. eexists. reflexivity.
      + rewrite ltm_insert_ne //. eexists. reflexivity.
    - rewrite ltm_insert_ne //. destruct (decide (ll_pred ll = r)) as [->|H2].
      + rewrite ltm_insert. eexists. reflexivity.
      + rewrite ltm_insert_ne //. exists (ln_links (h_lane h !!! r)). by destruct (h_lane h !!! r).
  Qed.
  Lemma update_id_form r h : ∃ m m', (update_id r h).2 = h <| h_obj := m |> <| h_ids := m' |>.
  Proof.
    unfold update_id, get_obj. rewrite bind_gets. unfold bind at 1, modify at 1.
    set (h1 := match h_ids h !! _ with Some _ => h | None => _ end).
    assert (∃ m', h1 = h <| h_ids := m' |>) as [m1 Eh1].
    { unfold h1. destruct (h_ids h !! _); [exists (h_ids h); by destruct h|eexists; reflexivity]. }
    rewrite bind_gets. destruct (default _ _) as [used c].
    destruct (_ || _).
    - unfold bind, or_raise. destruct (free_id _ _ _).
      + simpl. unfold modify. simpl. rewrite Eh1. simpl. eexists _, _. reflexivity.
      + simpl. rewrite Eh1. exists (h_obj h), m1. by destruct h.
    - simpl. unfold bind, ret, gets, modify. simpl. rewrite Eh1. simpl. exists (h_obj h). eexists. by destruct h.
  Qed.
  Lemma update_ids_form os h : ∃ m m', (for_each update_id os h).2 = h <| h_obj := m |> <| h_ids := m' |>.
  Proof.
    revert h. induction os as [|o os IH]; intros h; simpl.
    - exists (h_obj h), (h_ids h). by destruct h.
    - destruct (update_id_form o h) as (m & m' & E). unfold bind. destruct (update_id o h) as [[[]|e] h1]; simpl in *; subst.
      + destruct (IH (h <| h_obj := m |> <| h_ids := m' |>)) as (m2 & m2' & E2). rewrite E2. eexists _, _. reflexivity.
      + eexists _, _. reflexivity.
  Qed.

  (** ** Roads *)
  Inductive road_step (o : road) : road → Prop :=
  | rs_succ et id cp off : rd_succ o = None → let k := mkLink (Some "successor") id et cp None in
      road_step o (o <| rd_succ := Some k |> <| rd_links := rd_links o ++ [k] |> <| rd_off_suc := off |>)
  | rs_pred et id cp off : rd_pred o = None → let k := mkLink (Some "predecessor") id et cp None in
      road_step o (o <| rd_pred := Some k |> <| rd_links := rd_links o ++ [k] |> <| rd_off_pred := off |>)
  | rs_neighbor et id dir : rd_neighbors o ≤ 1 →
      road_step o (o <| rd_links := rd_links o ++ [mkLink (Some "neighbor") id et None (Some dir)] |> <| rd_neighbors := S (rd_neighbors o) |>)
  | rs_objects os : road_step o (o <| rd_objects := rd_objects o ++ os |>)
  | rs_signals os : road_step o (o <| rd_signals := rd_signals o ++ os |>).

  Lemma road_upd_inv h r x r' o' : exists_in h_road h r → <[r:=x]> (h_road h) !! r' = Some o' →
    h_road h !! r' = Some o' ∨ (r' = r ∧ o' = x ∧ h_road h !! r = Some (h_road h !!! r)).
  Proof. intros He [[<- <-]|[_ ?]]%lookup_insert_Some; [right|by left]. by rewrite (exists_at _ _ _ He). Qed.

  Lemma astep_road h h' r o' : astep h h' → h_road h' !! r = Some o' →
    h_road h !! r = Some o' ∨
    (r = h_next h ∧ ∃ id pv ls ty n ru, o' = road_new id pv ls ty n ru) ∨
    (∃ o, h_road h !! r = Some o ∧ road_step o o').
  Proof.
    destruct 1; simpl; try (by left).
    - destruct (lane_add_link_form l ty id h) as (m & -> & _). by left.
    - destruct (use_lanelink_form k i h) as (m & m' & -> & _). by left.
    - intros [[<- <-]|[_ ?]]%lookup_insert_Some; [right; left|by left]. unfold road_new. split; [done|]. by eexists _, _, _, _, _, _.
    - unfold add_successor, get_road. rewrite bind_gets. destruct (rd_succ _) eqn:Es; [by left|]. rewrite mk_link_ok //. simpl.
      intros [?|(-> & -> & He)]%road_upd_inv; [by left| |done]. right. right. eexists. split; [exact He|]. by constructor.
    - unfold add_predecessor, get_road. rewrite bind_gets. destruct (rd_pred _) eqn:Es; [by left|]. rewrite mk_link_ok //. simpl.
      intros [?|(-> & -> & He)]%road_upd_inv; [by left| |done]. right. right. eexists. split; [exact He|]. by constructor.
    - unfold add_neighbor, get_road. rewrite bind_gets. destruct (decide _); [by left|]. unfold mk_link.
      destruct dir as [dir|]; [|by left]. simpl. rewrite insert_insert ltm_insert.
      intros [?|(-> & -> & He)]%road_upd_inv; [by left| |done]. right. right. eexists. split; [exact He|]. apply (rs_neighbor (h_road h !!! r0)). lia.
    - unfold add_object. destruct (update_ids_form os h) as (m & m' & E). unfold bind.
      destruct (for_each update_id os h) as [[[]|e] h1]; simpl in E; subst; simpl; [|by left].
      intros [?|(-> & -> & He)]%road_upd_inv; [by left| |done]. right. right. eexists. split; [exact He|]. apply (rs_objects (h_road h !!! r0)).
    - unfold add_signal. destruct (update_ids_form os h) as (m & m' & E). unfold bind.
      destruct (for_each update_id os h) as [[[]|e] h1]; simpl in E; subst; simpl; [|by left].
      intros [?|(-> & -> & He)]%road_upd_inv; [by left| |done]. right. right. eexists. split; [exact He|]. apply (rs_signals (h_road h !!! r0)).
  Qed.

  (** ** OpenDrive containers *)
  Lemma astep_odr h h' d x' : astep h h' → h_odr h' !! d = Some x' →
    h_odr h !! d = Some x' ∨ (∃ n, x' = mkOpenDrive n [] []) ∨
    (∃ x r, h_odr h !! d = Some x ∧ exists_in h_road h r ∧
       x' = x <| od_roads := dict_set (od_roads x) (pystr (rd_id (h_road h !!! r))) r |>) ∨
    (∃ x j, h_odr h !! d = Some x ∧ exists_in h_junc h j ∧ x' = x <| od_junctions := od_junctions x ++ [j] |>).
  Proof.
    destruct 1; simpl; try (by left).
    - destruct (lane_add_link_form l ty id h) as (m & -> & _). by left.
    - destruct (use_lanelink_form k i h) as (m & m' & -> & _). by left.
    - unfold add_successor, get_road. rewrite bind_gets. destruct (rd_succ _) eqn:Es; by left.
    - unfold add_predecessor, get_road. rewrite bind_gets. destruct (rd_pred _) eqn:Es; by left.
    - unfold add_neighbor, get_road. rewrite bind_gets. destruct (decide _); [by left|]. unfold mk_link.
      destruct dir as [dir|]; by left.
    - unfold add_object. destruct (update_ids_form os h) as (m & m' & E). unfold bind.
      destruct (for_each update_id os h) as [[[]|e] h1]; simpl in E; subst; by left.
    - unfold add_signal. destruct (update_ids_form os h) as (m & m' & E). unfold bind.
      destruct (for_each update_id os h) as [[[]|e] h1]; simpl in E; subst; by left.
    - intros [[<- <-]|[_ ?]]%lookup_insert_Some; [|by left]. right. left. by eexists.
    - intros [[<- <-]|[_ ?]]%lookup_insert_Some; [|by left]. right. right. left. eexists _, r. split; [by apply exists_at|]. by split.
    - intros [[<- <-]|[_ ?]]%lookup_insert_Some; [|by left]. right. right. right. eexists _, j. split; [by apply exists_at|]. by split.
  Qed.

  (** ** Lane sections and lane ids *)
  Inductive sec_change (h h' : heap F) : Prop :=
  | sc_none : h_sec h' = h_sec h → (∀ l, exists_in h_lane h l → ln_id (h_lane h' !!! l) = ln_id (h_lane h !!! l)) → sec_change h h'
  | sc_new s c : exists_in h_lane h c → h_sec h' = <[h_next h := mkLaneSection s c [] [] 1 (-1)]> (h_sec h) →
      ln_id (h_lane h' !!! c) = Some 0%Z → (∀ l, l ≠ c → h_lane h' !!! l = h_lane h !!! l) → sec_change h h'
  | sc_left sec l : exists_in h_sec h sec → exists_in h_lane h l →
      let x := h_sec h !!! sec in h_sec h' = <[sec := x <| ls_left_id := (ls_left_id x + 1)%Z |> <| ls_left := ls_left x ++ [l] |>]> (h_sec h) →
      ln_id (h_lane h' !!! l) = Some (ls_left_id x) → (∀ l', l' ≠ l → h_lane h' !!! l' = h_lane h !!! l') → sec_change h h'
  | sc_right sec l : exists_in h_sec h sec → exists_in h_lane h l →
      let x := h_sec h !!! sec in h_sec h' = <[sec := x <| ls_right_id := (ls_right_id x - 1)%Z |> <| ls_right := ls_right x ++ [l] |>]> (h_sec h) →
      ln_id (h_lane h' !!! l) = Some (ls_right_id x) → (∀ l', l' ≠ l → h_lane h' !!! l' = h_lane h !!! l') → sec_change h h'.

  Lemma astep_sec h h' : no_dangling h → astep h h' → sec_change h h'.
  Proof.
    intros N. destruct 1; simpl; try (by apply sc_none).
    - apply sc_none; [done|]. simpl. intros l Hl.
      rewrite ltm_insert_ne //. assert (l < h_next h) by (eapply exists_lt; [|exact Hl]; apply N). lia.
    - destruct (lane_add_link_form l ty id h) as (m & -> & Hm). apply sc_none; [done|]. simpl. intros r _. by destruct (Hm r) as [ls ->].
    - apply sc_none; [done|]. simpl. intros r _. destruct (decide (l = r)) as [->|Hne]; [by rewrite ltm_insert|by rewrite ltm_insert_ne].
    - apply (sc_new _ _ s c); [done|done|simpl; by rewrite ltm_insert|]. intros l Hl. simpl. by rewrite ltm_insert_ne.
    - apply (sc_left _ _ sec l); [done|done| | |]; simpl; [by rewrite insert_insert ltm_insert|by rewrite ltm_insert|]. intros. by rewrite ltm_insert_ne.
    - apply (sc_right _ _ sec l); [done|done| | |]; simpl; [by rewrite insert_insert ltm_insert|by rewrite ltm_insert|]. intros. by rewrite ltm_insert_ne.
    - destruct (use_lanelink_form k i h) as (m & m' & -> & Hm). apply sc_none; [done|]. simpl. intros r _. by destruct (Hm r) as [ls ->].
    - unfold add_successor, get_road. rewrite bind_gets. destruct (rd_succ _) eqn:Es; by apply sc_none.
    - unfold add_predecessor, get_road. rewrite bind_gets. destruct (rd_pred _) eqn:Es; by apply sc_none.
    - unfold add_neighbor, get_road. rewrite bind_gets. destruct (decide _); [by apply sc_none|]. unfold mk_link.
      destruct dir as [dir|]; by apply sc_none.
    - unfold add_object. destruct (update_ids_form os h) as (m & m' & E). unfold bind.
      destruct (for_each update_id os h) as [[[]|e] h1]; simpl in E; subst; by apply sc_none.
    - unfold add_signal. destruct (update_ids_form os h) as (m & m' & E). unfold bind.
      destruct (for_each update_id os h) as [[[]|e] h1]; simpl in E; subst; by apply sc_none.
  Qed.
End History.

(** ** Junctions and connections *)
Section Junctions.
  Context {F : Type} `{!Num F}.
  Implicit Types (h : heap F).

  Inductive junc_change (h h' : heap F) : Prop :=
  | jc_none : h_junc h' = h_junc h → (∀ c, exists_in h_conn h c → cn_id (h_conn h' !!! c) = cn_id (h_conn h !!! c)) → junc_change h h'
  | jc_new n id : h_junc h' = <[h_next h := mkJunction n id [] 0]> (h_junc h) → h_conn h' = h_conn h → junc_change h h'
  | jc_add j c : exists_in h_junc h j → exists_in h_conn h c →
      let x := h_junc h !!! j in
      h_junc h' = <[j := x <| jn_counter := (jn_counter x + 1)%Z |> <| jn_conns := jn_conns x ++ [c] |>]> (h_junc h) →
      cn_id (h_conn h' !!! c) = Some (default (PInt (jn_counter x)) (cn_id (h_conn h !!! c))) →
      (∀ c', c' ≠ c → h_conn h' !!! c' = h_conn h !!! c') → junc_change h h'.

  Lemma add_connection_conn j c h c' : h_conn (add_connection j c h).2 !!! c' =
    if decide (c' = c) then match cn_id (h_conn h !!! c) with
                            | None => (h_conn h !!! c) <| cn_id := Some (PInt (jn_counter (h_junc h !!! j))) |>
                            | Some _ => h_conn h !!! c end
    else h_conn h !!! c'.
  Proof. simpl. destruct (decide (c' = c)) as [->|Hne]; [by rewrite ltm_insert|by rewrite ltm_insert_ne]. Qed.

  Lemma astep_junc h h' : no_dangling h → astep h h' → junc_change h h'.
  Proof.
    intros N. destruct 1; simpl; try (by apply jc_none).
    - destruct (lane_add_link_form l ty id h) as (m & -> & Hm). by apply jc_none.
    - destruct (use_lanelink_form k i h) as (m & m' & -> & Hm). by apply jc_none.
    - apply jc_none; [done|]. simpl. intros l Hl.
      rewrite ltm_insert_ne //. assert (l < h_next h) by (eapply exists_lt; [|exact Hl]; apply N). lia.
    - apply jc_none; [done|]. simpl. intros r _. destruct (decide (c = r)) as [->|Hne]; [by rewrite ltm_insert|by rewrite ltm_insert_ne].
    - by eapply jc_new.
    - apply (jc_add _ _ j c); [done|done| | |]; simpl; [by rewrite insert_insert ltm_insert| |intros; by rewrite ltm_insert_ne].
      rewrite ltm_insert. by destruct (cn_id (h_conn h !!! c)) eqn:E; simpl; rewrite ?E.
    - unfold add_successor, get_road. rewrite bind_gets. destruct (rd_succ _) eqn:Es; by apply jc_none.
    - unfold add_predecessor, get_road. rewrite bind_gets. destruct (rd_pred _) eqn:Es; by apply jc_none.
    - unfold add_neighbor, get_road. rewrite bind_gets. destruct (decide _); [by apply jc_none|]. unfold mk_link.
      destruct dir as [dir|]; by apply jc_none.
    - unfold add_object. destruct (update_ids_form os h) as (m & m' & E). unfold bind.
      destruct (for_each update_id os h) as [[[]|e] h1]; simpl in E; subst; by apply jc_none.
    - unfold add_signal. destruct (update_ids_form os h) as (m & m' & E). unfold bind.
      destruct (for_each update_id os h) as [[[]|e] h1]; simpl in E; subst; by apply jc_none.
  Qed.

  (** ** LaneLinkers *)
  Definition linker_grows (l l' : list lanelink) : Prop :=
    ∀ i ll, l !! i = Some ll → ∃ ll', l' !! i = Some ll' ∧ ll_pred ll' = ll_pred ll ∧ ll_succ ll' = ll_succ ll ∧ (ll_used ll = true → ll_used ll' = true).
  Lemma linker_grows_refl l : linker_grows l l.
  Proof. intros i ll H. eauto. Qed.
  Lemma linker_grows_trans l1 l2 l3 : linker_grows l1 l2 → linker_grows l2 l3 → linker_grows l1 l3.
  Proof.
    intros A B i ll Hl. destruct (A i ll Hl) as (ll2 & Hl2 & ? & ? & ?). destruct (B i ll2 Hl2) as (ll3 & Hl3 & ? & ? & ?).
    exists ll3. split_and!; [done|congruence|congruence|auto].
  Qed.
  Lemma use_lanelink_grows k i h k' : linker_grows (h_linker h !!! k') (h_linker (use_lanelink k i h).2 !!! k').
  Proof.
    unfold use_lanelink, get_linker. rewrite bind_gets. destruct (_ !! i) as [ll|] eqn:E; [|apply linker_grows_refl].
    destruct (ll_used ll) eqn:Eu; [apply linker_grows_refl|]. simpl.
    destruct (decide (k = k')) as [->|Hne]; [rewrite ltm_insert|rewrite ltm_insert_ne //; apply linker_grows_refl].
    intros j x Hx. destruct (decide (i = j)) as [->|Hne].
    - rewrite list_lookup_alter Hx. simpl. eexists. split; [reflexivity|done].
    - rewrite list_lookup_alter_ne //. eauto.
  Qed.
  Lemma astep_linker h h' k : no_dangling h → exists_in h_linker h k → astep h h' → linker_grows (h_linker h !!! k) (h_linker h' !!! k).
  Proof.
    intros N Hk. destruct 1; simpl; try apply linker_grows_refl.
    - destruct (lane_add_link_form l ty id h) as (m & -> & Hm). apply linker_grows_refl.
    - rewrite ltm_insert_ne; [|apply linker_grows_refl]. assert (k < h_next h) by (eapply exists_lt; [|exact Hk]; apply N). lia.
    - destruct (decide (k0 = k)) as [->|Hne]; [rewrite ltm_insert|rewrite ltm_insert_ne //; apply linker_grows_refl].
      intros i ll Hi. exists ll. split; [|done]. by apply lookup_app_l_Some.
    - apply use_lanelink_grows.
    - unfold add_successor, get_road. rewrite bind_gets. destruct (rd_succ _) eqn:Es; apply linker_grows_refl.
    - unfold add_predecessor, get_road. rewrite bind_gets. destruct (rd_pred _) eqn:Es; apply linker_grows_refl.
    - unfold add_neighbor, get_road. rewrite bind_gets. destruct (decide _); [apply linker_grows_refl|]. unfold mk_link.
      destruct dir as [dir|]; apply linker_grows_refl.
    - unfold add_object. destruct (update_ids_form os h) as (m & m' & E). unfold bind.
      destruct (for_each update_id os h) as [[[]|e] h1]; simpl in E; subst; apply linker_grows_refl.
    - unfold add_signal. destruct (update_ids_form os h) as (m & m' & E). unfold bind.
      destruct (for_each update_id os h) as [[[]|e] h1]; simpl in E; subst; apply linker_grows_refl.
  Qed.
End Junctions.

(** ** Object ids *)
Section Ids.
  Context {F : Type} `{!Num F}.
  Implicit Types (h : heap F).

  Lemma free_id_None fuel used : ∀ n, free_id fuel used n = None → ∀ i, (i < fuel)%nat → pretty (n + N.of_nat i)%N ∈ used.
  Proof.
    induction fuel as [|fuel IH]; intros n; simpl; [intros; lia|]. destruct (bool_decide _) eqn:E; [|done].
    intros H i Hi. destruct i as [|i].
    - rewrite N.add_0_r. by apply bool_decide_eq_true in E.
    - specialize (IH _ H i). replace (n + N.of_nat (S i))%N with (n + 1 + N.of_nat i)%N by lia. apply IH. lia.
  Qed.
  Lemma free_id_Some fuel used : ∀ n m, free_id fuel used n = Some m →
    pretty m ∉ used ∧ (n ≤ m < n + N.of_nat fuel)%N ∧ ∀ k, (n ≤ k < m)%N → pretty k ∈ used.
  Proof.
    induction fuel as [|fuel IH]; intros n m; simpl; [done|]. destruct (bool_decide _) eqn:E.
    - intros H. apply IH in H as (A & B & C). apply bool_decide_eq_true in E. split; [done|]. split; [lia|].
      intros k Hk. destruct (decide (k = n)) as [->|]; [done|]. apply C. lia.
    - intros [= ->]. apply bool_decide_eq_false in E. split; [done|]. split; [lia|]. intros. lia.
  Qed.
  Lemma free_id_total used n : is_Some (free_id (S (length used)) used n).
  Proof.
    destruct (free_id (S (length used)) used n) eqn:E; [eauto|exfalso].
    pose proof (free_id_None _ _ _ E) as Hall.
    assert (Hsub : map (λ i, pretty (n + N.of_nat i)%N) (seq 0 (S (length used))) ⊆+ used).
    { apply NoDup_submseteq.
      - apply (NoDup_fmap_2_strong (λ i, pretty (n + N.of_nat i)%N)); [|apply NoDup_seq]. intros i j _ _ Hij. apply (inj pretty) in Hij. lia.
      - intros x Hx. apply elem_of_list_fmap in Hx as (i & -> & Hi). apply Hall. apply elem_of_seq in Hi. lia. }
    apply submseteq_length in Hsub. rewrite map_length seq_length in Hsub. lia.
  Qed.

  (** [_update_id]: the object gets an id that was not used before, and the id is recorded *)
  Record id_assigned (r : ref) h h' : Prop := {
    ia_obj : ∃ i, h_obj h' = <[r := (h_obj h !!! r) <| so_id := Some i |>]> (h_obj h) ∧
      pystr i ∉ ids_used h (so_class (h_obj h !!! r)) ∧
      ids_used h' (so_class (h_obj h !!! r)) = ids_used h (so_class (h_obj h !!! r)) ++ [pystr i] ∧
      (∀ j, so_id (h_obj h !!! r) = Some j → pystr j ∉ ids_used h (so_class (h_obj h !!! r)) → i = j) ∧
      (so_id (h_obj h !!! r) = None ∨ (∃ j, so_id (h_obj h !!! r) = Some j ∧ pystr j ∈ ids_used h (so_class (h_obj h !!! r))) →
         ∃ n, i = PStr (pretty (n : N)));
    ia_other : ∀ c, c ≠ so_class (h_obj h !!! r) → ids_used h' c = ids_used h c;
    ia_frame : ∃ m m', h' = h <| h_obj := m |> <| h_ids := m' |>
  }.
  Lemma sclass_name_inj c c' : sclass_name c = sclass_name c' → c = c'.
  Proof. by destruct c, c'. Qed.

  Lemma update_id_spec r h : exists_in h_obj h r → ∃ h', update_id r h = (Ok tt, h') ∧ id_assigned r h h'.
  Proof.
    intros Hr. unfold update_id, get_obj. rewrite bind_gets. unfold bind at 1, modify at 1.
    set (o := h_obj h !!! r). set (cls := sclass_name (so_class o)).
    set (h1 := match h_ids h !! cls with Some _ => h | None => _ end).
    assert (Eids : default ([], 0%N) (h_ids h1 !! cls) = default ([], 0%N) (h_ids h !! cls)).
    { unfold h1. destruct (h_ids h !! cls) eqn:E; [by rewrite E|]. simpl. by rewrite lookup_insert. }
    assert (Eoth : ∀ k, k ≠ cls → h_ids h1 !! k = h_ids h !! k).
    { intros k Hk. unfold h1. destruct (h_ids h !! cls) eqn:E; [done|]. simpl. by rewrite lookup_insert_ne. }
    assert (Esome : is_Some (h_ids h1 !! cls)).
    { unfold h1. destruct (h_ids h !! cls) eqn:E; [by rewrite E|]. simpl. rewrite lookup_insert. eauto. }
    assert (∃ m', h1 = h <| h_ids := m' |>) as [m1 Eh1].
    { unfold h1. destruct (h_ids h !! _); [exists (h_ids h); by destruct h|eexists; reflexivity]. }
    clearbody h1. destruct (default ([], 0%N) (h_ids h !! cls)) as [used c] eqn:Ed. rewrite bind_gets Eids.
    assert (Hused : ids_used h (so_class o) = used) by (unfold ids_used; fold cls; by rewrite Ed).
    assert (Hcls : ∀ c', c' ≠ so_class o → sclass_name c' ≠ cls) by (intros c' Hc' E; by apply Hc', sclass_name_inj).
    destruct (bool_decide (so_id o = None) || bool_decide (pystr_opt (so_id o) ∈ used)) eqn:Eb.
    - destruct (free_id_total used c) as [n Hn]. rewrite Hn. simpl. unfold bind, ret, modify. simpl.
      eexists. split; [reflexivity|]. rewrite Eh1. simpl. rewrite ltm_insert. simpl. split.
      + exists (PStr (pretty n)). simpl. split; [done|]. fold o. rewrite Hused. split; [by apply (free_id_Some _ _ _ _ Hn)|].
        split; [unfold ids_used; simpl; fold cls; by rewrite lookup_alter lookup_insert|]. split; [|eauto].
        intros j Hj Hni. exfalso. rewrite Hj /= bool_decide_false // in Eb.
      + fold o. intros c' Hc'. unfold ids_used. simpl. apply Hcls in Hc'. rewrite lookup_alter_ne // lookup_insert_ne //.
        specialize (Eoth _ Hc'). by rewrite Eh1 in Eoth; simpl in Eoth; rewrite Eoth.
      + eexists _, _. reflexivity.
    - apply orb_false_elim in Eb as [Eb1 Eb2]. apply bool_decide_eq_false in Eb1, Eb2.
      destruct (so_id o) as [i|] eqn:Ei; [|done]. simpl in Eb2. simpl. unfold bind, ret, gets, modify. simpl.
      eexists. split; [reflexivity|]. rewrite Eh1. simpl. fold o. rewrite Ei. simpl. split.
      + exists i. fold o. simpl. split.
        { rewrite insert_id //. rewrite (exists_at _ _ _ Hr). fold o. f_equal. rewrite -Ei. by destruct o. }
        rewrite Hused. split; [done|]. split.
        { unfold ids_used. simpl. fold cls. rewrite lookup_alter. rewrite Eh1 /= in Eids, Esome. destruct Esome as [t Et].
          rewrite Et in Eids |- *. simpl in Eids |- *. by rewrite Eids. }
        split; [intros j Hj _; congruence|]. intros [?|(j & Hj & Hin)]; [congruence|]. assert (j = i) by congruence. by subst.
      + fold o. intros c' Hc'. unfold ids_used. simpl. apply Hcls in Hc'. rewrite lookup_alter_ne //.
        specialize (Eoth _ Hc'). by rewrite Eh1 in Eoth; simpl in Eoth; rewrite Eoth.
      + exists (h_obj h). eexists. by destruct h.
  Qed.

  (** a set of objects with recorded, pairwise different ids *)
  Record ids_ok (P : ref → Prop) h : Prop := {
    io_ex : ∀ o, P o → exists_in h_obj h o;
    io_used : ∀ o, P o → ∃ i, so_id (h_obj h !!! o) = Some i ∧ pystr i ∈ ids_used h (so_class (h_obj h !!! o));
    io_distinct : ∀ o1 o2 i1 i2, P o1 → P o2 → o1 ≠ o2 → so_class (h_obj h !!! o1) = so_class (h_obj h !!! o2) →
      so_id (h_obj h !!! o1) = Some i1 → so_id (h_obj h !!! o2) = Some i2 → pystr i1 ≠ pystr i2
  }.
  Lemma update_id_ok P r h h' : exists_in h_obj h r → id_assigned r h h' → ids_ok P h → ids_ok (λ o, P o ∨ o = r) h'.
  Proof.
    intros Hr [(i & Eo & Hni & Eu & _ & _) Hoth _] [Hex Hused Hdis].
    assert (Er : h_obj h' !!! r = (h_obj h !!! r) <| so_id := Some i |>) by by rewrite Eo ltm_insert.
    assert (Ene : ∀ o, o ≠ r → h_obj h' !!! o = h_obj h !!! o) by (intros; by rewrite Eo ltm_insert_ne).
    assert (Hsub : ∀ c x, x ∈ ids_used h c → x ∈ ids_used h' c).
    { intros c x Hx. destruct (decide (c = so_class (h_obj h !!! r))) as [->|Hc]; [rewrite Eu; apply elem_of_app; by left|by rewrite Hoth]. }
    split.
    - intros o [Ho| ->]; unfold exists_in; rewrite Eo; [|rewrite lookup_insert; eauto].
      destruct (decide (r = o)) as [->|]; [rewrite lookup_insert; eauto|rewrite lookup_insert_ne //; by apply Hex].
    - intros o Ho. destruct (decide (o = r)) as [->|Hne].
      + rewrite Er. simpl. exists i. split; [done|]. rewrite Eu. apply elem_of_app. right. by apply elem_of_list_singleton.
      + destruct Ho as [Ho| ->]; [|done]. rewrite Ene //. destruct (Hused o Ho) as (j & Hj & Hin). exists j. split; [done|]. by apply Hsub.
    - intros o1 o2 i1 i2 H1 H2 Hne.
      assert (Hcase : ∀ o j, o ≠ r → P o → so_class (h_obj h !!! o) = so_class (h_obj h !!! r) → so_id (h_obj h !!! o) = Some j → pystr j ≠ pystr i).
      { intros o j _ Ho Hc Hj E. destruct (Hused o Ho) as (j' & Hj' & Hin). apply Hni. rewrite -E -Hc. congruence. }
      destruct (decide (o1 = r)) as [->|Hn1].
      + rewrite Er Ene //. simpl. destruct H2 as [H2|?]; [|congruence]. intros Hc [= <-] Hi2. apply not_eq_sym. eauto.
      + destruct H1 as [H1|?]; [|done]. rewrite (Ene o1 Hn1). destruct (decide (o2 = r)) as [->|Hn2].
        * rewrite Er. simpl. intros Hc Hi1 [= <-]. eauto.
        * destruct H2 as [H2|?]; [|done]. rewrite Ene //. eauto.
  Qed.
  Lemma update_ids_ok os : ∀ P h, Forall (exists_in h_obj h) os → ids_ok P h →
    ∃ h', for_each update_id os h = (Ok tt, h') ∧ ids_ok (λ o, P o ∨ o ∈ os) h' ∧ (∃ m m', h' = h <| h_obj := m |> <| h_ids := m' |>) ∧
      (∀ o, o ∉ os → h_obj h' !!! o = h_obj h !!! o) ∧
      (∀ o, h_obj h' !!! o = (h_obj h !!! o) <| so_id := so_id (h_obj h' !!! o) |>).
  Proof.
    induction os as [|r os IH]; intros P h Hex Hok.
    - exists h. split; [done|]. split.
      { destruct Hok as [A B C]. split; [intros o [?|?%elem_of_nil]; by eauto..|].
        intros o1 o2 i1 i2 [?|?%elem_of_nil] [?|?%elem_of_nil]; by eauto. }
      split; [exists (h_obj h), (h_ids h); by destruct h|]. split; [done|]. intros o. by destruct (h_obj h !!! o).
    - apply Forall_cons in Hex as [Hr Hex]. destruct (update_id_spec r h Hr) as (h1 & E1 & A).
      pose proof (update_id_ok P r h h1 Hr A Hok) as Hok1. pose proof A as [(i & Eo & _) _ (m & m' & Eh1)].
      assert (Hex1 : Forall (exists_in h_obj h1) os).
      { eapply Forall_impl; [exact Hex|]. intros o Ho. unfold exists_in. rewrite Eo. by apply insert_exists. }
      destruct (IH _ h1 Hex1 Hok1) as (h2 & E2 & Hok2 & (m2 & m2' & Eh2) & Hno & Hid).
      exists h2. simpl. rewrite (bind_run _ _ _ _ _ E1). split; [done|]. split.
      { destruct Hok2 as [X Y Z]. assert (Hs : ∀ o, P o ∨ o ∈ r :: os → (P o ∨ o = r) ∨ o ∈ os) by (intros o; rewrite elem_of_cons; tauto).
        split; [intros o Ho; by apply X, Hs|intros o Ho; by apply Y, Hs|]. intros o1 o2 i1 i2 Ho1 Ho2. apply Z; by apply Hs. }
      split; [subst h1 h2; eexists _, _; reflexivity|]. split.
      + intros o. rewrite not_elem_of_cons. intros [Hne Hos]. rewrite Hno // Eo ltm_insert_ne //.
      + intros o. rewrite {1}Hid Eo. destruct (decide (r = o)) as [->|Hne]; [by rewrite ltm_insert|by rewrite ltm_insert_ne].
  Qed.
End Ids.
