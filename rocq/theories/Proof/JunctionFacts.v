(** create_junction *)
From Coq Require Import ssreflect.
From Verif.Model Require Import Api.
From Verif.Spec Require Import SpecState SpecHistory SpecLanes SpecGenerate SpecJunction.
From Verif.Proof Require Import Monad DictFacts PlanViewFacts NetFrame Reach Steps History Invariants LaneLinks Generate.
Local Open Scope general_if_scope.

Section Junction.
  Context {F : Type} `{!Num F}.
  Implicit Types (h : heap F) (o : road).

  (** [h] plus a junction at [h_next h] with the connections [cs] *)
  Definition jst h (name : string) (id : pyid) (cs : list connection) : heap F :=
    h <| h_conn := ins_from (S (h_next h)) cs (h_conn h) |>
      <| h_junc := <[h_next h := mkJunction name id (seq (S (h_next h)) (length cs)) (Z.of_nat (length cs))]> (h_junc h) |>
      <| h_next := S (h_next h) + length cs |>.

  Lemma get_road_by_id_run (s : heap F) id o : ∀ roads, road_with_id s roads id = Some o →
    ∃ r, get_road_by_id roads id s = (Ok (Some r), s) ∧ h_road s !!! r = o.
  Proof.
    unfold road_with_id. induction roads as [|r roads IH]; [done|]. cbn [map]. rewrite filter_cons. intros E.
    cbn [get_road_by_id]. unfold get_road. rewrite bind_gets. destruct (decide (rd_id (h_road s !!! r) = id)) as [Hid|Hid].
    - injection E as E. exists r. rewrite bool_decide_true //.
    - rewrite bool_decide_false //. by apply IH.
  Qed.

  Lemma junction_links_loop c ty sg fo to (s : heap F) x : ∀ n k m, m !! c = Some x →
    for_each (λ i : nat, let! sg := or_raise TypeError (Some sg) in conn_add_lanelink c (ty * Z.of_nat i + fo)%Z (ty * sg * Z.of_nat i + to)%Z) (seq k n) (s <| h_conn := m |>) =
    (Ok tt, s <| h_conn := <[c := x <| cn_links := cn_links x ++ map (λ i, (ty * Z.of_nat i + fo, ty * sg * Z.of_nat i + to)%Z) (seq k n) |>]> m |>).
  Proof.
    intros n. revert x. induction n as [|n IH]; intros x k m Hx.
    - simpl. unfold ret. rewrite app_nil_r insert_id; [rewrite Hx; by destruct x|done].
    - cbn [seq for_each map]. erewrite bind_run; last first.
      { cbn [or_raise]. rewrite bind_ret. unfold conn_add_lanelink, upd_conn, modify. simpl. rewrite (lookup_total_correct _ _ _ Hx). reflexivity. }
      pose (m1 := <[c := x <| cn_links := cn_links x ++ [(ty * Z.of_nat k + fo, ty * sg * Z.of_nat k + to)%Z] |>]> m).
      etrans; [exact (IH _ (S k) m1 (lookup_insert _ _ _))|]. unfold m1. rewrite insert_insert. simpl. by rewrite -app_assoc.
  Qed.

  Lemma junction_connection_run h nm id cs roads o k cp idx fo to sec o' t sg z :
    road_with_id h roads (lk_id k) = Some o' → get_related_lanesection o o' = Ok (t, Some sg, z) → py_index (sections h o) idx = Some sec →
    junction_connection (h_next h) roads o k cp idx fo to (jst h nm id cs) =
    (Ok tt, jst h nm id (cs ++ [mkConnection (lk_id k) (rd_id o) cp (Some (PInt (Z.of_nat (length cs))))
      (map (λ i, (-1 * Z.of_nat i + fo, -1 * sg * Z.of_nat i + to)%Z) (seq 1 (lane_counts h sec).2) ++
       map (λ i, (1 * Z.of_nat i + fo, 1 * sg * Z.of_nat i + to)%Z) (seq 1 (lane_counts h sec).1))])).
  Proof.
    intros Hr Hg Hs. unfold junction_connection. set (c := S (h_next h) + length cs).
    erewrite bind_run; [|done]. cbv beta. simpl h_next. fold c.
    set (s1 := jst h nm id cs <| h_next := S c |>).
    set (x0 := mkConnection (lk_id k) (rd_id o) cp None []).
    change (_ <| h_conn := _ |> <| h_next := _ |>) with (s1 <| h_conn := <[c := x0]> (h_conn s1) |>).
    set (s2 := s1 <| h_conn := <[c := x0]> (h_conn s1) |>).
    destruct (get_road_by_id_run s2 (lk_id k) o' roads Hr) as (r & E & Er). rewrite (bind_run _ _ _ _ _ E). cbn [or_raise]. rewrite bind_ret.
    unfold get_road. rewrite bind_gets Er Hg bind_lift_ok.
    assert (Esec : road_section o (Some idx) s2 = (Ok (h_sec h !!! sec), s2)).
    { unfold road_section, get_lanes. rewrite bind_gets. change (h_lanes s2 !!! rd_lanes o) with (sections h o). unfold py_index_opt. rewrite Hs. done. }
    rewrite (bind_run _ _ _ _ _ Esec). unfold create_junction_links. cbv beta iota.
    rewrite (bind_run _ _ _ _ _ (junction_links_loop c (-1) sg fo to s1 x0 _ 1 _ (lookup_insert _ _ _))). rewrite insert_insert.
    rewrite (bind_run _ _ _ _ _ (junction_links_loop c 1 sg fo to s1 _ _ 1 _ (lookup_insert _ _ _))). rewrite insert_insert.
    unfold add_connection, get_junc. rewrite bind_gets. cbn. unfold conn_set_id, upd_conn, upd_junc, bind, modify. cbn.
    rewrite !ltm_insert !insert_insert. cbn.
    unfold jst. rewrite ins_from_app app_length seq_app. cbn.
    replace (Z.of_nat (length cs + 1)) with (Z.of_nat (length cs) + 1)%Z by lia.
    replace (S (h_next h + (length cs + 1))) with (S (S (h_next h + length cs))) by lia. done.
  Qed.

  Lemma map_seq_S {A} (f : nat → A) k n : map f (seq (S k) n) = map (λ i, f (S i)) (seq k n).
  Proof. by rewrite -seq_shift map_map. Qed.
  Lemma junction_links_as h sec (b : bool) fo to : junction_links h sec b fo to =
    map (λ i, (-1 * Z.of_nat i + fo, -1 * (if b then -1 else 1) * Z.of_nat i + to)%Z) (seq 1 (lane_counts h sec).2) ++
    map (λ i, (1 * Z.of_nat i + fo, 1 * (if b then -1 else 1) * Z.of_nat i + to)%Z) (seq 1 (lane_counts h sec).1).
  Proof.
    unfold junction_links, junction_places. rewrite map_app !map_map !map_seq_S. f_equal; apply map_ext; intros i; f_equal; cbn [lane_number]; destruct b; lia.
  Qed.

  (** the facts that [joins] gives about the related lane section *)
  Lemma joins_related o o' kind cp off : joins o o' kind cp off → ∃ z,
    get_related_lanesection o o' = Ok (Some kind, Some (if opposed kind cp then -1 else 1)%Z, Some z).
  Proof.
    intros [L cp' T1 T2 HL Hid Hc Hn|L cp' T1 T2 HL Hid Hc Hp Hn].
    - exists 0%Z. unfold get_related_lanesection. rewrite T2. unfold related_base. rewrite HL Hid Hc.
      rewrite (bool_decide_true (rd_id o' = rd_id o')) //.
      replace (bool_decide (Some cp' = Some cp_start)) with (opposed "predecessor" cp').
      + destruct (rd_succ o) as [S|] eqn:ES; [|done]. rewrite bool_decide_false //. by apply Hn.
      + unfold opposed. apply bool_decide_ext. split; [intros [[_ ->]|[? _]]; done|intros [= ->]; by left].
    - exists (-1)%Z. unfold get_related_lanesection. rewrite T2. unfold related_base. rewrite HL Hid Hc.
      rewrite (bool_decide_true (rd_id o' = rd_id o')) //.
      replace (if bool_decide (Some cp' = Some cp_start) then 1%Z else (-1)%Z) with (if opposed "successor" cp' then (-1)%Z else 1%Z); [done|].
      unfold opposed. by destruct cp'.
  Qed.

  (** the connection for one end of a connecting road *)
  Definition end_connection h o (kind : string) (o' : road) (cp : ContactPoint) (sec : ref) (i : nat) : connection :=
    if bool_decide (kind = "predecessor")
    then mkConnection (rd_id o') (rd_id o) cp_start (Some (PInt (Z.of_nat i))) (junction_links h sec (opposed kind cp) (rd_off_pred o) 0)
    else mkConnection (rd_id o') (rd_id o) cp_end (Some (PInt (Z.of_nat i))) (junction_links h sec (opposed kind cp) 0 (rd_off_suc o)).

  Lemma junction_loop h nm id roads : ∀ jrs cs, (∀ r, r ∈ jrs → well_joined h roads (h_road h !!! r)) →
    ∃ new, for_each (λ r,
      let! jr := get_road r in
      let! ks := or_raise AttributeError (rd_succ jr) in
      junction_connection (h_next h) roads jr ks cp_end (-1) 0 (rd_off_suc jr) ;;
      let! kp := or_raise AttributeError (rd_pred jr) in
      junction_connection (h_next h) roads jr kp cp_start 0 (rd_off_pred jr) 0) jrs (jst h nm id cs) = (Ok tt, jst h nm id (cs ++ new)) ∧
      length new = 2 * length jrs ∧
      ∀ k r, jrs !! k = Some r → let o := h_road h !!! r in
        (∀ o' cp sec, joins o o' "successor" cp (rd_off_suc o) → last_section h o = Some sec →
          new !! (2 * k) = Some (end_connection h o "successor" o' cp sec (length cs + 2 * k))) ∧
        (∀ o' cp sec, joins o o' "predecessor" cp (rd_off_pred o) → first_section h o = Some sec →
          new !! (2 * k + 1) = Some (end_connection h o "predecessor" o' cp sec (length cs + 2 * k + 1))).
  Proof.
    induction jrs as [|r jrs IH]; intros cs Hw.
    - exists []. rewrite app_nil_r. done.
    - destruct (Hw r ltac:(by left)) as ((os & cps & Ros & Js) & (op & cpp & Rop & Jp) & Hsec).
      set (o := h_road h !!! r) in *.
      destruct (joins_related _ _ _ _ _ Js) as [zs Gs]. destruct (joins_related _ _ _ _ _ Jp) as [zp Gp].
      destruct (head (sections h o)) as [s0|] eqn:E0; [|by destruct (sections h o)].
      destruct (last (sections h o)) as [s1|] eqn:E1; [|by apply last_None in E1].
      assert (∃ Ls, rd_succ o = Some Ls ∧ lk_id Ls = rd_id os ∧ lk_contact Ls = Some cps) as (Ls & Els & Ils & Cls) by (inversion Js; subst; eauto).
      assert (∃ Lp, rd_pred o = Some Lp ∧ lk_id Lp = rd_id op ∧ lk_contact Lp = Some cpp) as (Lp & Elp & Ilp & Clp) by (inversion Jp; subst; eauto).
      rewrite -Ils in Ros. rewrite -Ilp in Rop.
      set (c1 := end_connection h o "successor" os cps s1 (length cs)).
      set (c2 := end_connection h o "predecessor" op cpp s0 (length cs + 1)).
      destruct (IH ((cs ++ [c1]) ++ [c2]) ltac:(intros r' Hr'; apply Hw; by right)) as (new & E & Hl & Hn).
      exists (c1 :: c2 :: new). split_and!.
      + cbn [for_each]. erewrite bind_run; last first.
        { unfold get_road. rewrite bind_gets. change (h_road (jst h nm id cs) !!! r) with o. rewrite Els. cbn [or_raise]. rewrite bind_ret.
          rewrite (bind_run _ _ _ _ _ (junction_connection_run h nm id cs roads o Ls cp_end (-1)%Z 0 (rd_off_suc o) s1 os _ _ _ Ros Gs ltac:(by rewrite py_index_last))).
          rewrite Elp. cbn [or_raise]. rewrite bind_ret.
          apply (junction_connection_run h nm id _ roads o Lp cp_start 0%Z (rd_off_pred o) 0 s0 op _ _ _ Rop Gp ltac:(by rewrite py_index_0)). }
        rewrite app_length. cbn [length]. rewrite -!junction_links_as Ils Ilp.
        change (mkConnection (rd_id os) (rd_id o) cp_end _ _) with c1. change (mkConnection (rd_id op) (rd_id o) cp_start _ _) with c2.
        rewrite E -!app_assoc. done.
      + simpl. rewrite Hl. lia.
      + intros [|k] r' Hk.
        * injection Hk as <-. fold o. cbv zeta. split.
          -- intros o' cp sec J Hs. rewrite Nat.add_0_r. cbn. f_equal. unfold c1.
             assert (cp = cps ∧ rd_id o' = rd_id os) as [-> Ei]. { inversion J; subst; try discriminate. split; congruence. }
             assert (sec = s1) as -> by (unfold last_section in Hs; congruence). unfold end_connection. cbn. by rewrite Ei.
          -- intros o' cp sec J Hs. rewrite Nat.add_0_r. cbn. f_equal. unfold c2.
             assert (cp = cpp ∧ rd_id o' = rd_id op) as [-> Ei]. { inversion J; subst; try discriminate. split; congruence. }
             assert (sec = s0) as -> by (unfold first_section in Hs; congruence). unfold end_connection. cbn. by rewrite Ei.
        * cbn in Hk. destruct (Hn k r' Hk) as [N1 N2]. rewrite !app_length in N1, N2. cbn [length] in N1, N2. cbv zeta.
          replace (2 * S k) with (S (S (2 * k))) by lia. split; intros o' cp sec J Hs.
          -- cbn [lookup list_lookup]. rewrite (N1 o' cp sec J Hs). do 2 f_equal. lia.
          -- replace (S (S (2 * k)) + 1) with (S (S (2 * k + 1))) by lia. cbn [lookup list_lookup]. rewrite (N2 o' cp sec J Hs). do 2 f_equal. lia.
  Qed.
End Junction.
