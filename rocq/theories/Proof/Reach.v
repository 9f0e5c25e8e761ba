(** Every API call is a sequence of a few kinds of atomic changes, made on existing objects; no reachable state
    has a dangling reference. *)
From Coq Require Import ssreflect.
From Verif.Model Require Import Api.
From Verif.Spec Require Import SpecChain SpecState SpecKeeps.
From Verif.Proof Require Import Monad DictFacts PlanViewFacts.
Local Open Scope general_if_scope.

Section Reach.
  Context {F : Type} `{!Num F}.
  Local Arguments geom_end : simpl never.
  Local Arguments geom_start : simpl never.
  Implicit Types (h : heap F).

  (** the dimensions and the repeat entries of an object *)
  Definition repeat_keys : list string := ["length"; "distance"; "s"; "tStart"; "tEnd"; "heightStart"; "heightEnd"; "zOffsetStart"; "zOffsetEnd"].
  Definition optional_keys : list string := ["widthStart"; "widthEnd"; "lengthStart"; "lengthEnd"; "radiusStart"; "radiusEnd"].
  Record obj_wf (o : sobj F) : Prop := {
    ow_dims : so_class o = CObject → match so_radius o with
      | Some _ => so_width o = None ∧ so_length o = None
      | None => is_Some (so_width o) ↔ is_Some (so_length o)
      end;
    ow_repeats : ∀ d, d ∈ so_repeats o → ∃ vs rest, length vs = 9 ∧ sublist (map fst rest) optional_keys ∧ d = zip repeat_keys vs ++ rest;
    ow_numbers : ∀ d k v, d ∈ so_repeats o → (k, v) ∈ d → (∃ x : F, v = fstr x) ∨ (k ∈ ["heightStart"; "heightEnd"] ∧ v = "None")
  }.
  (** an object is moved, or gets repeat entries *)
  Definition obj_moves (o o' : sobj F) : Prop :=
    ∃ s t hd rp, o' = o <| so_s := s |> <| so_t := t |> <| so_hdg := hd |> <| so_repeats := so_repeats o ++ rp |>.
  (** ** The atomic changes *)
  Inductive astep (h : heap F) : heap F → Prop :=
  | as_geom_new x : astep h (new_geom x h).2
  | as_geom g o : exists_in h_geom h g → evolves (h_geom h !!! g) o → astep h (upd_geom g (λ _, o) h).2
  | as_pv_new p : pv_raw p = [] → pv_geoms p = [] → astep h (new_pv p h).2
  | as_pv pv f : exists_in h_pv h pv → pv_refs_ok h (f (h_pv h !!! pv)) →
      pv_keeps (h_pv h !!! pv) (f (h_pv h !!! pv)) → astep h (upd_pv pv f h).2
  | as_lane_new ty a b c d s : astep h (lane_ctor ty a b c d s h).2
  | as_lane_link l ty id : exists_in h_lane h l → astep h (lane_add_link l ty id h).2
  | as_lane_mark l m : exists_in h_lane h l → astep h (lane_add_roadmark l m h).2
  | as_sec_new s c : exists_in h_lane h c → astep h (lanesection_ctor s c h).2
  | as_left sec l : exists_in h_sec h sec → exists_in h_lane h l → astep h (add_left_lane sec l h).2
  | as_right sec l : exists_in h_sec h sec → exists_in h_lane h l → astep h (add_right_lane sec l h).2
  | as_lanes_new : astep h (lanes_ctor h).2
  | as_lanes_add ls sec : exists_in h_lanes h ls → exists_in h_sec h sec → astep h (upd_lanes ls (λ o, o ++ [sec]) h).2
  | as_linker_new : astep h (linker_ctor h).2
  | as_linker_add k p s c : exists_in h_linker h k → exists_in h_lane h p → exists_in h_lane h s →
      astep h (linker_add_link k p s c h).2
  | as_linker_use k i : exists_in h_linker h k → astep h (use_lanelink k i h).2
  | as_conn_new i c cp id : astep h (connection_ctor i c cp id h).2
  | as_conn_link c i o : exists_in h_conn h c → astep h (conn_add_lanelink c i o h).2
  | as_junc_new n id : astep h (junction_ctor n id h).2
  | as_conn_add j c : exists_in h_junc h j → exists_in h_conn h c → astep h (add_connection j c h).2
  | as_obj_new x : obj_wf x ∨ (∃ r, x = h_obj h !!! r) → astep h (new_obj x h).2
  | as_obj r f : exists_in h_obj h r → (obj_wf (h_obj h !!! r) → obj_wf (f (h_obj h !!! r))) → obj_moves (h_obj h !!! r) (f (h_obj h !!! r)) → astep h (upd_obj r f h).2
  | as_road_new id pv ls ty n ru : exists_in h_pv h pv → exists_in h_lanes h ls → astep h (road_ctor id pv ls ty n ru h).2
  | as_succ r et id cp off : exists_in h_road h r → astep h (add_successor r et id cp off h).2
  | as_pred r et id cp off : exists_in h_road h r → astep h (add_predecessor r et id cp off h).2
  | as_neighbor r et id dir : exists_in h_road h r → astep h (add_neighbor r et id dir h).2
  | as_objects r os : exists_in h_road h r → Forall (exists_in h_obj h) os → astep h (add_object r os h).2
  | as_signals r os : exists_in h_road h r → Forall (exists_in h_obj h) os → astep h (add_signal r os h).2
  | as_odr_new n : astep h (odr_ctor n h).2
  | as_odr_road d r : exists_in h_odr h d → exists_in h_road h r → astep h (add_road d r h).2
  | as_odr_junc d j : exists_in h_odr h d → exists_in h_junc h j → astep h (add_junction d j h).2.

  (** ** References stay valid *)
  Record ext (h h' : heap F) : Prop := {
    e_geom : ∀ r, exists_in h_geom h r → exists_in h_geom h' r;
    e_pv : ∀ r, exists_in h_pv h r → exists_in h_pv h' r;
    e_lane : ∀ r, exists_in h_lane h r → exists_in h_lane h' r;
    e_sec : ∀ r, exists_in h_sec h r → exists_in h_sec h' r;
    e_lanes : ∀ r, exists_in h_lanes h r → exists_in h_lanes h' r;
    e_linker : ∀ r, exists_in h_linker h r → exists_in h_linker h' r;
    e_conn : ∀ r, exists_in h_conn h r → exists_in h_conn h' r;
    e_junc : ∀ r, exists_in h_junc h r → exists_in h_junc h' r;
    e_obj : ∀ r, exists_in h_obj h r → exists_in h_obj h' r;
    e_road : ∀ r, exists_in h_road h r → exists_in h_road h' r;
    e_odr : ∀ r, exists_in h_odr h r → exists_in h_odr h' r;
    e_next : h_next h ≤ h_next h'
  }.
  #[global] Instance ext_preorder : PreOrder ext.
  Proof. split; [intros h; split; auto|intros h1 h2 h3 A B; destruct A, B; split; eauto; lia]. Qed.

  Lemma insert_exists {V} (m : gmap nat V) k v r : is_Some (m !! r) → is_Some (<[k:=v]> m !! r).
  Proof. intros Hr. destruct (decide (k = r)) as [->|]; [rewrite lookup_insert; eauto|by rewrite lookup_insert_ne]. Qed.

  Ltac ext_leaf := split; simpl; intros; unfold exists_in in *; simpl; auto using insert_exists; lia.

  Lemma ext_update_id r : Pres ext (update_id r).
  Proof.
    intros h. unfold update_id. apply pres_bind; [apply _|apply pres_gets, _|intros o].
    apply pres_bind; [apply _| |intros _].
    { apply pres_modify. intros s. destruct (h_ids s !! _); [reflexivity|ext_leaf]. }
    apply pres_bind; [apply _|apply pres_gets, _|intros [used c]]. apply pres_bind; [apply _| |intros _].
    { destruct (_ || _); [|apply pres_ret, _]. apply pres_bind; [apply _|apply pres_or_raise, _|intros n].
      apply pres_bind; [apply _|apply pres_modify; intros; ext_leaf|intros _]. apply pres_modify. intros. ext_leaf. }
    apply pres_bind; [apply _|apply pres_gets, _|intros o']. apply pres_modify. intros. ext_leaf.
  Qed.

  Lemma mk_link_ok ty id et cp dir : ty ≠ Some "neighbor" → mk_link ty id et cp dir = Ok (mkLink ty id et cp dir).
  Proof. intros H. unfold mk_link. by rewrite bool_decide_false. Qed.

  Ltac px := repeat first
    [ apply ext_update_id | apply pres_ret; apply _ | apply pres_gets; apply _ | apply pres_lift; apply _
    | apply pres_raise; apply _ | apply pres_or_raise; apply _
    | apply pres_for_each; [apply _|intros ??]
    | apply pres_bind; [apply _| |intros ?]
    | apply pres_modify; intros ?; ext_leaf
    | match goal with |- Pres _ (match ?x with _ => _ end) => destruct x end ].

  Lemma astep_ext h h' : astep h h' → ext h h'.
  Proof.
    destruct 1; try (ext_leaf);
      match goal with |- ext _ (?m h).2 => cut (Pres ext m); [intros Hp; apply Hp|] end;
      unfold lane_add_link, lane_add_roadmark, lane_set_id, lanesection_ctor, add_left_lane, add_right_lane, use_lanelink,
        lane_add_link, add_connection, conn_set_id, add_successor, add_predecessor, add_neighbor, add_object, add_signal, add_road,
        get_sec, get_lane, get_linker, get_conn, get_junc, get_road, get_odr, upd_lane, upd_sec, upd_linker, upd_conn, upd_junc, upd_road, upd_odr;
      px; intros ?; ext_leaf.
  Qed.
  Lemma asteps_ext h h' : rtc astep h h' → ext h h'.
  Proof. induction 1 as [|h1 h2 h3 A _ IH]; [reflexivity|]. etrans; [by apply astep_ext|done]. Qed.

  (** ** No dangling references *)
  Lemma pv_refs_mono h h' p : ext h h' → pv_refs_ok h p → pv_refs_ok h' p.
  Proof. intros E [A B]. split; intros; apply (e_geom _ _ E); auto. Qed.
  Lemma sec_refs_mono h h' p : ext h h' → sec_refs_ok h p → sec_refs_ok h' p.
  Proof. intros E [A B]. split; intros; apply (e_lane _ _ E); auto. Qed.
  Lemma lanes_refs_mono h h' p : ext h h' → lanes_refs_ok h p → lanes_refs_ok h' p.
  Proof. intros E A r Hr. apply (e_sec _ _ E); auto. Qed.
  Lemma linker_refs_mono h h' p : ext h h' → linker_refs_ok h p → linker_refs_ok h' p.
  Proof. intros E A r Hr. destruct (A r Hr). split; apply (e_lane _ _ E); auto. Qed.
  Lemma junc_refs_mono h h' p : ext h h' → junc_refs_ok h p → junc_refs_ok h' p.
  Proof. intros E A r Hr. apply (e_conn _ _ E); auto. Qed.
  Lemma road_refs_mono h h' p : ext h h' → road_refs_ok h p → road_refs_ok h' p.
  Proof. intros E (A & B & C). split_and!; [by apply (e_pv _ _ E)|by apply (e_lanes _ _ E)|]. intros. apply (e_obj _ _ E); auto. Qed.
  Lemma odr_refs_mono h h' p : ext h h' → odr_refs_ok h p → odr_refs_ok h' p.
  Proof. intros E [A B]. split; intros; [eapply (e_road _ _ E)|apply (e_junc _ _ E)]; eauto. Qed.

  Definition changed {V} (f : heap F → gmap nat V) h h' (P : V → Prop) : Prop :=
    ∀ r v, f h' !! r = Some v → f h !! r = Some v ∨ (r < h_next h' ∧ P v).
  Lemma changed_same {V} (f : heap F → gmap nat V) h h' (P : V → Prop) : f h' = f h → changed f h h' P.
  Proof. intros E r v. rewrite E. by left. Qed.
  Lemma changed_ins {V} (f : heap F → gmap nat V) h h' (P : V → Prop) k x :
    f h' = <[k:=x]> (f h) → k < h_next h' → P x → changed f h h' P.
  Proof.
    intros E Hk Hx r v. rewrite E. intros [[<- <-]|[_ ?]]%lookup_insert_Some; [by right|by left].
  Qed.

  Lemma nd_step h h' : ext h h' → no_dangling h →
    changed h_geom h h' (λ _, True) → changed h_pv h h' (pv_refs_ok h') → changed h_lane h h' (λ _, True) →
    changed h_sec h h' (sec_refs_ok h') → changed h_lanes h h' (lanes_refs_ok h') → changed h_linker h h' (linker_refs_ok h') →
    changed h_conn h h' (λ _, True) → changed h_junc h h' (junc_refs_ok h') → changed h_obj h h' (λ _, True) →
    changed h_road h h' (road_refs_ok h') → changed h_odr h h' (odr_refs_ok h') → no_dangling h'.
  Proof.
    intros E N. destruct N. pose proof (e_next _ _ E). intros.
    assert (Hlt : ∀ {V} (f : heap F → gmap nat V) P P', stored f h P → changed f h h' P' → (∀ v, P v → P' v) → stored f h' P').
    { intros V f P P' Hs Hc Hp r v Hr. destruct (Hc r v Hr) as [Hr'|?]; [|done]. destruct (Hs r v Hr'). split; [lia|auto]. }
    split; (eapply Hlt; [eassumption|eassumption|]); intros v; [done|..];
      eauto using pv_refs_mono, sec_refs_mono, lanes_refs_mono, linker_refs_mono, junc_refs_mono, road_refs_mono, odr_refs_mono.
  Qed.

  Lemma exists_lt {V} (f : heap F → gmap nat V) h P r : stored f h P → exists_in f h r → r < h_next h.
  Proof. intros Hs [v Hv]. by eapply Hs. Qed.
  Lemma exists_at {V} `{!Inhabited V} (f : heap F → gmap nat V) h r : exists_in f h r → f h !! r = Some (f h !!! r).
  Proof. intros [v Hv]. by rewrite (lookup_total_correct _ _ _ Hv). Qed.

  (** what follows for the objects reached from existing ones *)
  Lemma nd_pv_raw h pv g : no_dangling h → exists_in h_pv h pv → g ∈ pv_raw (h_pv h !!! pv) → exists_in h_geom h g.
  Proof. intros N Hp. by apply (nd_pv _ N _ _ (exists_at _ _ _ Hp)). Qed.
  Lemma nd_sec_left h s l : no_dangling h → exists_in h_sec h s → l ∈ ls_left (h_sec h !!! s) → exists_in h_lane h l.
  Proof. intros N Hp Hl. apply (nd_sec _ N _ _ (exists_at _ _ _ Hp)). apply elem_of_app. by left. Qed.
  Lemma nd_sec_right h s l : no_dangling h → exists_in h_sec h s → l ∈ ls_right (h_sec h !!! s) → exists_in h_lane h l.
  Proof. intros N Hp Hl. apply (nd_sec _ N _ _ (exists_at _ _ _ Hp)). apply elem_of_app. by right. Qed.
  Lemma nd_lanes_sec h ls s : no_dangling h → exists_in h_lanes h ls → s ∈ h_lanes h !!! ls → exists_in h_sec h s.
  Proof. intros N Hp Hl. by apply (nd_lanes _ N _ _ (exists_at _ _ _ Hp)). Qed.
  Lemma nd_road_pv h r : no_dangling h → exists_in h_road h r → exists_in h_pv h (rd_planview (h_road h !!! r)).
  Proof. intros N Hp. apply (nd_road _ N _ _ (exists_at _ _ _ Hp)). Qed.
  Lemma nd_road_lanes h r : no_dangling h → exists_in h_road h r → exists_in h_lanes h (rd_lanes (h_road h !!! r)).
  Proof. intros N Hp. apply (nd_road _ N _ _ (exists_at _ _ _ Hp)). Qed.
  Lemma nd_odr_road h d k r : no_dangling h → exists_in h_odr h d → dict_get (od_roads (h_odr h !!! d)) k = Some r → exists_in h_road h r.
  Proof.
    intros N Hp Hl. eapply (nd_odr _ N _ _ (exists_at _ _ _ Hp)). instantiate (1 := k). clear -Hl.
    induction (od_roads _) as [|[k' v] m IH]; [done|]. simpl in Hl. destruct (String.eqb_spec k k') as [->|]; [simplify_eq; by left|].
    right. auto.
  Qed.

  Ltac nd_solve N :=
    refine (nd_step _ _ _ N _ _ _ _ _ _ _ _ _ _ _); [assumption|..];
      first [ by apply changed_same | eapply changed_ins; [simpl; reflexivity| |] | idtac ];
      simpl; try done.

  Definition keeps_nd h h' : Prop := ext h h' ∧ (no_dangling h → no_dangling h').
  #[global] Instance keeps_nd_preorder : PreOrder keeps_nd.
  Proof. split; [intros h; split; [reflexivity|done]|intros h1 h2 h3 [A1 A2] [B1 B2]; split; [by etrans|auto]]. Qed.

  Lemma nd_obj_upd h r x : exists_in h_obj h r → keeps_nd h (h <| h_obj := <[r := x]> (h_obj h) |>).
  Proof.
    intros Hr. assert (E : ext h (h <| h_obj := <[r := x]> (h_obj h) |>)) by ext_leaf. split; [done|]. intros N.
    nd_solve N. by (eapply exists_lt; [|eassumption]; apply N).
  Qed.
  Lemma nd_ids h m : keeps_nd h (h <| h_ids := m |>).
  Proof. assert (E : ext h (h <| h_ids := m |>)) by ext_leaf. split; [done|]. intros N. nd_solve N. Qed.
  Lemma nd_road_upd h r x : exists_in h_road h r → road_refs_ok h x → keeps_nd h (h <| h_road := <[r := x]> (h_road h) |>).
  Proof.
    intros Hr Hx. assert (E : ext h (h <| h_road := <[r := x]> (h_road h) |>)) by ext_leaf. split; [done|]. intros N.
    nd_solve N; by (eapply exists_lt; [|eassumption]; apply N).
  Qed.

  Lemma nd_update_id r h : exists_in h_obj h r → keeps_nd h (update_id r h).2.
  Proof.
    intros Hr. unfold update_id, get_obj. rewrite bind_gets.
    unfold bind at 1, modify at 1.
    set (h1 := match h_ids h !! _ with Some _ => h | None => _ end).
    assert (K1 : keeps_nd h h1) by (unfold h1; destruct (h_ids h !! _); [reflexivity|apply nd_ids]).
    etrans; [exact K1|]. rewrite bind_gets. destruct (default _ _) as [used c].
    assert (Hr1 : exists_in h_obj h1 r) by by apply K1.
    match goal with |- context [bind ?m ?k h1] => set (m1 := m) end.
    assert (K2 : keeps_nd h1 (m1 h1).2).
    { unfold m1. destruct (_ || _); [|reflexivity]. unfold bind, or_raise. destruct (free_id _ _ _); [|reflexivity]. simpl.
      match goal with |- keeps_nd _ (set h_obj _ ?x) => transitivity x; [apply nd_ids|apply (nd_obj_upd x); exact Hr1] end. }
    unfold bind at 1. destruct (m1 h1) as [[?|?] h2]; [|exact K2]. etrans; [exact K2|]. simpl. unfold modify. simpl. apply nd_ids.
  Qed.
  Lemma nd_update_ids os h : Forall (exists_in h_obj h) os → keeps_nd h (for_each update_id os h).2.
  Proof.
    revert h. induction os as [|o os IH]; intros h Hos; simpl; [reflexivity|]. apply Forall_cons in Hos as [Ho Hos].
    pose proof (nd_update_id o h Ho) as K. unfold bind. destruct (update_id o h) as [[[]|e] h1]; simpl in *; [|done].
    etrans; [exact K|]. apply IH. eapply Forall_impl; [exact Hos|]. intros r. apply K.
  Qed.

  Lemma nd_lane_upd h r x : exists_in h_lane h r → keeps_nd h (h <| h_lane := <[r := x]> (h_lane h) |>).
  Proof.
    intros Hr. assert (E : ext h (h <| h_lane := <[r := x]> (h_lane h) |>)) by ext_leaf. split; [done|]. intros N.
    nd_solve N. by (eapply exists_lt; [|eassumption]; apply N).
  Qed.
  Lemma nd_linker_upd h r x : exists_in h_linker h r → linker_refs_ok h x →
    keeps_nd h (h <| h_linker := <[r := x]> (h_linker h) |>).
  Proof.
    intros Hr Hx. assert (E : ext h (h <| h_linker := <[r := x]> (h_linker h) |>)) by ext_leaf. split; [done|]. intros N.
    nd_solve N; by (eapply exists_lt; [|eassumption]; apply N).
  Qed.
  Lemma nd_use_lanelink k i h : exists_in h_linker h k → no_dangling h → no_dangling (use_lanelink k i h).2.
  Proof.
    intros H N. unfold use_lanelink, get_linker. rewrite bind_gets. destruct (_ !! i) as [ll|] eqn:Ei; [|done].
    destruct (ll_used ll); [done|].
    pose proof (nd_linker _ N _ _ (exists_at _ _ _ H)) as [_ Hl].
    destruct (Hl ll) as [Hp Hs]; [by eapply elem_of_list_lookup_2|].
    unfold get_lane, lane_add_link, mk_link. rewrite bind_gets. simpl. unfold bind, modify. simpl.
    match goal with |- no_dangling (set h_linker _ (set h_lane _ ?x)) => set (h1 := x) end.
    assert (K1 : keeps_nd h h1) by by apply nd_lane_upd.
    match goal with |- no_dangling (set h_linker _ ?x) => set (h2 := x) end.
    assert (K2 : keeps_nd h1 h2) by by apply nd_lane_upd, K1.
    apply (nd_linker_upd h2 k); [by apply K2, K1| |by apply K2, K1].
    intros x Hx. apply elem_of_list_lookup in Hx as [j Hj].
    assert (∃ y, y ∈ h_linker h !!! k ∧ ll_pred x = ll_pred y ∧ ll_succ x = ll_succ y) as (y & Hy & -> & ->).
    { destruct (decide (i = j)) as [->|Hne].
      - rewrite list_lookup_alter Ei in Hj. simplify_eq/=.
        exists ll. split; [by eapply elem_of_list_lookup_2|done].
      - rewrite list_lookup_alter_ne // in Hj. exists x. split; [by eapply elem_of_list_lookup_2|done]. }
    destruct (Hl y Hy). split; by apply K2, K1.
  Qed.
  Lemma dict_set_In {V} (m : dict V) k v k' v' : (k', v') ∈ dict_set m k v → (k', v') ∈ m ∨ (k' = k ∧ v' = v).
  Proof.
    induction m as [|[k2 v2] m IH]; simpl.
    - rewrite elem_of_list_singleton. intros ?. simplify_eq. by right.
    - destruct (String.eqb_spec k k2) as [->|]; rewrite !elem_of_cons.
      + intros [?|?]; [simplify_eq; by right|left; by right].
      + intros [?|?]; [left; by left|]. destruct (IH H) as [?|?]; [left; by right|by right].
  Qed.

  Lemma astep_no_dangling h h' : astep h h' → no_dangling h → no_dangling h'.
  Proof.
    intros A N. pose proof (astep_ext _ _ A) as E. destruct A.
    - nd_solve N. lia.
    - nd_solve N. by (eapply exists_lt; [|eassumption]; apply N).
    - nd_solve N; [lia|]. split; intros ? Hin; [rewrite H in Hin|rewrite H0 in Hin]; by apply elem_of_nil in Hin.
    - nd_solve N; by (eapply exists_lt; [|eassumption]; apply N).
    - nd_solve N. lia.
    - revert E. unfold lane_add_link, mk_link. destruct (_ && _); [done|]. simpl. intros E. nd_solve N. by (eapply exists_lt; [|eassumption]; apply N).
    - nd_solve N. by (eapply exists_lt; [|eassumption]; apply N).
    - nd_solve N; [|lia|].
      + assert (c < h_next h) by (by (eapply exists_lt; [|eassumption]; apply N)). lia.
      + split; simpl; [apply (e_lane _ _ E); exact H|]. intros l Hl. by apply elem_of_nil in Hl.
    - nd_solve N; [by (eapply exists_lt; [|eassumption]; apply N)|..].
      eapply (changed_ins _ _ _ _ sec); simpl; [by rewrite insert_insert|by (eapply exists_lt; [|eassumption]; apply N)|].
      rewrite ltm_insert. pose proof (nd_sec _ N _ _ (exists_at _ _ _ H)) as [_ [Hc Hl]].
      split; simpl; [by apply (e_lane _ _ E)|]. intros x. rewrite !elem_of_app elem_of_list_singleton. intros [[?|?]|?].
      + apply (e_lane _ _ E), Hl, elem_of_app. by left.
      + subst. by apply (e_lane _ _ E).
      + apply (e_lane _ _ E), Hl, elem_of_app. by right.
    - nd_solve N; [by (eapply exists_lt; [|eassumption]; apply N)|..].
      eapply (changed_ins _ _ _ _ sec); simpl; [by rewrite insert_insert|by (eapply exists_lt; [|eassumption]; apply N)|].
      rewrite ltm_insert. pose proof (nd_sec _ N _ _ (exists_at _ _ _ H)) as [_ [Hc Hl]].
      split; simpl; [by apply (e_lane _ _ E)|]. intros x. rewrite !elem_of_app elem_of_list_singleton. intros [?|[?|?]].
      + apply (e_lane _ _ E), Hl, elem_of_app. by left.
      + apply (e_lane _ _ E), Hl, elem_of_app. by right.
      + subst. by apply (e_lane _ _ E).
    - nd_solve N; [lia|]. intros l Hl. by apply elem_of_nil in Hl.
    - nd_solve N; [by (eapply exists_lt; [|eassumption]; apply N)|].
      pose proof (nd_lanes _ N _ _ (exists_at _ _ _ H)) as [_ Hl]. intros x. rewrite elem_of_app elem_of_list_singleton.
      intros [?| ->]; apply (e_sec _ _ E); [by apply Hl|done].
    - nd_solve N; [lia|]. intros l Hl. by apply elem_of_nil in Hl.
    - nd_solve N; [by (eapply exists_lt; [|eassumption]; apply N)|].
      pose proof (nd_linker _ N _ _ (exists_at _ _ _ H)) as [_ Hl]. intros x. rewrite elem_of_app elem_of_list_singleton.
      intros [Hx| ->]; [destruct (Hl x Hx)|]; split; apply (e_lane _ _ E); done.
    - clear E. apply nd_use_lanelink; done.
    - nd_solve N. lia.
    - nd_solve N. by (eapply exists_lt; [|eassumption]; apply N).
    - nd_solve N; [lia|]. intros l Hl. by apply elem_of_nil in Hl.
    - nd_solve N; [by (eapply exists_lt; [|eassumption]; apply N)|].
      eapply (changed_ins _ _ _ _ j); simpl; [by rewrite insert_insert|by (eapply exists_lt; [|eassumption]; apply N)|].
      rewrite ltm_insert. pose proof (nd_junc _ N _ _ (exists_at _ _ _ H)) as [_ Hl].
      intros x. simpl. rewrite elem_of_app elem_of_list_singleton. intros [?| ->]; apply (e_conn _ _ E); [by apply Hl|done].
    - nd_solve N. lia.
    - nd_solve N. by (eapply exists_lt; [|eassumption]; apply N).
    - nd_solve N; [lia|]. split_and!; simpl; [by apply (e_pv _ _ E)|by apply (e_lanes _ _ E)|]. intros l Hl. by apply elem_of_nil in Hl.
    - clear E. unfold add_successor, get_road. rewrite bind_gets. destruct (rd_succ _); [done|].
      rewrite mk_link_ok; [done|]. unfold bind, lift. simpl. apply nd_road_upd; [done| |done].
      by destruct (nd_road _ N _ _ (exists_at _ _ _ H)) as [_ ?].
    - clear E. unfold add_predecessor, get_road. rewrite bind_gets. destruct (rd_pred _); [done|].
      rewrite mk_link_ok; [done|]. unfold bind, lift. simpl. apply nd_road_upd; [done| |done].
      by destruct (nd_road _ N _ _ (exists_at _ _ _ H)) as [_ ?].
    - clear E. unfold add_neighbor, get_road. rewrite bind_gets. destruct (decide _); [done|].
      unfold mk_link. destruct (_ && _); [done|]. unfold bind, lift. simpl. rewrite ltm_insert.
      match goal with |- no_dangling (set h_road _ ?x) => set (h1 := x) end.
      assert (K : keeps_nd h h1) by (apply nd_road_upd; [done|]; by destruct (nd_road _ N _ _ (exists_at _ _ _ H)) as [_ ?]).
      apply (nd_road_upd h1 r); [by apply K| |by apply K].
      by destruct (nd_road _ N _ _ (exists_at _ _ _ H)) as [_ ?].
    - clear E. unfold add_object. pose proof (nd_update_ids os h H0) as [E1 K]. unfold bind.
      destruct (for_each update_id os h) as [[[]|e] h1]; simpl in *; [|auto].
      apply (nd_road_upd h1 r); [by apply E1| |auto].
      destruct (nd_road _ (K N) r _ (exists_at _ _ _ (e_road _ _ E1 _ H))) as (_ & ? & ? & Hl). split_and!; [done..|].
      simpl. intros o. rewrite !elem_of_app. intros [[?|?]|?]; [apply Hl, elem_of_app; by left| |apply Hl, elem_of_app; by right].
      apply (e_obj _ _ E1). by eapply Forall_forall in H0.
    - clear E. unfold add_signal. pose proof (nd_update_ids os h H0) as [E1 K]. unfold bind.
      destruct (for_each update_id os h) as [[[]|e] h1]; simpl in *; [|auto].
      apply (nd_road_upd h1 r); [by apply E1| |auto].
      destruct (nd_road _ (K N) r _ (exists_at _ _ _ (e_road _ _ E1 _ H))) as (_ & ? & ? & Hl). split_and!; [done..|].
      simpl. intros o. rewrite !elem_of_app. intros [?|[?|?]]; [apply Hl, elem_of_app; by left|apply Hl, elem_of_app; by right|].
      apply (e_obj _ _ E1). by eapply Forall_forall in H0.
    - nd_solve N; [lia|]. split; simpl; intros * Hl; by apply elem_of_nil in Hl.
    - nd_solve N; [by (eapply exists_lt; [|eassumption]; apply N)|].
      pose proof (nd_odr _ N _ _ (exists_at _ _ _ H)) as [_ [Hl Hj]]. split; simpl; [|intros; apply (e_junc _ _ E); auto].
      intros k x Hin. apply (e_road _ _ E). apply dict_set_In in Hin as [Hin|[_ ->]]; [by eapply Hl|done].
    - nd_solve N; [by (eapply exists_lt; [|eassumption]; apply N)|].
      pose proof (nd_odr _ N _ _ (exists_at _ _ _ H)) as [_ [Hl Hj]]. split; simpl; [intros; apply (e_road _ _ E); eauto|].
      intros x. rewrite elem_of_app elem_of_list_singleton. intros [?| ->]; apply (e_junc _ _ E); auto.
  Qed.
  Lemma asteps_no_dangling h h' : rtc astep h h' → no_dangling h → no_dangling h'.
  Proof. induction 1; eauto using astep_no_dangling. Qed.
End Reach.
