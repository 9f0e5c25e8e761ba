(** Atomic changes keep what objects were given *)
From Coq Require Import ssreflect.
From Verif.Model Require Import Api.
From Verif.Spec Require Import SpecChain SpecState SpecKeeps.
From Verif.Proof Require Import Monad DictFacts PlanViewFacts NetFrame Reach Steps History Invariants.
Local Open Scope general_if_scope.

Section KeepFacts.
  Context {F : Type} `{!Num F}.
  Local Arguments geom_end : simpl never.
  Local Arguments geom_start : simpl never.
  Implicit Types (h : heap F).

  (** ** Preorders *)
  #[global] Instance geom_keeps_pre : PreOrder (geom_keeps (F:=F)).
  Proof.
    split.
    - intros []; simpl; split_and?; done.
    - intros [] [] []; simpl; try done; try congruence; intros; destruct_and?; subst; split_and!; try done. naive_solver.
  Qed.
  #[global] Instance pv_keeps_pre : PreOrder (pv_keeps (F:=F)).
  Proof.
    split.
    - intros p. by split.
    - intros p1 p2 p3 [A1 A2 A3 A4 A5 A6 A7] [B1 B2 B3 B4 B5 B6 B7]. split; [congruence|by etrans|by etrans|by etrans|auto|auto|auto].
  Qed.
  #[global] Instance lane_keeps_pre : PreOrder (lane_keeps (F:=F)).
  Proof. split; [intros p; by split|]. intros p1 p2 p3 [A1 A2 A3 A4] [B1 B2 B3 B4]. split; [congruence|by etrans|auto|auto]. Qed.
  #[global] Instance section_keeps_pre : PreOrder (section_keeps (F:=F)).
  Proof. split; [intros p; by split|]. intros p1 p2 p3 [A1 A2 A3 A4] [B1 B2 B3 B4]. split; [congruence|congruence|by etrans|by etrans]. Qed.
  #[global] Instance linker_keeps_pre : PreOrder linker_keeps.
  Proof. split; [exact linker_grows_refl|exact linker_grows_trans]. Qed.
  #[global] Instance connection_keeps_pre : PreOrder connection_keeps.
  Proof.
    split; [intros p; by split|]. intros p1 p2 p3 [A1 A2 A3] [B1 B2 B3]. split; [congruence| |by etrans].
    intros H. rewrite B2; [by rewrite A2|by apply A2].
  Qed.
  #[global] Instance junction_keeps_pre : PreOrder junction_keeps.
  Proof. split; [intros p; by split|]. intros p1 p2 p3 [A1 A2] [B1 B2]. split; [congruence|by etrans]. Qed.
  #[global] Instance object_keeps_pre : PreOrder (object_keeps (F:=F)).
  Proof. split; [intros p; by split|]. intros p1 p2 p3 [A1 A2 A3 A4 A5] [B1 B2 B3 B4 B5]. split; [congruence..|by etrans]. Qed.
  #[global] Instance road_keeps_pre : PreOrder road_keeps.
  Proof.
    split; [intros p; by split|]. intros p1 p2 p3 [A1 A2 A3 A4 A5 A6 A7] [B1 B2 B3 B4 B5 B6 B7]. split; [congruence|congruence|by etrans| | |by etrans|by etrans].
    - intros H. destruct (A4 H) as [E1 E2]. destruct B4 as [E3 E4]; [congruence|]. split; congruence.
    - intros H. destruct (A5 H) as [E1 E2]. destruct B5 as [E3 E4]; [congruence|]. split; congruence.
  Qed.
  #[global] Instance opendrive_keeps_pre : PreOrder opendrive_keeps.
  Proof. split; [intros p; by split|]. intros p1 p2 p3 [A1 A2 A3] [B1 B2 B3]. split; [congruence|by etrans|by etrans]. Qed.
  #[global] Instance all_keep_pre {V} (f : heap F → gmap nat V) R `{!PreOrder R} : PreOrder (all_keep f R).
  Proof.
    split.
    - intros h r v Hv. exists v. by split.
    - intros h1 h2 h3 A B r v Hv. destruct (A r v Hv) as (v2 & H2 & R2). destruct (B r v2 H2) as (v3 & H3 & R3). exists v3. split; [done|]. by etrans.
  Qed.
  #[global] Instance state_keeps_pre : PreOrder (state_keeps (F:=F)).
  Proof. split; [intros h; by split|]. intros h1 h2 h3 [] []. split; by etrans. Qed.

  (** ** Single changes *)
  Lemma keep_eq {V} (f : heap F → gmap nat V) R `{!PreOrder R} h h' : f h' = f h → all_keep f R h h'.
  Proof. intros E r v Hv. exists v. rewrite E. by split. Qed.
  Lemma keep_insert {V} (f : heap F → gmap nat V) R `{!PreOrder R} h h' r x : f h' = <[r := x]> (f h) → (∀ v, f h !! r = Some v → R v x) → all_keep f R h h'.
  Proof.
    intros E Hx r' v Hv. rewrite E. destruct (decide (r = r')) as [<-|Hne]; [exists x; rewrite lookup_insert; auto|exists v; rewrite lookup_insert_ne //].
  Qed.
  Lemma keep_new {V} (f : heap F → gmap nat V) R `{!PreOrder R} h h' x P : stored f h P → f h' = <[h_next h := x]> (f h) → all_keep f R h h'.
  Proof. intros N E. eapply keep_insert; [done|exact E|]. intros v Hv. destruct (N _ _ Hv). lia. Qed.
  Lemma keep_upd {V} `{!Inhabited V} (f : heap F → gmap nat V) R `{!PreOrder R} h h' r x : f h' = <[r := x]> (f h) → R (f h !!! r) x → all_keep f R h h'.
  Proof. intros E Hx. eapply keep_insert; [done|exact E|]. intros v Hv. by rewrite (lookup_total_correct _ _ _ Hv) in Hx. Qed.

  Lemma evolves_keeps (g g' : geom F) : evolves g g' → geom_keeps g g'.
  Proof.
    assert (E : ∀ (g : geom F) x y hd, geom_keeps g (geom_end g x y hd).2).
    { intros [] x y hd; unfold geom_end; simpl; try done.
      - destruct (arc_eval _ _ _ _ _ _) as [? [? ?]]. done.
      - unfold poly_param. destruct (String.eqb_spec prange "normalized"); [|destruct length]; simpl; split_and!; done. }
    assert (E' : ∀ (g : geom F) x y hd, geom_keeps g (geom_start g x y hd).2).
    { intros [] x y hd; unfold geom_start; simpl; try done.
      - destruct (arc_eval _ _ _ _ _ _) as [? [? ?]]. done.
      - unfold poly_param. destruct (String.eqb_spec prange "normalized"); [|destruct length]; simpl; split_and!; done. }
    induction 1; [done| |]; by etrans.
  Qed.
  Lemma obj_keeps_object (o o' : sobj F) : obj_keeps o o' → object_keeps o o'.
  Proof. intros (i & s & t & hd & rp & ->). split; try done. simpl. by apply prefix_app_r. Qed.
  Lemma road_step_keeps o o' : road_step o o' → road_keeps o o'.
  Proof. destruct 1; split; simpl; try done; try (by apply prefix_app_r); rewrite ?H; done. Qed.

  (** lanes *)
  Lemma lane_upd_keeps l f h : (∀ o, lane_keeps o (f o)) → all_keep h_lane lane_keeps h (upd_lane l f h).2.
  Proof. intros Hf. eapply keep_upd; [apply _|reflexivity|apply Hf]. Qed.
  Lemma lane_add_link_keeps l ty id h : all_keep h_lane lane_keeps h (lane_add_link l ty id h).2.
  Proof.
    unfold lane_add_link, mk_link. destruct (_ && _); [done|]. apply lane_upd_keeps. intros o. split; try done. simpl. by apply prefix_app_r.
  Qed.
  Lemma use_lanelink_keeps k i h : all_keep h_lane lane_keeps h (use_lanelink k i h).2.
  Proof.
    unfold use_lanelink, get_linker. rewrite bind_gets. destruct (_ !! i) as [ll|]; [|done]. destruct (ll_used ll); [done|].
    unfold get_lane. rewrite bind_gets. unfold bind at 1. pose proof (lane_add_link_keeps (ll_pred ll) (Some "successor") (lane_id_str (ln_id (h_lane h !!! ll_succ ll))) h) as A.
    destruct (lane_add_link _ _ _ h) as [[[]|e] h1]; [|done]. rewrite bind_gets. etrans; [exact A|]. clear A. unfold bind at 1.
    pose proof (lane_add_link_keeps (ll_succ ll) (Some "predecessor") (lane_id_str (ln_id (h_lane h1 !!! ll_pred ll))) h1) as A.
    destruct (lane_add_link _ _ _ h1) as [[[]|e] h2]; exact A.
  Qed.

  Lemma dict_set_ids {V} (d : dict V) k (v : V) : map fst d `prefix_of` map fst (dict_set d k v).
  Proof.
    induction d as [|[k' v'] d IH]; simpl; [apply prefix_nil|]. destruct (String.eqb _ _); simpl; [done|]. by apply prefix_cons.
  Qed.

  Ltac same := apply keep_eq; [apply _|].
  Lemma astep_keeps h h' : no_dangling h → astep h h' → state_keeps h h'.
  Proof.
    intros N A.
    assert (Kobj : all_keep h_obj object_keeps h h').
    { intros r v Hv. assert (Hr : exists_in h_obj h r) by by eexists. destruct (e_obj _ _ (astep_ext _ _ A) _ Hr) as [v' Hv']. exists v'. split; [done|].
      rewrite -(lookup_total_correct _ _ _ Hv) -(lookup_total_correct _ _ _ Hv'). by apply obj_keeps_object, astep_obj_keeps. }
    assert (Kroad : all_keep h_road road_keeps h h').
    { intros r v Hv. destruct (astep_road_old h h' r v N A Hv) as [?|(o' & Ho & Hs)]; [by exists v|]. exists o'. split; [done|]. by apply road_step_keeps. }
    assert (Klink : all_keep h_linker linker_keeps h h').
    { intros r v Hv. assert (Hr : exists_in h_linker h r) by by eexists. destruct (e_linker _ _ (astep_ext _ _ A) _ Hr) as [v' Hv']. exists v'. split; [done|].
      rewrite -(lookup_total_correct _ _ _ Hv) -(lookup_total_correct _ _ _ Hv'). by apply astep_linker. }
    destruct A; (split; [| | | | |exact Klink| | |exact Kobj|exact Kroad|]); clear Kobj Kroad Klink; try (same; reflexivity).
    all: try (eapply keep_new; [apply _|first [apply (nd_geom _ N)|apply (nd_pv _ N)|apply (nd_lane _ N)|apply (nd_sec _ N)|apply (nd_lanes _ N)|apply (nd_conn _ N)|apply (nd_junc _ N)|apply (nd_odr _ N)]|reflexivity]).
    all: try (same; unfold add_successor, get_road; rewrite bind_gets; destruct (rd_succ _); reflexivity).
    all: try (same; unfold add_predecessor, get_road; rewrite bind_gets; destruct (rd_pred _); reflexivity).
    all: try (same; unfold add_neighbor, get_road; rewrite bind_gets; destruct (decide _); [reflexivity|]; unfold mk_link; destruct dir; reflexivity).
    all: try (same; unfold add_object, add_signal; destruct (update_ids_form os h) as (m & m' & E); unfold bind; destruct (for_each update_id os h) as [[[]|e] h1]; simpl in E; subst; reflexivity).
    - eapply keep_upd; [apply _|reflexivity|by apply evolves_keeps].
    - eapply keep_upd; [apply _|reflexivity|done].
    - same. by destruct (lane_add_link_form l ty id h) as (m & -> & _).
    - same. by destruct (lane_add_link_form l ty id h) as (m & -> & _).
    - apply lane_add_link_keeps.
    - same. by destruct (lane_add_link_form l ty id h) as (m & -> & _).
    - same. by destruct (lane_add_link_form l ty id h) as (m & -> & _).
    - same. by destruct (lane_add_link_form l ty id h) as (m & -> & _).
    - same. by destruct (lane_add_link_form l ty id h) as (m & -> & _).
    - same. by destruct (lane_add_link_form l ty id h) as (m & -> & _).
    - by apply lane_upd_keeps.
    - change (all_keep h_lane lane_keeps h (upd_lane c (λ o, o <| ln_id := Some 0%Z |>) h).2). by apply lane_upd_keeps.
    - eapply keep_upd; [apply _|reflexivity|done].
    - eapply keep_upd; [apply _|simpl; rewrite insert_insert; reflexivity|]. rewrite ltm_insert. split; try done. simpl. by apply prefix_app_r.
    - eapply keep_upd; [apply _|reflexivity|done].
    - eapply keep_upd; [apply _|simpl; rewrite insert_insert; reflexivity|]. rewrite ltm_insert. split; try done. simpl. by apply prefix_app_r.
    - eapply keep_upd; [apply _|reflexivity|by apply prefix_app_r].
    - same. by destruct (use_lanelink_form k i h) as (m & m' & -> & _).
    - same. by destruct (use_lanelink_form k i h) as (m & m' & -> & _).
    - apply use_lanelink_keeps.
    - same. by destruct (use_lanelink_form k i h) as (m & m' & -> & _).
    - same. by destruct (use_lanelink_form k i h) as (m & m' & -> & _).
    - same. by destruct (use_lanelink_form k i h) as (m & m' & -> & _).
    - same. by destruct (use_lanelink_form k i h) as (m & m' & -> & _).
    - same. by destruct (use_lanelink_form k i h) as (m & m' & -> & _).
    - eapply keep_upd; [apply _|reflexivity|]. split; try done. simpl. by apply prefix_app_r.
    - eapply keep_upd; [apply _|reflexivity|]. simpl. by destruct (cn_id (h_conn h !!! c)) eqn:E; split; simpl; rewrite ?E.
    - eapply keep_upd; [apply _|simpl; rewrite insert_insert; reflexivity|]. rewrite ltm_insert. split; try done. simpl. by apply prefix_app_r.
    - eapply keep_upd; [apply _|reflexivity|]. split; try done. simpl. apply dict_set_ids.
    - eapply keep_upd; [apply _|reflexivity|]. split; try done. simpl. by apply prefix_app_r.
  Qed.
  Lemma run_keeps h os : reachable h → state_keeps h (run h os).
  Proof.
    intros Hr. apply (run_ind (state_keeps h) h os Hr); [done|]. intros h1 h2 N K A. etrans; [exact K|]. by apply astep_keeps.
  Qed.
End KeepFacts.
