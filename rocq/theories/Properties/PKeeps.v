(** * C60: objects keep what they were given *)
From Coq Require Import ssreflect.
From Verif.Model Require Import Api.
From Verif.Inst Require Import Quarter.
From Verif.Spec Require Import SpecState SpecHistory SpecKeeps.
From Verif.Proof Require Import Reach Steps Invariants KeepFacts.
Local Open Scope general_if_scope.

Lemma prefix_at {A} (l l' : list A) i x : l `prefix_of` l' → l !! i = Some x → l' !! i = Some x.
Proof. intros [k ->] H. by apply lookup_app_l_Some. Qed.
Section Keeps.
  Context {F : Type} `{!Num F}.
  Implicit Types (h : heap F).

  (** Whatever calls follow, successful or not: every object that exists still exists and keeps what it was given ([SpecKeeps]). *)
  Theorem C60_keeps h os : reachable h → state_keeps h (run h os).
  Proof. apply run_keeps. Qed.

  (** Read off for a road: its id, type, name, rule, plan view and lanes are the ones it was constructed with, and every link,
      object and signal it has stays at its place. *)
  Theorem C60_road h os r o : reachable h → h_road h !! r = Some o → ∃ o', h_road (run h os) !! r = Some o' ∧
    rd_id o' = rd_id o ∧ rd_type o' = rd_type o ∧ rd_name o' = rd_name o ∧ rd_rule o' = rd_rule o ∧
    rd_planview o' = rd_planview o ∧ rd_lanes o' = rd_lanes o ∧
    (∀ i l, rd_links o !! i = Some l → rd_links o' !! i = Some l) ∧
    (∀ i x, rd_objects o !! i = Some x → rd_objects o' !! i = Some x) ∧
    (∀ i x, rd_signals o !! i = Some x → rd_signals o' !! i = Some x).
  Proof.
    intros Hr Ho. destruct (keep_road _ _ (C60_keeps h os Hr) r o Ho) as (o' & Ho' & [E1 E2 L _ _ O S]).
    exists o'. injection E1 as -> -> -> ->. injection E2 as -> ->. split_and!; try done; intros i x; by apply prefix_at.
  Qed.
  (** A geometry that has been placed keeps its pose, its primitive and its length; nothing moves it. *)
  Theorem C60_placed h os pv p i g : reachable h → h_pv h !! pv = Some p → pv_geoms p !! i = Some g →
    ∃ p' g', h_pv (run h os) !! pv = Some p' ∧ pv_geoms p' !! i = Some g' ∧
      pg_x g' = pg_x g ∧ pg_y g' = pg_y g ∧ pg_h g' = pg_h g ∧ pg_geom g' = pg_geom g ∧ pg_length g' = pg_length g.
  Proof.
    intros Hr Hp Hg. destruct (keep_pv _ _ (C60_keeps h os Hr) pv p Hp) as (p' & Hp' & K).
    assert (map spot (pv_geoms p') !! i = Some (spot g)) as E.
    { eapply prefix_at; [apply (pk_placed _ _ K)|]. by rewrite list_lookup_fmap Hg. }
    rewrite list_lookup_fmap in E. destruct (pv_geoms p' !! i) as [g'|] eqn:Eg; [|done]. apply (inj Some) in E. unfold spot in E.
    exists p', g'. split; [done|]. split; [done|]. by injection E as -> -> -> -> ->.
  Qed.
  (** A lane section keeps its lanes at their places. *)
  Theorem C60_lanes h os s o : reachable h → h_sec h !! s = Some o → ∃ o', h_sec (run h os) !! s = Some o' ∧
    ls_s o' = ls_s o ∧ ls_center o' = ls_center o ∧
    (∀ i l, ls_left o !! i = Some l → ls_left o' !! i = Some l) ∧ (∀ i l, ls_right o !! i = Some l → ls_right o' !! i = Some l).
  Proof.
    intros Hr Ho. destruct (keep_sec _ _ (C60_keeps h os Hr) s o Ho) as (o' & Ho' & [E1 E2 L R]).
    exists o'. split_and!; try done; intros i x; by apply prefix_at.
  Qed.
End Keeps.

(** A road that is given a link, an object and a position, and is then used further: the later calls include failing ones. *)
Section Example.
  Local Open Scope Z_scope.
  Definition given : list (op Z) := [OpLine 10; OpPlanView None None None; OpAddGeometry 1%nat 0%nat None; OpLanes; OpRoad (PInt 1) 1%nat 2%nat (-1) None None;
    OpAddSuccessor 3%nat (Some et_road) (PInt 2) (Some cp_start) 0; OpAdjustGeometries 1%nat false].
  Definition later : list (op Z) := [OpAddSuccessor 3%nat (Some et_road) (PInt 3) (Some cp_end) 0; OpAddGeometry 1%nat 0%nat None;
    OpAdjustGeometries 1%nat false; OpAddPredecessor 3%nat (Some et_road) (PInt 5) (Some cp_end) 0].
  Example C60_example : let h := run heap_init given in let h' := run h later in
    reachable h ∧ map spot (pv_geoms (h_pv h !!! 1%nat)) = [(0, 0, 0, 0%nat, Some 10)] ∧
    map spot (pv_geoms (h_pv h' !!! 1%nat)) = [(0, 0, 0, 0%nat, Some 10); (10, 0, 0, 0%nat, Some 10); (20, 0, 0, 0%nat, Some 10)] ∧
    rd_links (h_road h !!! 3%nat) = [mkLink (Some "successor") (PInt 2) (Some et_road) (Some cp_start) None] ∧
    rd_links (h_road h' !!! 3%nat) = [mkLink (Some "successor") (PInt 2) (Some et_road) (Some cp_start) None;
      mkLink (Some "predecessor") (PInt 5) (Some et_road) (Some cp_end) None].
  Proof. split; [by exists given|]. split_and!; vm_compute; reflexivity. Qed.
End Example.
Print Assumptions C60_keeps.
