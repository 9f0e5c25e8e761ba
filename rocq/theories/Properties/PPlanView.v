(** * Properties C06-C12, C47: PlanView, constructors, stability *)
From Coq Require Import Reals Lra ssreflect.
From Coquelicot Require Import Coquelicot.
From Verif.Model Require Import Api.
From Verif.Inst Require Import Real Quarter.
From Verif.Spec Require Import SpecPlanView SpecChain.
From Verif.Proof Require Import DrivesFacts GeomReal Monad PlanViewFacts PlanViewReal.
Local Open Scope general_if_scope.

(** ** For every arithmetic *)
Section AnyNum.
  Context {F : Type} `{!Num F}.

  (** a planview that has not been adjusted yet *)
  Definition fresh_pv (p : planview F) : Prop := pv_geoms p = [] ∧ pv_s p = fofZ 0.
  (** where it will start *)
  Definition present (p : planview F) : F * F * F := (pv_x p, pv_y p, pv_h p).

  Lemma chain_geoms geo ov i p s gs rs q (t : F) : chain geo ov i p s gs rs q t → map pg_geom rs = gs.
  Proof. induction 1; [done|]. cbn. by f_equal. Qed.
  Lemma back_chain_geoms geo p gs rs (ls : list F) q : back_chain geo p gs rs ls q → map pg_geom rs = gs ∧ map pg_length rs = map Some ls.
  Proof.
    induction 1 as [|p g gs q l r rs ls e ? ? ? ? Hg Hl ? [IH1 IH2]]; [done|]. cbn. by rewrite Hg Hl IH1 IH2.
  Qed.

  (** ** C06: contiguous chain (with heading overrides, if any, applied; [pv_over = []] is the usual case) *)
  Theorem C06_forward_chain (h h' : heap F) (pv : ref) :
    fresh_pv (h_pv h !!! pv) →
    adjust_geometries pv false h = (Ok tt, h') →
    let p := h_pv h !!! pv in
    let p' := h_pv h' !!! pv in
    ∃ q t,
      chain (λ g, h_geom h !!! g) (pv_over p) 0 (present p) (fofZ 0) (pv_raw p) (pv_geoms p') q t ∧
      map pg_geom (pv_geoms p') = pv_raw p ∧
      pv_start p' = Some (present p) ∧ pv_end p' = Some q ∧
      pv_total_length p' = t ∧ pv_adjusted p' = true.
  Proof.
    intros [Hg Hs] Hr. cbv zeta. destruct (adjust_forward_spec _ _ _ Hr) as (rs & q & t & Hch & Hgs & Hst & Hen & _ & Ht & Had).
    rewrite Hg Hs in Hgs, Hch. simpl in Hgs. rewrite Hgs. exists q, t. split; [done|].
    split; [by eapply chain_geoms|]. done.
  Qed.

  (** it does succeed on every list of primitives that can be evaluated *)
  Theorem C06_forward_succeeds (h : heap F) (pv : ref) :
    (∀ g, g ∈ pv_raw (h_pv h !!! pv) → evaluable (h_geom h !!! g)) →
    pv_over (h_pv h !!! pv) = [] ∨ (length (pv_raw (h_pv h !!! pv)) ≤ length (pv_over (h_pv h !!! pv)))%nat →
    ∃ h', adjust_geometries pv false h = (Ok tt, h').
  Proof.
    intros He Ho. apply adjust_geometries_run; [|by right].
    apply Forall_forall. intros g Hg. by apply evaluable_placeable, He.
  Qed.

  Theorem C08_backward_succeeds (h : heap F) (pv : ref) :
    (∀ g, g ∈ pv_raw (h_pv h !!! pv) → evaluable (h_geom h !!! g)) →
    ∃ h', adjust_geometries pv true h = (Ok tt, h').
  Proof.
    intros He. apply adjust_geometries_run; [|by left].
    apply Forall_forall. intros g Hg. by apply evaluable_placeable, He.
  Qed.

  (** ** C08 for every arithmetic: end point, start point and the reverse chain *)
  Theorem C08_backward_chain (h h' : heap F) (pv : ref) :
    fresh_pv (h_pv h !!! pv) →
    adjust_geometries pv true h = (Ok tt, h') →
    let p := h_pv h !!! pv in
    let p' := h_pv h' !!! pv in
    ∃ rs ls q,
      back_chain (λ g, h_geom h !!! g) (present p) (rev (pv_raw p)) rs ls q ∧
      (* the exported records are those of the chain, up to the s value *)
      map (λ r, r <| pg_s := None |>) (pv_geoms p') = map (λ r, r <| pg_s := None |>) rs ∧
      pv_end p' = Some (turn (present p)) ∧ pv_start p' = Some (turn q) ∧
      pv_total_length p' = sum_from (fofZ 0) ls ∧ pv_adjusted p' = true.
  Proof.
    intros [Hg Hs] Hr. cbv zeta. destruct (adjust_backward_spec _ _ _ Hr) as (rs & ls & q & Hch & Hno & Hgs & Hen & Hst & _ & Ht & Had).
    exists rs, ls, q. split; [done|]. split; [|done].
    rewrite Hg /= in Hgs. rewrite Hgs. unfold label_last. destruct ls as [|l ls]; [done|].
    destruct rs as [|r rs _] using rev_ind; [done|]. rewrite set_last_s_snoc !map_app. done.
  Qed.

  (** ** C09: what the s values really are *)
  Theorem C09_backward_s_values (h h' : heap F) (pv : ref) :
    fresh_pv (h_pv h !!! pv) →
    adjust_geometries pv true h = (Ok tt, h') →
    let rs := pv_geoms (h_pv h' !!! pv) in
    map pg_geom rs = rev (pv_raw (h_pv h !!! pv)) ∧
    ∃ ls, map pg_length rs = map Some ls ∧
      map pg_s rs =
        match length rs with
        | 0 => []
        | S n => repeat None n ++ [Some (sum_from (fofZ 0) (removelast ls))]
        end%nat.
  Proof.
    intros [Hg Hs] Hr. cbv zeta. destruct (adjust_backward_spec _ _ _ Hr) as (rs & ls & q & Hch & Hno & Hgs & Hen & Hst & _ & Ht & Had).
    rewrite Hg /= in Hgs. cbv zeta. rewrite Hgs.
    destruct (back_chain_geoms _ _ _ _ _ _ Hch) as [Hm Hl].
    unfold label_last. destruct ls as [|l ls].
    { destruct rs; [|done]. split; [done|]. by exists []. }
    destruct rs as [|r rs _] using rev_ind; [done|]. rewrite set_last_s_snoc.
    split; [by rewrite -Hm !map_app|]. exists (l :: ls). split; [by rewrite -Hl !map_app|].
    rewrite app_length /= Nat.add_1_r map_app. f_equal.
    apply Forall_app in Hno as [Hno _]. clear -Hno. induction Hno as [|r rs Hr Hno IH]; [done|]. cbn. by rewrite Hr IH.
  Qed.

  (** with a single geometry that is as it should be *)
  Corollary C09_single_geometry (h h' : heap F) (pv g : ref) :
    fresh_pv (h_pv h !!! pv) → pv_raw (h_pv h !!! pv) = [g] →
    adjust_geometries pv true h = (Ok tt, h') →
    map pg_s (pv_geoms (h_pv h' !!! pv)) = [Some (fofZ 0)] ∧ map pg_geom (pv_geoms (h_pv h' !!! pv)) = [g].
  Proof.
    intros Hf Hg Hr. destruct (C09_backward_s_values _ _ _ Hf Hr) as (Hm & ls & Hl & Hs).
    rewrite Hg in Hm. rewrite Hm Hs. apply (f_equal length) in Hm as Hn. rewrite map_length in Hn.
    apply (f_equal length) in Hl. rewrite !map_length Hn in Hl. rewrite Hn.
    destruct ls as [|l [|]]; [done| |done]. done.
  Qed.

  (** ** C11 *)
  Theorem C11_planview_ctor (x y h : option F) :
    match x, y, h with
    | Some x, Some y, Some h =>
      ∃ p, mk_planview (Some x) (Some y) (Some h) = Ok p ∧ pv_fixed p = true ∧ present p = (x, y, h) ∧ fresh_pv p
    | None, None, None =>
      ∃ p, mk_planview (F:=F) None None None = Ok p ∧ pv_fixed p = false ∧ present p = (fofZ 0, fofZ 0, fofZ 0) ∧ fresh_pv p
    | _, _, _ => mk_planview x y h = Err NotEnoughInputArguments
    end.
  Proof. destruct x, y, h; cbn; try done; eexists; done. Qed.

  (** ** C12 *)
  Definition given {A} (o : option A) : nat := match o with Some _ => 1 | None => 0 end.
  Theorem C12_spiral_ctor (cs ce : F) (length angle cdot : option F) :
    match (given length + given angle + given cdot)%nat with
    | 0 => mk_spiral cs ce length angle cdot = Err NotEnoughInputArguments
    | 1 => ∃ l, mk_spiral cs ce length angle cdot = Ok (GSpiral cs ce l)
    | _ => mk_spiral cs ce length angle cdot = Err ToManyOptionalArguments
    end%nat.
  Proof.
    unfold mk_spiral. destruct length, angle, cdot; cbn; try done; repeat case_match; simplify_eq; try done; by eexists.
  Qed.
  Theorem C12_arc_ctor (c : F) (length angle : option F) :
    match (given length + given angle)%nat with
    | 0 => mk_arc c length angle = Err NotEnoughInputArguments
    | 1 => mk_arc c length angle = if fiszero c then Err ValueError else Ok (GArc c length angle)
    | _ => mk_arc c length angle = Err ToManyOptionalArguments
    end%nat.
  Proof. by destruct length, angle. Qed.
  Theorem C12_poly_ctor (au bu cu du av bv cv dv : F) (prange : string) (length : option F) :
    (prange = "arcLength" ∧ length = None → mk_poly au bu cu du av bv cv dv prange length = Err ValueError) ∧
    (¬ (prange = "arcLength" ∧ length = None) →
     mk_poly au bu cu du av bv cv dv prange length = Ok (GPoly au bu cu du av bv cv dv prange length)).
  Proof.
    unfold mk_poly. destruct (String.eqb_spec prange "arcLength"); case_bool_decide; cbn; naive_solver.
  Qed.
End AnyNum.

(** ** C09 refuted: two lines, adjusted from the end: the s values are not the running sums of the lengths *)
Definition C09_intended : Prop :=
  ∀ (F : Type) (N : Num F) (h h' : heap F) (pv : ref),
    fresh_pv (h_pv h !!! pv) → pv_over (h_pv h !!! pv) = [] →
    adjust_geometries pv true h = (Ok tt, h') →
    ∀ i r, pv_geoms (h_pv h' !!! pv) !! i = Some r → is_Some (pg_s r).

Definition two_lines : list (op Z) :=
  [ OpLine 3%Z; OpLine 5%Z; OpPlanView None None None; OpAddGeometry 2 0 None; OpAddGeometry 2 1 None ].

Theorem C09_refuted : ¬ C09_intended.
Proof.
  intros HC.
  assert (Hr : ∃ h', adjust_geometries 2 true (run heap_init two_lines) = (Ok tt, h') ∧
             map pg_s (pv_geoms (h_pv h' !!! 2%nat)) = [None; Some 5%Z]).
  { eexists. split; [vm_compute; reflexivity|vm_compute; reflexivity]. }
  destruct Hr as (h' & Hr & Hs).
  destruct (pv_geoms (h_pv h' !!! 2%nat)) as [|r rs] eqn:E; [done|].
  assert (Hp : is_Some (pg_s r)).
  { eapply (HC Z QNum (run heap_init two_lines) h' 2%nat); [| |exact Hr|].
    - split; vm_compute; reflexivity.
    - vm_compute; reflexivity.
    - by rewrite E; instantiate (1 := 0%nat). }
  injection Hs as Hs _. rewrite Hs in Hp. by destruct Hp.
Qed.

(** non-vacuity of C06, C08, C09: a fresh planview with two lines exists, is adjusted in both directions *)
Example fresh_example :
  fresh_pv (h_pv (run heap_init two_lines) !!! 2%nat) ∧
  pv_raw (h_pv (run heap_init two_lines) !!! 2%nat) = [0; 1]%nat ∧
  (∀ g, g ∈ [0; 1]%nat → evaluable (h_geom (run heap_init two_lines) !!! g)) ∧
  is_ok (adjust_geometries 2 false (run heap_init two_lines)).1 = true ∧
  is_ok (adjust_geometries 2 true (run heap_init two_lines)).1 = true ∧
  pv_end (h_pv (adjust_geometries 2 false (run heap_init two_lines)).2 !!! 2%nat) = Some (8, 0, 0)%Z.
Proof.
  split; [split; vm_compute; reflexivity|]. split; [vm_compute; reflexivity|].
  split; [|by vm_compute].
  intros g Hg. rewrite !elem_of_cons elem_of_nil in Hg. destruct Hg as [->|[->|[]]]; vm_compute; done.
Qed.

(** a history used as an example below: three primitives of which the second is an arc *)
Definition line_arc_spiral {F : Type} (l c a cs ce m : F) : list (op F) :=
  [ OpLine l; OpArc c None (Some a); OpSpiral cs ce (Some m) None None; OpPlanView None None None;
    OpAddGeometry 3 0 None; OpAddGeometry 3 1 None; OpAddGeometry 3 2 None ].
Lemma line_arc_spiral_run {F : Type} `{!Num F} (l c a cs ce m : F) :
  mk_arc c None (Some a) = Ok (GArc c None (Some a)) →
  let h := run heap_init (line_arc_spiral l c a cs ce m) in
  h_pv h !!! 3%nat = planview_new <| pv_raw := [0; 1; 2]%nat |> ∧
  h_geom h !!! 0%nat = GLine l ∧ h_geom h !!! 1%nat = GArc c None (Some a) ∧ h_geom h !!! 2%nat = GSpiral cs ce (Some m).
Proof.
  intros Hm h.
  assert (Ha : ∀ h0, (step (OpArc c None (Some a)) h0).2 = (new_geom (GArc c None (Some a)) h0).2).
  { intros h0. cbn [step]. by rewrite Hm. }
  assert (Hh : h = run (new_geom (GArc c None (Some a)) (run heap_init [OpLine l])).2
    [ OpSpiral cs ce (Some m) None None; OpPlanView None None None;
      OpAddGeometry 3 0 None; OpAddGeometry 3 1 None; OpAddGeometry 3 2 None ]).
  { unfold h, line_arc_spiral, run. cbn [foldl]. rewrite Ha. reflexivity. }
  rewrite Hh. clear. vm_compute. done.
Qed.

(** ** Over exact reals *)
Section RealPlanView.
  Context (rstr : R -> string).
  Local Instance rn : Num R := RNum rstr.
  Open Scope R_scope.

  (** ** C07, C10 (forward) *)
  Theorem C07_forward_consistent (h h' : heap R) (pv : ref) :
    fresh_pv (h_pv h !!! pv) → pv_over (h_pv h !!! pv) = [] →
    (∀ g, g ∈ pv_raw (h_pv h !!! pv) → nondegenerate (h_geom h !!! g)) →
    adjust_geometries pv false h = (Ok tt, h') →
    let p := h_pv h !!! pv in
    let p' := h_pv h' !!! pv in
    ∃ q,
      consistent (λ g, h_geom h' !!! g) (present p) (pv_geoms p') q ∧
      stationed 0 (pv_geoms p') (pv_total_length p') ∧
      map pg_geom (pv_geoms p') = pv_raw p ∧
      pv_start p' = Some (present p) ∧ pv_end p' = Some q.
  Proof.
    intros Hf Ho Hn Hr. cbv zeta. destruct (C06_forward_chain _ _ _ Hf Hr) as (q & t & Hch & Hm & Hst & Hen & Ht & _).
    rewrite Ho in Hch.
    assert (Hfr : geo_frame pv h h') by (eapply pres_ok; [apply gf_adjust_geometries|exact Hr]).
    destruct (chain_consistent rstr _ (λ g, h_geom h' !!! g) _ _ _ _ _ _ _ Hn (gf_geom _ _ _ Hfr) Hch) as (Hc & Hs & _ & _ & _).
    exists q. rewrite Ht. done.
  Qed.

  (** ** C08 *)
  Theorem C08_backward_consistent (h h' : heap R) (pv : ref) :
    fresh_pv (h_pv h !!! pv) →
    (∀ g, g ∈ pv_raw (h_pv h !!! pv) → nondegenerate (h_geom h !!! g)) →
    adjust_geometries pv true h = (Ok tt, h') →
    let p := h_pv h !!! pv in
    let p' := h_pv h' !!! pv in
    ∃ q,
      consistent (λ g, h_geom h' !!! g) q (rev (pv_geoms p')) (turned (present p)) ∧
      rev (map pg_geom (pv_geoms p')) = pv_raw p ∧
      pv_start p' = Some q ∧ pv_end p' = Some (turned (present p)).
  Proof.
    intros Hf Hn Hr. cbv zeta. destruct (C08_backward_chain _ _ _ Hf Hr) as (rs & ls & q & Hch & Hmap & Hen & Hst & Ht & _).
    assert (Hfr : geo_frame pv h h') by (eapply pres_ok; [apply gf_adjust_geometries|exact Hr]).
    destruct (back_chain_consistent rstr _ (λ g, h_geom h' !!! g) _ _ _ _ _
      (λ g Hg, Hn g (proj1 (elem_of_rev _ _) Hg)) (gf_geom _ _ _ Hfr) Hch) as (Hc & Hm & _ & _).
    assert (Hcon : ∀ rs rs', map (λ r, r <| pg_s := None |>) rs' = map (λ r : pgeom R, r <| pg_s := None |>) rs →
      ∀ geo a b, consistent geo a rs b → consistent geo a rs' b).
    { clear. intros rs rs' E geo a b Hc. revert rs' E. induction Hc as [|r rs L q e HL Hd Hc IH]; intros [|r' rs'] E; try done; [constructor|].
      cbn in E. injection E as Ex Ey Eh Eg El E.
      assert ((pg_x r, pg_y r, pg_h r) = (pg_x r', pg_y r', pg_h r')) as -> by congruence.
      eapply cons_step; [by rewrite El| |by apply IH]. rewrite Eg Ex Ey Eh. exact Hd. }
    exists (turned q). split; [|split].
    - rewrite (turned_turn rstr) in Hst. eapply Hcon; [|exact Hc]. by rewrite !map_rev Hmap.
    - assert (map pg_geom (pv_geoms (h_pv h' !!! pv)) = map pg_geom rs) as ->.
      { clear -Hmap. revert Hmap. generalize (pv_geoms (h_pv h' !!! pv)). induction rs as [|r rs IH]; intros [|r' rs']; try done.
        cbn. intros [= _ _ _ E _ E2]. rewrite E. f_equal. by apply IH. }
      by rewrite Hm rev_involutive.
    - rewrite -!(turned_turn rstr). done.
  Qed.

  (** ** C10 *)
  Theorem C10_total_length (h h' : heap R) (pv : ref) (from_end : bool) :
    fresh_pv (h_pv h !!! pv) → pv_over (h_pv h !!! pv) = [] →
    (∀ g, g ∈ pv_raw (h_pv h !!! pv) → nondegenerate (h_geom h !!! g)) →
    adjust_geometries pv from_end h = (Ok tt, h') →
    pv_total_length (h_pv h' !!! pv) = sumR (map (λ g, nominal_length (h_geom h !!! g)) (pv_raw (h_pv h !!! pv))).
  Proof.
    intros Hf Ho Hn Hr.
    assert (Hfr : geo_frame pv h h') by (eapply pres_ok; [apply gf_adjust_geometries|exact Hr]).
    destruct from_end.
    - destruct (C08_backward_chain _ _ _ Hf Hr) as (rs & ls & q & Hch & Hmap & Hen & Hst & Ht & _).
      destruct (back_chain_consistent rstr _ (λ g, h_geom h' !!! g) _ _ _ _ _
        (λ g Hg, Hn g (proj1 (elem_of_rev _ _) Hg)) (gf_geom _ _ _ Hfr) Hch) as (Hc & Hm & Hls & _).
      rewrite Ht Hls sum_from_R map_rev. cbn.
      assert (Hrev : ∀ l, sumR (rev l) = sumR l).
      { clear. induction l as [|x l IH]; [done|]. cbn.
        assert (Happ : ∀ a b, sumR (a ++ b) = sumR a + sumR b) by (clear; induction a; intros b; cbn; [lra|rewrite IHa; lra]).
        rewrite Happ IH. cbn. lra. }
      rewrite Hrev. lra.
    - destruct (C06_forward_chain _ _ _ Hf Hr) as (q & t & Hch & Hm & Hst & Hen & Ht & _). rewrite Ho in Hch.
      destruct (chain_consistent rstr _ (λ g, h_geom h' !!! g) _ _ _ _ _ _ _ Hn (gf_geom _ _ _ Hfr) Hch) as (Hc & Hs & _ & Htt & _).
      rewrite Ht Htt. cbn. lra.
  Qed.

  Theorem C10_recorded_lengths (h h' : heap R) (pv : ref) (from_end : bool) :
    fresh_pv (h_pv h !!! pv) → pv_over (h_pv h !!! pv) = [] →
    (∀ g, g ∈ pv_raw (h_pv h !!! pv) → nondegenerate (h_geom h !!! g)) →
    adjust_geometries pv from_end h = (Ok tt, h') →
    ∀ r, r ∈ pv_geoms (h_pv h' !!! pv) → pg_length r = Some (nominal_length (h_geom h !!! pg_geom r)).
  Proof.
    intros Hf Ho Hn Hr.
    assert (Hfr : geo_frame pv h h') by (eapply pres_ok; [apply gf_adjust_geometries|exact Hr]).
    assert (Hall : ∀ gs rs, Forall2 (λ g r, pg_length r = Some (nominal_length (h_geom h !!! g))) gs rs →
       map pg_geom rs = gs → ∀ r, r ∈ rs → pg_length r = Some (nominal_length (h_geom h !!! pg_geom r))).
    { clear. induction 1 as [|g r gs rs Hl HF IH]; intros E r' Hr'; [by apply elem_of_nil in Hr'|].
      cbn in E. injection E as Eg E. apply elem_of_cons in Hr' as [->|Hr']; [by rewrite Eg|by apply IH]. }
    destruct from_end.
    - destruct (C08_backward_chain _ _ _ Hf Hr) as (rs & ls & q & Hch & Hmap & Hen & Hst & Ht & _).
      destruct (back_chain_consistent rstr _ (λ g, h_geom h' !!! g) _ _ _ _ _
        (λ g Hg, Hn g (proj1 (elem_of_rev _ _) Hg)) (gf_geom _ _ _ Hfr) Hch) as (Hc & Hm & Hls & HF).
      intros r Hr'. apply (elem_of_list_fmap_1 (λ r, r <| pg_s := None |>)) in Hr'.
      change (fmap (M:=list)) with (@map (pgeom R) (pgeom R)) in Hr'. rewrite Hmap in Hr'.
      apply elem_of_list_fmap in Hr' as (r2 & E2 & Hr2). injection E2 as _ _ _ Eg El.
      rewrite El Eg. by eapply Hall.
    - destruct (C06_forward_chain _ _ _ Hf Hr) as (q & t & Hch & Hm & Hst & Hen & Ht & _). rewrite Ho in Hch.
      destruct (chain_consistent rstr _ (λ g, h_geom h' !!! g) _ _ _ _ _ _ _ Hn (gf_geom _ _ _ Hfr) Hch) as (Hc & Hs & _ & Htt & HF).
      by apply (Hall _ _ HF).
  Qed.

  (** non-vacuity: lines, a sharp right-hand arc and a spiral *)
  Example C07_example :
    let h := run heap_init (line_arc_spiral 3 (-1) (PI / 2) 0 1 2) in
    fresh_pv (h_pv h !!! 3%nat) ∧ pv_over (h_pv h !!! 3%nat) = [] ∧ pv_raw (h_pv h !!! 3%nat) = [0; 1; 2]%nat ∧
    (∀ g, g ∈ pv_raw (h_pv h !!! 3%nat) → nondegenerate (h_geom h !!! g)) ∧
    ∃ h', adjust_geometries 3 false h = (Ok tt, h').
  Proof.
    have HPI := PI_RGT_0.
    intros h.
    assert (Hm : mk_arc (-1) None (Some (PI / 2)) = Ok (GArc (-1) None (Some (PI / 2)))).
    { rewrite /mk_arc. cbn. case: Req_EM_T; [lra|done]. }
    destruct (line_arc_spiral_run 3 _ _ 0 1 2 Hm) as (Hp & H0 & H1 & H2). fold h in Hp, H0, H1, H2. clearbody h.
    assert (Hn : ∀ g, g ∈ pv_raw (h_pv h !!! 3%nat) → nondegenerate (h_geom h !!! g)).
    { rewrite Hp. intros g Hg. cbn in Hg. rewrite !elem_of_cons elem_of_nil in Hg.
      destruct Hg as [->|[->|[->|[]]]]; [by rewrite H0|rewrite H1|rewrite H2]; cbn; lra. }
    split; [by rewrite Hp|]. split; [by rewrite Hp|]. split; [by rewrite Hp|]. split; [done|].
    apply adjust_geometries_run.
    - apply Forall_forall. intros g Hg. by apply (nondegenerate_placeable rstr), Hn.
    - right; left. by rewrite Hp.
  Qed.

  (** ** C47: re-evaluation is stable *)
  Theorem C47_stable (g g1 g2 : geom R) (x y h : R) :
    nondegenerate g → used g g1 → evolves g1 g2 →
    (geom_end g2 x y h).1 = (geom_end g1 x y h).1 ∧ (geom_start g2 x y h).1 = (geom_start g1 x y h).1.
  Proof.
    intros Hn Hu He.
    assert (Hu2 : used g g2).
    { destruct He; [done|apply used_end|apply used_start]; (eapply evolves_trans; [apply used_is_evolves, Hu|done]). }
    destruct (used_settled rstr _ _ Hu Hn) as [Hs1 Hsh1]. destruct (used_settled rstr _ _ Hu2 Hn) as [Hs2 Hsh2].
    destruct (settled_end rstr g1 x y h Hs1) as (q1 & ? & E1 & _ & _ & Hd1).
    destruct (settled_end rstr g2 x y h Hs2) as (q2 & ? & E2 & _ & _ & Hd2).
    destruct (settled_start rstr g1 x y h Hs1) as (q3 & ? & E3 & _ & _ & Hd3).
    destruct (settled_start rstr g2 x y h Hs2) as (q4 & ? & E4 & _ & _ & Hd4).
    change (RNum rstr) with rn in E1, E2, E3, E4. rewrite E1 E2 E3 E4. cbn.
    rewrite -(same_shape_length _ _ Hsh1) -(same_shape_curvature _ _ _ Hsh1) in Hd1, Hd3 |- *.
    rewrite -(same_shape_length _ _ Hsh2) -(same_shape_curvature _ _ _ Hsh2) in Hd2, Hd4 |- *.
    rewrite (drives_unique _ _ _ _ _ Hd1 Hd2) (drives_unique _ _ _ _ _ Hd3 Hd4). done.
  Qed.
End RealPlanView.

Print Assumptions C06_forward_chain.
Print Assumptions C06_forward_succeeds.
Print Assumptions C07_forward_consistent.
Print Assumptions C08_backward_succeeds.
Print Assumptions C08_backward_chain.
Print Assumptions C08_backward_consistent.
Print Assumptions C09_backward_s_values.
Print Assumptions C09_single_geometry.
Print Assumptions C09_refuted.
Print Assumptions C10_total_length.
Print Assumptions C10_recorded_lengths.
Print Assumptions C11_planview_ctor.
Print Assumptions C12_spiral_ctor.
Print Assumptions C12_arc_ctor.
Print Assumptions C12_poly_ctor.
Print Assumptions C47_stable.
