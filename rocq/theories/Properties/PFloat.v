(** * C59: distances along a road in floating point *)
From Coq Require Import ssreflect Reals Lra.
From Flocq Require Import Core BinarySingleNaN.
From Verif.Model Require Import Api.
From Verif.Inst Require Import Float.
From Verif.Spec Require Import SpecChain SpecFloat.
From Verif.Proof Require Import PlanViewFacts FloatFacts.
From Verif.Properties Require Import PPlanView.
Local Open Scope general_if_scope.
Local Open Scope nat_scope.

(** ** Any arithmetic: the written distances and the length of the road are running sums of reported lengths *)
Section AnyNum.
  Context {F : Type} `{!Num F}.
  Theorem C59_sums (h h' : heap F) (pv : ref) (from_end : bool) :
    fresh_pv (h_pv h !!! pv) → adjust_geometries pv from_end h = (Ok tt, h') →
    let p := h_pv h !!! pv in let p' := h_pv h' !!! pv in
    ∃ ls, Forall2 (λ g l, reported_length (h_geom h !!! g) l) (if from_end then rev (pv_raw p) else pv_raw p) ls ∧
      pv_total_length p' = sum_from (fofZ 0) ls ∧
      (from_end = false → map pg_s (pv_geoms p') = map Some (distances (fofZ 0) ls)).
  Proof.
    intros Hf E. destruct from_end.
    - destruct (C08_backward_chain h h' pv Hf E) as (rs & ls & q & Hc & _ & _ & _ & Ht & _). exists ls. split; [by eapply back_chain_lengths|]. done.
    - destruct (C06_forward_chain h h' pv Hf E) as (q & t & Hc & _ & _ & _ & Ht & _). destruct (chain_distances _ _ _ _ _ _ _ _ _ Hc) as (ls & H1 & H2 & H3).
      exists ls. split; [done|]. split; [by rewrite Ht H3|done].
  Qed.
End AnyNum.

(** ** Doubles, whatever the functions of the C library do *)
Section Float.
  Context (L : libm).
  Local Instance N : Num float64 := FloatNum L.
  (** every length that the primitive reports is 0 or more *)
  Definition measures (g : geom float64) : Prop := ∀ l, reported_length g l → nonneg64 l.
  Lemma evolves_line l g : evolves (GLine l) g → g = GLine l.
  Proof. induction 1 as [| |]; [done|subst; done..]. Qed.
  Lemma line_measures l : nonneg64 l → measures (GLine l).
  Proof. intros Hl l' (p & q & [(g' & Hg & E)|(g' & Hg & E)]); apply evolves_line in Hg; subst; injection E; intros; by subst. Qed.
  Lemma evolves_spiral cs ce l g : evolves (GSpiral cs ce l) g → g = GSpiral cs ce l.
  Proof. induction 1 as [| |]; [done|subst; done..]. Qed.
  Lemma spiral_measures cs ce l : nonneg64 l → measures (GSpiral cs ce (Some l)).
  Proof.
    intros Hl l' (p & q & [(g' & Hg & E)|(g' & Hg & E)]); apply evolves_spiral in Hg; subst; cbn [geom_end geom_start fst spiral_eval] in E;
      (destruct (euler_create _ _ _); [|discriminate E]); injection E; intros; by subst.
  Qed.
  Lemma measured h pv gs ls : (∀ g, g ∈ pv_raw (h_pv h !!! pv) → measures (h_geom h !!! g)) → (∀ g, g ∈ gs → g ∈ pv_raw (h_pv h !!! pv)) →
    Forall2 (λ g l, reported_length (h_geom h !!! g) l) gs ls → Forall nonneg64 ls.
  Proof.
    intros Hm Hg. induction 1 as [|g l gs ls H1 H2 IH]; constructor; [apply (Hm g); [apply Hg, elem_of_list_here|done]|]. apply IH. intros g' Hg'. apply Hg. by apply elem_of_list_further.
  Qed.

  (** it is so for all primitives with arguments that make sense *)
  Theorem C59_measures (g : geom float64) : sensible L g → measures g.
  Proof. intros H l Hl. by eapply sensible_reports. Qed.
  (** Arc(0.03, length=29) and Line(3) make sense *)
  Example C59_measures_example : sensible L (GArc (b64 1080863910568919 (-55)) (Some (b64 29 0)) None) ∧ sensible L (GLine (b64 3 0)).
  Proof.
    split; [|vm_compute; reflexivity]. simpl. assert (Z : Forall (λ l, nonneg64 l) [b64 29 0]) by (constructor; [vm_compute; reflexivity|done]).
    split; [vm_compute; reflexivity|]. split; [vm_compute; reflexivity|]. revert Z. generalize (b64 29 0). intros x Z. split; [|done]. intros l E.
    apply (inj Some) in E. subst. by apply Forall_inv in Z.
  Qed.

  (** the distances that are written never decrease, and none exceeds the length of the road *)
  Theorem C59_ascending (h h' : heap float64) (pv : ref) :
    fresh_pv (h_pv h !!! pv) → (∀ g, g ∈ pv_raw (h_pv h !!! pv) → measures (h_geom h !!! g)) → adjust_geometries pv false h = (Ok tt, h') →
    let p' := h_pv h' !!! pv in
    ∃ ss, map pg_s (pv_geoms p') = map Some ss ∧
      (∀ i j a b, i < j → ss !! i = Some a → ss !! j = Some b → le64 a b) ∧ ∀ a, a ∈ ss → nonneg64 a ∧ le64 a (pv_total_length p').
  Proof.
    intros Hf Hm E. destruct (C59_sums h h' pv false Hf E) as (ls & H1 & H2 & H3).
    assert (Hn : Forall nonneg64 ls) by (by eapply measured). exists (distances (fofZ 0) ls). split; [by apply H3|].
    assert (Z : nonneg64 b64_zero) by reflexivity. split.
    - intros i j a b Hij Ha Hb. by eapply (distances_ascend L b64_zero ls i j).
    - intros a Ha. rewrite H2. destruct (distances_nonneg L b64_zero ls a Z Hn Ha) as (_ & A & B). done.
  Qed.
  (** the length of a road of [n] primitives is their sum up to [n] roundings *)
  Theorem C59_error (h h' : heap float64) (pv : ref) (from_end : bool) :
    fresh_pv (h_pv h !!! pv) → (∀ g, g ∈ pv_raw (h_pv h !!! pv) → measures (h_geom h !!! g)) → adjust_geometries pv from_end h = (Ok tt, h') →
    let p := h_pv h !!! pv in let t := pv_total_length (h_pv h' !!! pv) in let n := length (pv_raw p) in
    ∃ ls, Forall2 (λ g l, reported_length (h_geom h !!! g) l) (if from_end then rev (pv_raw p) else pv_raw p) ls ∧ Forall nonneg64 ls ∧
      (is_finite t = true → (sum_real ls * (1 - unit_roundoff) ^ n <= real t <= sum_real ls * (1 + unit_roundoff) ^ n)%R).
  Proof.
    intros Hf Hm E. destruct (C59_sums h h' pv from_end Hf E) as (ls & H1 & H2 & _). cbv zeta.
    assert (Hn : Forall nonneg64 ls). { eapply (measured h pv _ ls Hm); [|exact H1]. intros g. destruct from_end; [|done]. rewrite !elem_of_list_In. apply in_rev. }
    assert (El : length ls = length (pv_raw (h_pv h !!! pv))). { apply Forall2_length in H1. rewrite -H1. destruct from_end; [apply rev_length|done]. }
    exists ls. split; [done|]. split; [done|]. rewrite H2. intros Fin. pose proof (sum_error L b64_zero ls eq_refl Hn Fin) as X. rewrite El in X.
    change (real b64_zero) with 0%R in X. rewrite Rplus_0_l in X. exact X.
  Qed.
  (** whole numbers of metres are added exactly below 2^53 *)
  Theorem C59_whole (h h' : heap float64) (pv : ref) (from_end : bool) (zs : list Z) :
    fresh_pv (h_pv h !!! pv) → adjust_geometries pv from_end h = (Ok tt, h') →
    Forall2 (λ g z, ∃ l, h_geom h !!! g = GLine l ∧ is_finite l = true ∧ real l = IZR z ∧ (0 <= z)%Z) (pv_raw (h_pv h !!! pv)) zs → (fold_right Z.add 0 zs < 2 ^ 53)%Z →
    let t := pv_total_length (h_pv h' !!! pv) in is_finite t = true ∧ real t = IZR (fold_right Z.add 0 zs)%Z.
  Proof.
    intros Hf E Hz Hs. destruct (C59_sums h h' pv from_end Hf E) as (ls & H1 & H2 & _). cbv zeta. rewrite H2.
    assert (Q : ∀ gs zs' ls', Forall2 (λ g z, ∃ l, h_geom h !!! g = GLine l ∧ is_finite l = true ∧ real l = IZR z ∧ (0 <= z)%Z) gs zs' →
      Forall2 (λ g l, reported_length (h_geom h !!! g) l) gs ls' → Forall2 (λ l z, is_finite l = true ∧ real l = IZR z ∧ (0 <= z)%Z) ls' zs').
    { clear. intros gs zs' ls' A. revert ls'. induction A as [|g z gs zs (l & Eg & Fl & El & Hz) A IH]; intros ls' B; inversion B as [|? l' ? ls'' B1 B2]; subst; constructor; [|by apply IH].
      assert (l' = l) as ->; [|done]. destruct B1 as (p & q & [(g' & Hg & E)|(g' & Hg & E)]); rewrite Eg in Hg; apply evolves_line in Hg; subst; by injection E. }
    assert (S : ∀ ys, fold_right Z.add 0%Z (rev ys) = fold_right Z.add 0%Z ys).
    { clear. intros ys. assert (G : ∀ xs x, fold_right Z.add x xs = (x + fold_right Z.add 0 xs)%Z) by (intros xs x; induction xs as [|y xs IH]; simpl; lia).
      induction ys as [|y ys IH]; [done|]. simpl. rewrite fold_right_app (G (rev ys)) IH. simpl. lia. }
    destruct from_end.
    - rewrite -S. apply (sum_whole L b64_zero ls 0 (rev zs)); [done|done|done| |by rewrite S].
      eapply Q; [|exact H1]. apply Forall2_reverse in Hz. unfold reverse in Hz. by rewrite -!rev_alt in Hz.
    - apply (sum_whole L b64_zero ls 0 zs); [done|done|done| |done]. by eapply Q.
  Qed.

  (** ** Concrete cases *)
  (* a planview (2) with the primitives 0 and 1 *)
  Definition laid (o1 o2 : op float64) : list (op float64) := [o1; o2; OpPlanView None None None; OpAddGeometry 2 0 None; OpAddGeometry 2 1 None].
  Definition x03 : float64 := b64 1080863910568919 (-55).    (* 0.03 *)
  Definition x01 : float64 := b64 3602879701896397 (-55).    (* 0.1 *)
  (** C59_ascending and C59_error: two lines of length 0.1 and 3 (for any two lengths the heap is the expected one) *)
  Lemma laid_lines a b : let h := run heap_init (laid (OpLine a) (OpLine b)) in fresh_pv (h_pv h !!! 2) ∧ pv_raw (h_pv h !!! 2) = [0; 1] ∧ h_geom h !!! 0 = GLine a ∧ h_geom h !!! 1 = GLine b ∧
    ∃ h', adjust_geometries 2 false h = (Ok tt, h').
  Proof. intros h. split_and!; [vm_compute; split; reflexivity|vm_compute; reflexivity..|].
    assert (E : pv_raw (h_pv h !!! 2) = [0; 1]) by (vm_compute; reflexivity). assert (E0 : h_geom h !!! 0 = GLine a) by (vm_compute; reflexivity). assert (E1 : h_geom h !!! 1 = GLine b) by (vm_compute; reflexivity).
    assert (E2 : pv_over (h_pv h !!! 2) = []) by (vm_compute; reflexivity). clearbody h. apply C06_forward_succeeds; [|by left].
    rewrite E. intros g. rewrite !elem_of_cons elem_of_nil. intros [->|[->|[]]]; [rewrite E0|rewrite E1]; exact I.
  Qed.
  Example C59_example_hypotheses : let h := run heap_init (laid (OpLine x01) (OpLine (b64 3 0))) in
    fresh_pv (h_pv h !!! 2) ∧ (∀ g, g ∈ pv_raw (h_pv h !!! 2) → measures (h_geom h !!! g)) ∧ ∃ h', adjust_geometries 2 false h = (Ok tt, h').
  Proof.
    intros h. destruct (laid_lines x01 (b64 3 0)) as (H1 & H2 & H3 & H4 & H5). fold h in H1, H2, H3, H4, H5. clearbody h. split_and!; [exact H1| |exact H5].
    rewrite H2. intros g. rewrite !elem_of_cons elem_of_nil. intros [->|[->|[]]]; [rewrite H3|rewrite H4]; apply line_measures; vm_compute; reflexivity.
  Qed.
  (** C59_whole: lines of length 7 and 5 *)
  Example C59_whole_example : let h := run heap_init (laid (OpLine (b64 7 0)) (OpLine (b64 5 0))) in
    Forall2 (λ g z, ∃ l, h_geom h !!! g = GLine l ∧ is_finite l = true ∧ real l = IZR z ∧ (0 <= z)%Z) (pv_raw (h_pv h !!! 2)) [7; 5]%Z.
  Proof.
    intros h. destruct (laid_lines (b64 7 0) (b64 5 0)) as (_ & H2 & H3 & H4 & _). fold h in H2, H3, H4. clearbody h. rewrite H2.
    constructor; [|constructor; [|constructor]]; (eexists; split; [first [exact H3|exact H4]|]; split; [vm_compute; reflexivity|]; split; [|lia]).
    - unfold real. rewrite -SF2R_B2SF. assert (E : B2SF (b64 7 0) = SpecFloat.S754_finite false 7881299347898368 (-50)) by (vm_compute; reflexivity). rewrite E. simpl. unfold F2R. simpl. lra.
    - unfold real. rewrite -SF2R_B2SF. assert (E : B2SF (b64 5 0) = SpecFloat.S754_finite false 5629499534213120 (-50)) by (vm_compute; reflexivity). rewrite E. simpl. unfold F2R. simpl. lra.
  Qed.
  (** Rounding can make an arc longer each time it is evaluated: Arc(0.03, length=29) is written with length 29.000000000000004, and the next geometry
      starts at 29.000000000000007, not at 0 + 29.000000000000004.  ([B2SF] shows sign, mantissa and exponent; 1/2^48 is a unit in the last place.) *)
  Theorem C59_refuted_arc : let h := run heap_init (laid (OpArc x03 (Some (b64 29 0)) None) (OpLine (b64 1 0))) in
    match adjust_geometries 2 false h with
    | (Ok _, h') => map (λ r, (B2SF <$> pg_s r, B2SF <$> pg_length r)) (pv_geoms (h_pv h' !!! 2)) =
        [(Some (B2SF b64_zero), Some (B2SF (b64 (29 * 2 ^ 48 + 1) (-48)))); (Some (B2SF (b64 (29 * 2 ^ 48 + 2) (-48))), Some (B2SF (b64 1 0)))]
    | _ => False end.
  Proof. vm_compute. reflexivity. Qed.
End Float.

Print Assumptions C59_sums.
Print Assumptions C59_measures.
Print Assumptions C59_ascending.
Print Assumptions C59_error.
Print Assumptions C59_whole.
Print Assumptions C59_refuted_arc.
