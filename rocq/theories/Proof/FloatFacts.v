(** * Floating-point sums *)
From Coq Require Import ssreflect Reals Lra.
From Flocq Require Import Core BinarySingleNaN Plus_error Relative.
From Verif.Model Require Import Api.
From Verif.Inst Require Import Float.
From Verif.Spec Require Import SpecChain SpecFloat.
From Verif.Proof Require Import PlanViewFacts.
Local Open Scope general_if_scope.
Local Open Scope R_scope.

Notation add64 := (Bplus (prec_gt_0_ := prec64) (prec_lt_emax_ := emax64) mode_NE).
Notation fexp64 := (SpecFloat.fexp 53 1024).
Notation round64 := (round radix2 fexp64 (round_mode mode_NE)).

Lemma le64_finite (x y : float64) : is_finite x = true → is_finite y = true → (le64 x y ↔ B2R x <= B2R y).
Proof. intros Hx Hy. unfold le64. rewrite Bleb_correct //. destruct (Rle_bool_spec (B2R x) (B2R y)); split; intros; [done|done|discriminate|lra]. Qed.
Lemma le64_inf (x y : float64) : is_finite x = false → le64 x y → nonneg64 x → x = B754_infinity false ∧ y = B754_infinity false.
Proof. unfold nonneg64, le64, b64_zero. by destruct x as [?|[]| |], y as [?|[]| |[]]. Qed.
Lemma nonneg_cases (x : float64) : nonneg64 x → x = B754_infinity false ∨ (is_finite x = true ∧ 0 <= B2R x).
Proof.
  intros H. destruct x as [s|s| |s m e Hb]; [right|left|discriminate H|right].
  - split; [done|]. simpl. lra.
  - by destruct s.
  - split; [done|]. apply (le64_finite b64_zero) in H; [|done|done]. simpl in H. by rewrite /= in H |- *.
Qed.
Lemma nonneg_sign (x : float64) : is_finite x = true → 0 <= B2R x → Bsign x = true → B2R x = 0.
Proof.
  destruct x as [s|s| |s m e Hb]; try done. simpl. intros _ H ->. exfalso. revert H. apply Rlt_not_le. by apply F2R_lt_0.
Qed.
Lemma format64 (x : float64) : generic_format radix2 fexp64 (B2R x).
Proof. apply generic_format_B2R. Qed.
Lemma finite_lt (x : float64) : Rabs (B2R x) < bpow radix2 1024.
Proof. apply abs_B2R_lt_emax. Qed.

Lemma le64_trans (s m t : float64) : nonneg64 s → nonneg64 m → nonneg64 t → le64 s m → le64 m t → le64 s t.
Proof.
  intros Hs B B' A A'.
  destruct (nonneg_cases m B) as [->|[Fm _]]; [destruct (le64_inf (B754_infinity false) t eq_refl A' B) as [_ ->]; by destruct s as [[]|[]| |[]]|].
  destruct (nonneg_cases t B') as [->|[Ft _]]. { by destruct s as [[]|[]| |[]]. }
  destruct (nonneg_cases s Hs) as [->|[Fs _]]; [destruct (le64_inf (B754_infinity false) m eq_refl A Hs) as [_ ->]; discriminate Fm|].
  apply le64_finite in A; [|done|done]. apply le64_finite in A'; [|done|done]. apply le64_finite; [done|done|lra].
Qed.

(* adding a length *)
Lemma add_nonneg (s l : float64) : nonneg64 s → nonneg64 l → le64 s (add64 s l) ∧ nonneg64 (add64 s l).
Proof.
  intros Hs Hl. destruct (nonneg_cases s Hs) as [->|[Fs Ps]].
  { destruct (nonneg_cases l Hl) as [->|[Fl Pl]]; [done|]. by destruct l. }
  destruct (nonneg_cases l Hl) as [->|[Fl Pl]]. { by destruct s as [[]| | |[]]. }
  pose proof (Bplus_correct 53 1024 prec64 emax64 mode_NE s l Fs Fl) as C.
  destruct (Rlt_bool_spec (Rabs (round64 (B2R s + B2R l))) (bpow radix2 1024)) as [Hlt|Hge].
  - destruct C as (E & Fin & _). assert (M : B2R s <= B2R (add64 s l)).
    { rewrite E. rewrite -{1}(round_generic radix2 fexp64 (round_mode mode_NE) (B2R s)); [apply format64|]. apply round_le; [apply fexp_correct, prec64|apply valid_rnd_round_mode|lra]. }
    split; [by apply le64_finite|]. apply le64_finite; [done|done|]. simpl. lra.
  - destruct C as [E Hsg]. destruct (Bsign s) eqn:Es.
    + pose proof (nonneg_sign s Fs Ps Es) as Z. rewrite Z Rplus_0_l round_generic in Hge; [apply format64|]. pose proof (finite_lt l). lra.
    + unfold binary_overflow in E. simpl in E. assert (add64 s l = B754_infinity false) as ->. { destruct (add64 s l) as [|[]| |]; simpl in E; congruence. }
      split; [|done]. by destruct s as [[]|[]| |[]].
Qed.
Lemma add_finite (s l : float64) : is_finite (add64 s l) = true → is_finite s = true ∧ is_finite l = true.
Proof. destruct s as [[]|[]| |[]], l as [[]|[]| |[]]; try done. Qed.
Lemma add_real (s l : float64) : is_finite (add64 s l) = true → B2R (add64 s l) = round64 (B2R s + B2R l).
Proof.
  intros H. destruct (add_finite s l H) as [Fs Fl]. pose proof (Bplus_correct 53 1024 prec64 emax64 mode_NE s l Fs Fl) as C.
  destruct (Rlt_bool _ _); [by destruct C|]. destruct C as [E _]. destruct (add64 s l); simpl in *; try discriminate; by destruct (Bsign s).
Qed.
Lemma add_error (s l : float64) : nonneg64 s → nonneg64 l → is_finite (add64 s l) = true →
  (B2R s + B2R l) * (1 - unit_roundoff) <= B2R (add64 s l) <= (B2R s + B2R l) * (1 + unit_roundoff).
Proof.
  intros Hs Hl Hf. destruct (add_finite s l Hf) as [Fs Fl]. apply nonneg_cases in Hs as [->|[_ Ps]]; [done|]. apply nonneg_cases in Hl as [->|[_ Pl]]; [done|].
  rewrite add_real //. destruct (FLT_plus_error_N_ex radix2 (3 - 1024 - 53) 53 (λ x, negb (Z.even x)) (B2R s) (B2R l) (format64 s) (format64 l)) as (eps & He & E).
  change (round64 (B2R s + B2R l)) with (round radix2 (FLT_exp (3 - 1024 - 53) 53) (Znearest (λ x, negb (Z.even x))) (B2R s + B2R l)). rewrite E.
  assert (U : u_ro radix2 53 = unit_roundoff). { unfold u_ro, unit_roundoff. simpl. lra. }
  assert (0 < unit_roundoff). { unfold unit_roundoff. apply Rinv_0_lt_compat. lra. }
  assert (unit_roundoff / (1 + unit_roundoff) <= unit_roundoff). { apply (Rmult_le_reg_r (1 + unit_roundoff)); [lra|]. unfold Rdiv. rewrite Rmult_assoc Rinv_l; [lra|]. nra. }
  rewrite U in He. apply Rabs_le_inv in He. split; apply Rmult_le_compat_l; lra.
Qed.

(** ** Sums in any arithmetic *)
Section Sums.
  Context {F : Type} `{!Num F}.
  Lemma distances_length (s : F) ls : length (distances s ls) = length ls.
  Proof. revert s. induction ls as [|l ls IH]; intros s; [done|]. simpl. by rewrite IH. Qed.
  Lemma used_reports (g : geom F) p q l : reports_end_again g p q (Some l) → reported_length g l.
  Proof. intros (g' & Hu & E). exists p, q. left. exists g'. split; [|done]. destruct Hu; by constructor. Qed.
  Lemma used_reports_start (g : geom F) p q l : reports_start_again g p q (Some l) → reported_length g l.
  Proof. intros (g' & Hu & E). exists p, q. right. exists g'. split; [|done]. destruct Hu; by constructor. Qed.
  Lemma chain_distances (geo : ref → geom F) ov i p s gs rs e t : chain geo ov i p s gs rs e t →
    ∃ ls, Forall2 (λ g l, reported_length (geo g) l) gs ls ∧ map pg_s rs = map Some (distances s ls) ∧ t = sum_from s ls.
  Proof.
    induction 1 as [|i x y h hd s g gs l0 q0 q l rs e t Hh H0 H1 _ (ls & IH1 & IH2 & IH3)]; [by exists []|].
    exists (l :: ls). split_and!; [constructor; [by eapply used_reports|done]| |done]. simpl. by rewrite IH2.
  Qed.
  Lemma back_chain_lengths (geo : ref → geom F) p gs rs ls e : back_chain geo p gs rs ls e → Forall2 (λ g l, reported_length (geo g) l) gs ls.
  Proof. induction 1; constructor; [by eapply used_reports_start|done]. Qed.
End Sums.

Section Float.
  Context (L : libm).
  Local Instance NL : Num float64 := FloatNum L.
  Lemma zero64 : fofZ 0 = b64_zero.
  Proof. reflexivity. Qed.
  Lemma sum_nonneg s ls : nonneg64 s → Forall nonneg64 ls → le64 s (sum_from s ls) ∧ nonneg64 (sum_from s ls).
  Proof.
    revert s. induction ls as [|l ls IH]; intros s Hs Hl.
    - split; [|done]. simpl. destruct (nonneg_cases s Hs) as [->|[Fs _]]; [done|]. apply le64_finite; [done|done|lra].
    - apply Forall_cons in Hl as [Hl Hls]. destruct (add_nonneg s l Hs Hl) as [A B]. destruct (IH (add64 s l) B Hls) as [A' B']. split; [|exact B'].
      change (sum_from s (l :: ls)) with (sum_from (add64 s l) ls). by apply (le64_trans s (add64 s l)).
  Qed.
  Lemma distances_nonneg s ls x : nonneg64 s → Forall nonneg64 ls → x ∈ distances s ls → le64 s x ∧ nonneg64 x ∧ le64 x (sum_from s ls).
  Proof.
    intros Hs Hl Hx. apply elem_of_list_lookup in Hx as [i Hi].
    assert (E : ∃ k r, ls = k ++ r ∧ x = sum_from s k).
    { revert s ls Hs Hl Hi. induction i as [|i IH]; intros s ls Hs Hl Hi; destruct ls as [|l ls]; try discriminate Hi.
      - injection Hi as <-. by exists [], (l :: ls).
      - apply Forall_cons in Hl as [Hl Hls]. destruct (add_nonneg s l Hs Hl) as [_ B]. destruct (IH (add64 s l) ls B Hls Hi) as (k & r & -> & ->). by exists (l :: k), r. }
    destruct E as (k & r & -> & ->). apply Forall_app in Hl as [Hk Hr]. destruct (sum_nonneg s k Hs Hk) as [A B]. split; [done|]. split; [done|].
    unfold sum_from. rewrite foldl_app. by apply (sum_nonneg (foldl fadd s k) r).
  Qed.
  Lemma distances_ascend s ls i j a b : nonneg64 s → Forall nonneg64 ls → (i < j)%nat → distances s ls !! i = Some a → distances s ls !! j = Some b → le64 a b.
  Proof.
    revert s ls j. induction i as [|i IH]; intros s ls j Hs Hl Hij Ha Hb; destruct ls as [|l ls]; try discriminate Ha; (destruct j as [|j]; [lia|]); pose proof (proj1 (Forall_cons _ _ _) Hl) as [Hl1 Hls]; destruct (add_nonneg s l Hs Hl1) as [A B].
    - injection Ha as <-. simpl in Hb. apply elem_of_list_lookup_2 in Hb.
      assert (X : b ∈ distances s (l :: ls)) by (simpl; by apply elem_of_list_further). apply (distances_nonneg s (l :: ls) b Hs Hl X).
    - simpl in Ha, Hb. eapply (IH (add64 s l) ls j); try done. lia.
  Qed.
  Lemma sum_real_nonneg ls : Forall nonneg64 ls → 0 <= sum_real ls.
  Proof. induction 1 as [|l ls Hl _ IH]; simpl; [lra|]. apply nonneg_cases in Hl as [->|[_ H]]; simpl; unfold real in *; simpl in *; lra. Qed.
  Lemma sum_finite s ls : is_finite (sum_from s ls) = true → is_finite s = true.
  Proof. revert s. induction ls as [|l ls IH]; intros s H; [done|]. exact (proj1 (add_finite s l (IH (add64 s l) H))). Qed.
  Lemma roundoff_range : 0 < unit_roundoff < 1.
  Proof. unfold unit_roundoff. split; [apply Rinv_0_lt_compat; lra|]. lra. Qed.
  Lemma sum_error s ls : nonneg64 s → Forall nonneg64 ls → is_finite (sum_from s ls) = true →
    (real s + sum_real ls) * (1 - unit_roundoff) ^ length ls <= real (sum_from s ls) <= (real s + sum_real ls) * (1 + unit_roundoff) ^ length ls.
  Proof.
    pose proof roundoff_range as U. revert s. induction ls as [|l ls IH]; intros s Hs Hl Hf; [simpl; lra|].
    apply Forall_cons in Hl as [Hl Hls]. destruct (add_nonneg s l Hs Hl) as [_ B]. specialize (IH (add64 s l) B Hls Hf).
    pose proof (sum_finite (add64 s l) ls Hf) as Fa. pose proof (add_error s l Hs Hl Fa) as E. pose proof (sum_real_nonneg ls Hls) as P.
    change (sum_from s (l :: ls)) with (sum_from (add64 s l) ls). simpl (length _). cbn [sum_real fold_right]. fold (sum_real ls).
    assert (P1 : 0 < (1 - unit_roundoff) ^ length ls) by (apply pow_lt; lra). assert (P2 : 0 < (1 + unit_roundoff) ^ length ls) by (apply pow_lt; lra).
    unfold real in *. set (x := (1 - unit_roundoff) ^ length ls) in *. set (y := (1 + unit_roundoff) ^ length ls) in *. simpl. fold x y. split.
    - eapply Rle_trans; [|apply IH]. replace ((B2R s + (B2R l + sum_real ls)) * ((1 - unit_roundoff) * x)) with ((B2R s + (B2R l + sum_real ls)) * (1 - unit_roundoff) * x) by ring.
      apply Rmult_le_compat_r; [lra|]. nra.
    - eapply Rle_trans; [apply IH|]. replace ((B2R s + (B2R l + sum_real ls)) * ((1 + unit_roundoff) * y)) with ((B2R s + (B2R l + sum_real ls)) * (1 + unit_roundoff) * y) by ring.
      apply Rmult_le_compat_r; [lra|]. nra.
  Qed.

  (** whole numbers below 2^53 are added exactly *)
  Lemma whole_format z : (0 <= z < 2 ^ 53)%Z → generic_format radix2 fexp64 (IZR z).
  Proof.
    intros Hz. replace (IZR z) with (F2R (Float radix2 z 0)) by (unfold F2R; simpl; lra).
    apply (generic_format_FLT radix2 (3 - 1024 - 53) 53). exists (Float radix2 z 0); simpl; [done| |lia]. rewrite Z.abs_eq; lia.
  Qed.
  Lemma whole_lt z : (0 <= z < 2 ^ 53)%Z → Rabs (IZR z) < bpow radix2 1024.
  Proof.
    intros Hz. rewrite Rabs_right; [apply Rle_ge, (IZR_le 0); lia|]. apply Rlt_trans with (bpow radix2 53); [|by apply bpow_lt].
    rewrite -(IZR_Zpower radix2 53); [lia|]. apply IZR_lt. simpl. lia.
  Qed.
  Lemma add_whole s l a b : is_finite s = true → is_finite l = true → real s = IZR a → real l = IZR b → (0 <= a)%Z → (0 <= b)%Z → (a + b < 2 ^ 53)%Z →
    is_finite (add64 s l) = true ∧ real (add64 s l) = IZR (a + b).
  Proof.
    unfold real. intros Fs Fl Es El Ha Hb Hab. pose proof (Bplus_correct 53 1024 prec64 emax64 mode_NE s l Fs Fl) as C.
    rewrite Es El -plus_IZR round_generic in C; [apply whole_format; lia|]. rewrite Rlt_bool_true in C; [apply whole_lt; lia|]. by destruct C as (? & ? & _).
  Qed.
  Lemma sum_whole s ls a zs : is_finite s = true → real s = IZR a → (0 <= a)%Z →
    Forall2 (λ l z, is_finite l = true ∧ real l = IZR z ∧ (0 <= z)%Z) ls zs → (a + fold_right Z.add 0 zs < 2 ^ 53)%Z →
    is_finite (sum_from s ls) = true ∧ real (sum_from s ls) = IZR (a + fold_right Z.add 0 zs)%Z.
  Proof.
    intros Fs Es Ha H. revert s a Fs Es Ha. induction H as [|l z ls zs (Fl & El & Hz) H IH]; intros s a Fs Es Ha Hb; [simpl; by rewrite Z.add_0_r|].
    assert (0 <= fold_right Z.add 0 zs)%Z. { clear -H. induction H as [|? ? ? ? (? & ? & ?) ? IH]; simpl; lia. }
    simpl in Hb. destruct (add_whole s l a z Fs Fl Es El Ha Hz) as [F' E']; [lia|]. destruct (IH (add64 s l) (a + z)%Z F' E') as [F'' E'']; [lia|lia|].
    split; [done|]. simpl. by rewrite Z.add_assoc.
  Qed.
End Float.

(** ** The lengths that primitives report *)
Notation mul64 := (Bmult (prec_gt_0_ := prec64) (prec_lt_emax_ := emax64) mode_NE).
Notation div64 := (Bdiv (prec_gt_0_ := prec64) (prec_lt_emax_ := emax64) mode_NE).
Lemma zero_spec (x : float64) : is_zero64 x = true ↔ ∃ s, x = B754_zero s.
Proof. unfold is_zero64. split; [|by intros [[] ->]]. destruct x as [s|[]| |[]]; try done. by exists s. Qed.
Lemma abs_nonneg (x : float64) : is_nan x = false → nonneg64 (Babs x).
Proof. by destruct x. Qed.
Lemma mult_solid (x y : float64) : is_nan x = false → is_zero64 x = false → is_nan y = false → is_zero64 y = false → is_nan (mul64 x y) = false.
Proof.
  intros Nx Zx Ny Zy. destruct x as [[]|sx| |sx mx ex Hx], y as [[]|sy| |sy my ey Hy]; try done.
  pose proof (Bmult_correct 53 1024 prec64 emax64 mode_NE (B754_finite sx mx ex Hx) (B754_finite sy my ey Hy)) as C.
  destruct (Rlt_bool _ _); [destruct C as (_ & C & _); revert C|revert C]; generalize (mul64 (B754_finite sx mx ex Hx) (B754_finite sy my ey Hy)) as z; intros z; by destruct z.
Qed.
Lemma radius_solid (c : float64) : is_finite c = true → is_zero64 c = false → is_nan (div64 (b64 1 0) (Babs c)) = false ∧ is_zero64 (div64 (b64 1 0) (Babs c)) = false.
Proof.
  intros Fc Zc. assert (Nz : B2R (Babs c) ≠ 0).
  { destruct c as [[]|s| |s m e H]; try done. simpl. apply Rgt_not_eq. by apply F2R_gt_0. }
  assert (One : B2R (b64 1 0) = 1). { rewrite -SF2R_B2SF. assert (E : B2SF (b64 1 0) = SpecFloat.S754_finite false 4503599627370496 (-52)) by (vm_compute; reflexivity). rewrite E. simpl. unfold F2R. simpl. lra. }
  assert (P : 0 < B2R (Babs c)). { rewrite B2R_Babs in Nz |- *. pose proof (Rabs_pos (B2R c)). lra. }
  pose proof (Bdiv_correct 53 1024 prec64 emax64 mode_NE (b64 1 0) (Babs c) Nz) as C. rewrite One in C. revert C. generalize (div64 (b64 1 0) (Babs c)) as z. intros z.
  assert (Big : bpow radix2 (-1024) <= round64 (1 / B2R (Babs c))).
  { rewrite -(round_generic radix2 fexp64 (round_mode mode_NE) (bpow radix2 (-1024))).
    - apply generic_format_bpow. done.
    - apply round_le; [apply fexp_correct, prec64|apply valid_rnd_round_mode|]. pose proof (finite_lt (Babs c)) as B. rewrite Rabs_right in B; [by apply Rle_ge, Rlt_le|].
      unfold Rdiv. rewrite Rmult_1_l. rewrite (bpow_opp radix2 1024). apply Rinv_le_contravar; [exact P|by apply Rlt_le]. }
  assert (0 < bpow radix2 (-1024)) by apply bpow_gt_0.
  destruct (Rlt_bool _ _).
  - intros (E & Fz & _). assert (Fz' : is_finite z = true) by (rewrite Fz; vm_compute; reflexivity). split; [by destruct z|].
    destruct (is_zero64 z) eqn:Z; [|done]. apply zero_spec in Z as [s ->]. exfalso. revert Big. rewrite -E. simpl. lra.
  - generalize (xorb (Bsign (b64 1 0)) (Bsign (Babs c))) as sg. destruct z as [|[]| |]; intros sg E; try done; exfalso; revert E; by destruct sg.
Qed.

Section Reports.
  Context (L : libm).
  Local Instance NR : Num float64 := FloatNum L.
  Lemma arc_sensible c length angle x y h : is_finite c = true → is_zero64 c = false → (∀ l, length = Some l → nonneg64 l) → (∀ a, angle = Some a → is_nan a = false) →
    let '(r, (length', angle')) := arc_eval c length angle x y h in
    (∀ q l, r = Ok (q, Some l) → nonneg64 l) ∧ (∀ l, length' = Some l → nonneg64 l) ∧ (∀ a, angle' = Some a → is_nan a = false).
  Proof.
    intros Fc Zc Hl Ha. destruct (radius_solid c Fc Zc) as [Nr Zr]. unfold arc_eval.
    cbv beta iota zeta. match goal with |- context [match ?o with Some a => _ | None => (Err TypeError, _) end] => assert (A : ∀ a, o = Some a → is_nan a = false); [|destruct o as [a|]] end.
    { destruct length as [l|]; [|exact Ha]. simpl. unfold ftruthy. match goal with |- context [if negb ?b then _ else _] => destruct b eqn:Zl end; [exact Ha|]. simpl. intros a [= <-]. specialize (Hl l eq_refl).
      apply mult_solid; [by apply nonneg_cases in Hl as [->|[F _]]; [|destruct l]|exact Zl|by destruct c|exact Zc]. }
    2: { split; [done|split; [exact Hl|done]]. }
    specialize (A a eq_refl).
    assert (Hl' : ∀ l, (if ftruthy a then Some (fabs (fmul (fdiv (fofZ 1) (fabs c)) a)) else length) = Some l → nonneg64 l).
    { unfold ftruthy. match goal with |- context [if negb ?b then _ else _] => destruct b eqn:Za end; [exact Hl|]. simpl. intros l [= <-]. apply abs_nonneg. by apply mult_solid. }
    cbv beta iota zeta. split; [intros q l [= _ E]; by apply Hl'|split; [exact Hl'|by intros ? [= <-]]].
  Qed.
  Lemma finite_opp (c : float64) : is_finite c = true → is_zero64 c = false → is_finite (Bopp c) = true ∧ is_zero64 (Bopp c) = false.
  Proof. by destruct c as [| | |[]]. Qed.
  Lemma sensible_end g x y h : sensible L g → sensible L (geom_end g x y h).2 ∧ ∀ q l, (geom_end g x y h).1 = Ok (q, Some l) → nonneg64 l.
  Proof.
    destruct g as [l|cs ce len|c len ang|au bu cu du av bv cv dv pr len]; simpl.
    - intros H. split; [done|]. by intros q l' [= _ <-].
    - intros H. split; [done|]. destruct len as [l|]; [|done]. simpl. destruct (euler_create _ _ _); [|done]. intros q l' [= _ <-]. by apply H.
    - intros (Fc & Zc & Hl & Ha). pose proof (arc_sensible c len ang x y h Fc Zc Hl Ha) as A. destruct (arc_eval _ _ _ _ _ _) as [r [l' a']]. destruct A as (A1 & A2 & A3). simpl. done.
    - unfold poly_param. destruct (String.eqb pr "normalized") eqn:E; simpl; rewrite ?E; intros H.
      + split; [done|]. by intros q l [= _ <-].
      + destruct len as [l|]; simpl; rewrite ?E; (split; [done|]); [|done]. intros q l' [= _ <-]. by apply H.
  Qed.
  Lemma sensible_start g x y h : sensible L g → sensible L (geom_start g x y h).2 ∧ ∀ q l, (geom_start g x y h).1 = Ok (q, Some l) → nonneg64 l.
  Proof.
    destruct g as [l|cs ce len|c len ang|au bu cu du av bv cv dv pr len]; simpl.
    - intros H. split; [done|]. by intros q l' [= _ <-].
    - intros H. split; [done|]. destruct len as [l|]; [|done]. simpl. destruct (euler_create _ _ _); [|done]. intros q l' [= _ <-]. by apply H.
    - intros (Fc & Zc & Hl & Ha). destruct (finite_opp c Fc Zc) as [Fc' Zc']. pose proof (arc_sensible (Bopp c) len ang x y h Fc' Zc' Hl Ha) as A. destruct (arc_eval _ _ _ _ _ _) as [r [l' a']]. destruct A as (A1 & A2 & A3). simpl. done.
    - unfold poly_param. destruct (String.eqb pr "normalized") eqn:E; simpl; rewrite ?E; intros H.
      + split; [done|]. by intros q l [= _ <-].
      + destruct len as [l|]; simpl; rewrite ?E; (split; [done|]); [|done]. intros q l' [= _ <-]. by apply H.
  Qed.
  Lemma sensible_evolves g g' : evolves g g' → sensible L g → sensible L g'.
  Proof. induction 1; [done| |]; intros H0; [apply sensible_end|apply sensible_start]; auto. Qed.
  Lemma sensible_reports g l : sensible L g → reported_length g l → nonneg64 l.
  Proof.
    intros H (p & q & [(g' & Hg & E)|(g' & Hg & E)]); apply (sensible_evolves _ _ Hg) in H; [by eapply (sensible_end g')|by eapply (sensible_start g')].
  Qed.
End Reports.
