(** adjust_geometries over exact reals *)
From Coq Require Import Reals Lra ssreflect.
From Coquelicot Require Import Coquelicot.
From Verif.Model Require Import Geometry.
From Verif.Inst Require Import Real.
From Verif.Spec Require Import SpecPlanView SpecChain.
From Verif.Proof Require Import DrivesFacts GeomReal Monad PlanViewFacts.
Open Scope R_scope.
Local Open Scope general_if_scope.

Section PlanViewReal.
  Context (rstr : R -> string).
  Local Instance rn : Num R := RNum rstr.

  Lemma nondegenerate_shape g g' : evolves g g' → nondegenerate g → nondegenerate g' ∧ same_shape g g'.
  Proof.
    induction 1 as [|g' x y h He IH|g' x y h He IH]; intros Hn.
    - split; [done|apply same_shape_refl].
    - destruct (IH Hn) as [Hn' Hs]. destruct (geom_end_settles rstr g' x y h Hn') as (p & g2 & E & Hse & Hsh).
      change (RNum rstr) with rn in E. rewrite E /=. split; [by apply settled_nondegenerate|]. by eapply same_shape_trans.
    - destruct (IH Hn) as [Hn' Hs]. destruct (geom_start_settles rstr g' x y h Hn') as (p & g2 & E & Hse & Hsh).
      change (RNum rstr) with rn in E. rewrite E /=. split; [by apply settled_nondegenerate|]. by eapply same_shape_trans.
  Qed.

  Lemma used_settled g g' : used g g' → nondegenerate g → settled g' ∧ same_shape g g'.
  Proof.
    intros Hu Hn. destruct Hu as [g' x y h He|g' x y h He].
    - destruct (nondegenerate_shape _ _ He Hn) as [Hn' Hs]. destruct (geom_end_settles rstr g' x y h Hn') as (p & g2 & E & Hse & Hsh).
      change (RNum rstr) with rn in E. rewrite E /=. split; [done|]. by eapply same_shape_trans.
    - destruct (nondegenerate_shape _ _ He Hn) as [Hn' Hs]. destruct (geom_start_settles rstr g' x y h Hn') as (p & g2 & E & Hse & Hsh).
      change (RNum rstr) with rn in E. rewrite E /=. split; [done|]. by eapply same_shape_trans.
  Qed.

  Lemma nondegenerate_placeable g : nondegenerate g → placeable g.
  Proof.
    intros Hn g' x y h He. destruct (nondegenerate_shape _ _ He Hn) as [Hn' Hs]. split.
    - destruct (geom_end_settles rstr g' x y h Hn') as (p & g2 & E & _).
      change (RNum rstr) with rn in E. rewrite E. by eexists _, _.
    - destruct (geom_start_settles rstr g' x y h Hn') as (p & g2 & E & _).
      change (RNum rstr) with rn in E. rewrite E. by eexists _, _.
  Qed.

  Lemma reports_end_length g p q l : nondegenerate g → reports_end g p q l → l = Some (nominal_length g).
  Proof.
    intros Hn (g' & He & E). destruct (nondegenerate_shape _ _ He Hn) as [Hn' Hs].
    destruct (geom_end_settles rstr g' p.1.1 p.1.2 p.2 Hn') as (p' & g2 & E2 & _).
    change (RNum rstr) with rn in E2. rewrite E2 /= in E. simplify_eq. by rewrite (same_shape_length _ _ Hs).
  Qed.

  Lemma reports_end_again_drives g p q l :
    nondegenerate g → reports_end_again g p q l →
    l = Some (nominal_length g) ∧ drives (record_curvature g (nominal_length g)) (nominal_length g) p q.
  Proof.
    intros Hn (g' & Hu & E). destruct (used_settled _ _ Hu Hn) as [Hs Hsh].
    destruct (settled_end rstr g' p.1.1 p.1.2 p.2 Hs) as (p' & g2 & E2 & _ & _ & Hd).
    change (RNum rstr) with rn in E2. rewrite E2 /= in E. simplify_eq.
    rewrite -(same_shape_length _ _ Hsh) -(same_shape_curvature _ _ _ Hsh) in Hd |- *.
    split; [done|]. by destruct p as [[??]?].
  Qed.

  Lemma reports_start_again_drives g p q l :
    nondegenerate g → reports_start_again g p q l →
    l = Some (nominal_length g) ∧
    drives (record_curvature g (nominal_length g)) (nominal_length g) (turned q) (turned p).
  Proof.
    intros Hn (g' & Hu & E). destruct (used_settled _ _ Hu Hn) as [Hs Hsh].
    destruct (settled_start rstr g' p.1.1 p.1.2 p.2 Hs) as (p' & g2 & E2 & _ & _ & Hd).
    change (RNum rstr) with rn in E2. rewrite E2 /= in E. simplify_eq.
    rewrite -(same_shape_length _ _ Hsh) -(same_shape_curvature _ _ _ Hsh) in Hd |- *.
    split; [done|]. apply drives_reverse in Hd.
    destruct p as [[px py] ph]. simpl in *.
    apply: drives_ext; last exact Hd.
    move=> u /=. rewrite Ropp_involutive. f_equal. lra.
  Qed.

  Lemma sum_from_R s ls : sum_from s ls = s + sumR ls.
  Proof. revert s. induction ls as [|l ls IH]; intros s; cbn; [lra|]. rewrite /sum_from in IH. rewrite IH. cbn. lra. Qed.

  Lemma chain_consistent geo geo' i p s gs rs e t :
    (∀ g, g ∈ gs → nondegenerate (geo g)) → (∀ g, evolves (geo g) (geo' g)) →
    chain geo [] i p s gs rs e t →
    consistent geo' p rs e ∧ stationed s rs t ∧ map pg_geom rs = gs ∧
    t = s + sumR (map (λ g, nominal_length (geo g)) gs) ∧
    Forall2 (λ g r, pg_length r = Some (nominal_length (geo g))) gs rs.
  Proof.
    intros Hn Hev. induction 1 as [|i x y h hd s g gs l0 q0 q l rs e t Hh H0 H1 Hch IH]; cbn.
    { split; [constructor|]. split; [constructor|]. split; [done|]. split; [lra|done]. }
    injection Hh as <-.
    destruct IH as (Hc & Hs & Hm & Ht & HF). { intros g' Hg'. apply Hn. by right. }
    assert (Hng : nondegenerate (geo g)) by (apply Hn; by left).
    apply (reports_end_length _ _ _ _ Hng) in H0 as ->.
    apply (reports_end_again_drives _ _ _ _ Hng) in H1 as [[= ->] Hd].
    destruct (nondegenerate_shape _ _ (Hev g) Hng) as [_ Hsh].
    split; [|split; [|split; [by rewrite Hm|split; [rewrite Ht; cbn; lra|]]]].
    - apply (cons_step _ (mkPgeom (Some s) x y h g (Some (nominal_length (geo g)))) rs (nominal_length (geo g)) q); [done| |done].
      cbn. by rewrite -(same_shape_curvature _ _ _ Hsh).
    - by eapply st_step.
    - by constructor.
  Qed.

  Lemma consistent_app geo p rs q rs' e : consistent geo p rs q → consistent geo q rs' e → consistent geo p (rs ++ rs') e.
  Proof. induction 1; cbn; [done|]. intros. eapply cons_step; eauto. Qed.

  Lemma turned_turn (p : R * R * R) : turn p = turned p.
  Proof. by destruct p as [[??]?]. Qed.

  Lemma back_chain_consistent geo geo' p gs rs ls e :
    (∀ g, g ∈ gs → nondegenerate (geo g)) → (∀ g, evolves (geo g) (geo' g)) →
    back_chain geo p gs rs ls e →
    consistent geo' (turned e) (rev rs) (turned p) ∧ map pg_geom rs = gs ∧
    ls = map (λ g, nominal_length (geo g)) gs ∧
    Forall2 (λ g r, pg_length r = Some (nominal_length (geo g))) gs rs.
  Proof.
    intros Hn Hev. induction 1 as [|p g gs q l r rs ls e Hr Hx Hy Hh Hg Hl Hch IH]; cbn.
    { split; [constructor|done]. }
    destruct IH as (Hc & Hm & Hls & HF). { intros g' Hg'. apply Hn. by right. }
    assert (Hng : nondegenerate (geo g)) by (apply Hn; by left).
    apply (reports_start_again_drives _ _ _ _ Hng) in Hr as [[= ->] Hd].
    destruct (nondegenerate_shape _ _ (Hev g) Hng) as [_ Hsh].
    split; [|split; [by rewrite Hg Hm|split; [by rewrite Hls|by constructor]]].
    eapply consistent_app; [exact Hc|].
    assert (turned q = (pg_x r, pg_y r, pg_h r)) as Eq. { destruct q as [[??]?]. cbn in *. by rewrite Hx Hy Hh. }
    rewrite Eq. eapply cons_step; [exact Hl| |constructor].
    rewrite -Eq Hg -(same_shape_curvature _ _ _ Hsh). exact Hd.
  Qed.
End PlanViewReal.
