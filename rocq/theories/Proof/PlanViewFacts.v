(** adjust_geometries, for any arithmetic *)
From Coq Require Import ssreflect.
From Verif.Model Require Import Geometry.
From Verif.Spec Require Import SpecChain.
From Verif.Proof Require Import Monad.

Local Open Scope general_if_scope.

Section PlanView.
  Context {F : Type} `{!Num F}.
  Notation pose := (F * F * F)%type.
  Local Arguments geom_end : simpl never.
  Local Arguments geom_start : simpl never.

  Lemma evolves_trans (g1 g2 g3 : geom F) : evolves g1 g2 → evolves g2 g3 → evolves g1 g3.
  Proof. intros H1 H2. induction H2; [done|by constructor|by constructor]. Qed.

  (** the part of a planview that adjusting never changes *)
  Definition pv_same (p p' : planview F) : Prop :=
    pv_raw p' = pv_raw p ∧ pv_over p' = pv_over p ∧ pv_fixed p' = pv_fixed p.

  (** everything but the given planview and the caches of primitives is unchanged *)
  Record geo_frame (pv : ref) (h h' : heap F) : Prop := {
    gf_geom : ∀ g, evolves (h_geom h !!! g) (h_geom h' !!! g);
    gf_pv : ∀ r, r ≠ pv → h_pv h' !!! r = h_pv h !!! r;
    gf_same : pv_same (h_pv h !!! pv) (h_pv h' !!! pv);
    gf_lane : h_lane h' = h_lane h;
    gf_sec : h_sec h' = h_sec h;
    gf_lanes : h_lanes h' = h_lanes h;
    gf_linker : h_linker h' = h_linker h;
    gf_conn : h_conn h' = h_conn h;
    gf_junc : h_junc h' = h_junc h;
    gf_obj : h_obj h' = h_obj h;
    gf_road : h_road h' = h_road h;
    gf_odr : h_odr h' = h_odr h;
    gf_ids : h_ids h' = h_ids h;
    gf_next : h_next h' = h_next h
  }.
  #[global] Instance geo_frame_preorder pv : PreOrder (geo_frame pv).
  Proof.
    split.
    - intros h. split; try done. intros g. constructor.
    - intros h1 h2 h3 H12 H23. destruct H12, H23. split; try congruence.
      + intros g. by eapply evolves_trans.
      + intros r Hr. rewrite gf_pv1 //. by apply gf_pv0.
      + destruct gf_same0 as (?&?&?), gf_same1 as (?&?&?). repeat split; congruence.
  Qed.

  Lemma gf_upd_pv pv f : (∀ p, pv_same p (f p)) → Pres (geo_frame pv) (upd_pv pv f).
  Proof.
    intros Hf h. unfold upd_pv, modify. simpl. split; simpl; try done.
    - intros g. constructor.
    - intros r Hr. by rewrite ltm_insert_ne.
    - rewrite ltm_insert. apply Hf.
  Qed.

  Lemma gf_eval_end pv g x y hd : Pres (geo_frame pv) (eval_end g x y hd).
  Proof.
    intros h. unfold eval_end, get_geom. unfold bind at 1, gets. simpl.
    destruct (geom_end (h_geom h !!! g) x y hd) as [r o'] eqn:E.
    unfold upd_geom, modify, bind, lift. simpl. split; simpl; try done.
    intros g'. destruct (decide (g' = g)) as [->|Hne].
    - rewrite ltm_insert. replace o' with (geom_end (h_geom h !!! g) x y hd).2 by (by rewrite E). constructor. constructor.
    - rewrite ltm_insert_ne //. constructor.
  Qed.
  Lemma gf_eval_start pv g x y hd : Pres (geo_frame pv) (eval_start g x y hd).
  Proof.
    intros h. unfold eval_start, get_geom. unfold bind at 1, gets. simpl.
    destruct (geom_start (h_geom h !!! g) x y hd) as [r o'] eqn:E.
    unfold upd_geom, modify, bind, lift. simpl. split; simpl; try done.
    intros g'. destruct (decide (g' = g)) as [->|Hne].
    - rewrite ltm_insert. replace o' with (geom_start (h_geom h !!! g) x y hd).2 by (by rewrite E). constructor. constructor.
    - rewrite ltm_insert_ne //. constructor.
  Qed.

  Ltac pres :=
    repeat first
      [ apply gf_eval_end | apply gf_eval_start
      | apply gf_upd_pv; intros []; done
      | apply pres_ret; apply _ | apply pres_raise; apply _ | apply pres_lift; apply _ | apply pres_gets; apply _
      | apply pres_or_raise; apply _ | apply pres_bind; [apply _| |intros ?] ].

  Lemma gf_adjust_forward pv gs : ∀ i, Pres (geo_frame pv) (adjust_forward pv i gs).
  Proof.
    induction gs as [|g gs IH]; intros i; simpl; [apply pres_ret, _|].
    apply pres_bind; [apply _|apply pres_gets, _|intros p].
    apply pres_bind; [apply _| |intros _].
    { destruct (decide _); pres. }
    apply pres_bind; [apply _|apply pres_gets, _|intros p'].
    apply pres_bind; [apply _| |intros ng]; [unfold pgeom_init; pres|].
    apply pres_bind; [apply _|unfold pgeom_end; pres|intros [[[x y] hd] l]].
    pres. apply IH.
  Qed.

  Lemma gf_adjust_backward pv gs : Pres (geo_frame pv) (adjust_backward pv gs).
  Proof.
    induction gs as [|g gs IH]; simpl; [apply pres_ret, _|].
    apply pres_bind; [apply _|apply pres_gets, _|intros p].
    apply pres_bind; [apply _| |intros ng]; [unfold pgeom_init; pres|].
    apply pres_bind; [apply _| |intros [[[[x y] hd] l] ng']].
    { unfold pgeom_start. apply pres_bind; [apply _|pres|intros [[[x y] hd] l]]. pres. }
    pres. apply IH.
  Qed.

  Lemma gf_assign_s pv ls : Pres (geo_frame pv) (assign_s pv ls).
  Proof. induction ls as [|l ls IH]; simpl; [apply pres_ret, _|]. pres. apply IH. Qed.

  Lemma gf_adjust_geometries pv b : Pres (geo_frame pv) (adjust_geometries pv b).
  Proof.
    unfold adjust_geometries. apply pres_bind; [apply _| |intros _; pres].
    destruct b; simpl.
    - apply pres_bind; [apply _|pres|intros _].
      apply pres_bind; [apply _|apply pres_gets, _|intros p].
      apply pres_bind; [apply _|apply gf_adjust_backward|intros ls].
      apply pres_bind; [apply _|pres|intros _]. pres. apply gf_assign_s.
    - apply pres_bind; [apply _|pres|intros _].
      apply pres_bind; [apply _|apply pres_gets, _|intros p].
      apply pres_bind; [apply _|apply gf_adjust_forward|intros _]. pres.
  Qed.

  Lemma gf_set_start pv x y h : Pres (geo_frame pv) (pv_set_start_point pv x y h).
  Proof. unfold pv_set_start_point. pres. Qed.

  (** ** The functional result of the forward loop *)
  Definition pv_pose (p : planview F) : pose := (pv_x p, pv_y p, pv_h p).

  Lemma reports_evolves (g g' : geom F) p q l : evolves g g' → reports_end g' p q l → reports_end g p q l.
  Proof. intros H (g2 & H2 & E). exists g2. split; [by eapply evolves_trans|done]. Qed.
  Lemma used_evolves (g g' g2 : geom F) : evolves g g' → used g' g2 → used g g2.
  Proof. intros H1 [? ? ? ? ?|? ? ? ? ?]; [apply used_end|apply used_start]; by eapply evolves_trans. Qed.
  Lemma used_is_evolves (g g2 : geom F) : used g g2 → evolves g g2.
  Proof. intros [? ? ? ? ?|? ? ? ? ?]; by constructor. Qed.
  Lemma reports_end_again_evolves (g g' : geom F) p q l : evolves g g' → reports_end_again g' p q l → reports_end_again g p q l.
  Proof. intros H (g2 & H2 & E). exists g2. split; [by eapply used_evolves|done]. Qed.
  Lemma reports_start_again_evolves (g g' : geom F) p q l : evolves g g' → reports_start_again g' p q l → reports_start_again g p q l.
  Proof. intros H (g2 & H2 & E). exists g2. split; [by eapply used_evolves|done]. Qed.

  Lemma chain_evolves (geo geo' : ref → geom F) ov i p s gs rs e t :
    (∀ g, evolves (geo g) (geo' g)) → chain geo' ov i p s gs rs e t → chain geo ov i p s gs rs e t.
  Proof.
    intros H. induction 1; [constructor|].
    econstructor; [done| | |done]; [eapply reports_evolves|eapply reports_end_again_evolves]; eauto.
  Qed.
  Lemma back_chain_evolves (geo geo' : ref → geom F) p gs rs ls e :
    (∀ g, evolves (geo g) (geo' g)) → back_chain geo' p gs rs ls e → back_chain geo p gs rs ls e.
  Proof.
    intros H. induction 1; [constructor|].
    econstructor; try done. eapply reports_start_again_evolves; eauto.
  Qed.

  Lemma eval_end_ok g x y hd h q l h' :
    eval_end g x y hd h = (Ok (q, l), h') →
    (geom_end (h_geom h !!! g) x y hd).1 = Ok (q, l) ∧
    h' = h <| h_geom := <[g := (geom_end (h_geom h !!! g) x y hd).2]> (h_geom h) |>.
  Proof.
    unfold eval_end, get_geom. intros Hr. mrun.
    destruct (geom_end (h_geom h !!! g) x y hd) as [r o'] eqn:E.
    unfold upd_geom in Hr. mrun. done.
  Qed.
  Lemma eval_start_ok g x y hd h q l h' :
    eval_start g x y hd h = (Ok (q, l), h') →
    (geom_start (h_geom h !!! g) x y hd).1 = Ok (q, l) ∧
    h' = h <| h_geom := <[g := (geom_start (h_geom h !!! g) x y hd).2]> (h_geom h) |>.
  Proof.
    unfold eval_start, get_geom. intros Hr. mrun.
    destruct (geom_start (h_geom h !!! g) x y hd) as [r o'] eqn:E.
    unfold upd_geom in Hr. mrun. done.
  Qed.

  Lemma adjust_forward_chain pv gs : ∀ i h h',
    adjust_forward pv i gs h = (Ok tt, h') →
    ∃ rs, chain (λ g, h_geom h !!! g) (pv_over (h_pv h !!! pv)) i (pv_pose (h_pv h !!! pv)) (pv_s (h_pv h !!! pv))
            gs rs (pv_pose (h_pv h' !!! pv)) (pv_s (h_pv h' !!! pv)) ∧
          pv_geoms (h_pv h' !!! pv) = pv_geoms (h_pv h !!! pv) ++ rs ∧
          pv_start (h_pv h' !!! pv) = pv_start (h_pv h !!! pv) ∧
          pv_end (h_pv h' !!! pv) = pv_end (h_pv h !!! pv) ∧
          pv_adjusted (h_pv h' !!! pv) = pv_adjusted (h_pv h !!! pv).
  Proof.
    induction gs as [|g gs IH]; intros i h h' Hr; simpl in Hr.
    { mrun. exists []. split; [constructor|]. rewrite app_nil_r. done. }
    mstep Hr.
    apply bind_ok in Hr as ([] & h1 & H1 & Hr).
    (* the heading override *)
    assert (∃ hd, heading_at (pv_over (h_pv h !!! pv)) i (pv_h (h_pv h !!! pv)) = Some hd ∧
              h_geom h1 = h_geom h ∧
              h_pv h1 !!! pv = (h_pv h !!! pv) <| pv_h := hd |>) as (hd & Hhd & Hg1 & Hp1).
    { destruct (decide _) as [Hlt|Hlt] in H1.
      - apply bind_ok in H1 as (hd & h2 & H2 & H1). mleaf H2. mleaf H1. exists hd.
        split; [|split; [done|by rewrite ltm_insert]].
        unfold heading_at. destruct (pv_over (h_pv h !!! pv)); [simpl in Hlt; lia|done].
      - mleaf H1. exists (pv_h (h_pv h !!! pv)). split; [|split; [done|by destruct (h_pv h !!! pv)]].
        unfold heading_at. destruct (pv_over (h_pv h !!! pv)); [done|simpl in Hlt; lia]. }
    mstep Hr.
    apply bind_ok in Hr as (ng & h2 & H2 & Hr). unfold pgeom_init in H2.
    apply bind_ok in H2 as ([q0 l0] & h2' & H2 & Hng). mleaf Hng.
    apply eval_end_ok in H2 as [Hrep0 ->].
    apply bind_ok in Hr as ([[[x y] hd'] l] & h3 & H3 & Hr). unfold pgeom_end in H3. simpl in H3.
    apply eval_end_ok in H3 as [Hrep ->]. simpl in Hrep.
    mstep Hr. apply bind_ok in Hr as (l' & h5 & H5 & Hr). apply or_raise_ok in H5 as [-> ->]. rename l' into l.
    mstep Hr. mstep Hr.
    match goal with H : adjust_forward _ _ _ ?hh = _ |- _ => set (h4 := hh) in * end.
    destruct (IH _ _ _ Hr) as (rs & Hch & Hgs & Hst & Hen & Had).
    assert (Hev : ∀ g', evolves (h_geom h !!! g') (h_geom h4 !!! g')).
    { intros g'. unfold h4. simpl. rewrite Hg1.
      destruct (decide (g' = g)) as [->|Hne]; [|rewrite !ltm_insert_ne //; constructor].
      rewrite !ltm_insert. apply ev_end, ev_end, ev_refl. }
    assert (Hp4 : h_pv h4 !!! pv = (h_pv h !!! pv) <| pv_x := x |> <| pv_y := y |> <| pv_h := hd' |>
        <| pv_s := fadd (pv_s (h_pv h !!! pv)) l |>
        <| pv_geoms := pv_geoms (h_pv h !!! pv) ++ [mkPgeom (Some (pv_s (h_pv h !!! pv))) (pv_x (h_pv h !!! pv)) (pv_y (h_pv h !!! pv)) hd g l0] |>).
    { unfold h4. simpl. rewrite !ltm_insert Hp1. by destruct (h_pv h !!! pv). }
    clearbody h4. rewrite Hp4 in Hch, Hgs, Hst, Hen, Had. simpl in *.
    exists (mkPgeom (Some (pv_s (h_pv h !!! pv))) (pv_x (h_pv h !!! pv)) (pv_y (h_pv h !!! pv)) hd g l0 :: rs).
    split; [|split; [rewrite Hgs -app_assoc //|done]].
    unfold pv_pose at 1. rewrite Hp1 /= in Hrep0, Hrep. rewrite ?Hg1 in Hrep0, Hrep.
    eapply chain_cons; [done|eexists; split; [constructor|exact Hrep0]| |eapply chain_evolves; [|exact Hch]; done].
    eexists. split; [|exact Hrep].
    simpl. rewrite ltm_insert. constructor. constructor.
  Qed.

  Lemma upd_pv_run pv f (h : heap F) :
    upd_pv pv f h = (Ok tt, h <| h_pv := <[pv := f (h_pv h !!! pv)]> (h_pv h) |>).
  Proof. done. Qed.

  (** ** The backward loop *)
  Lemma adjust_backward_chain pv gs : ∀ h ls ls' h',
    adjust_backward pv gs h = (Ok ls, h') → mapM id ls = Some ls' →
    ∃ rs, back_chain (λ g, h_geom h !!! g) (pv_pose (h_pv h !!! pv)) gs rs ls' (pv_pose (h_pv h' !!! pv)) ∧
          Forall (λ r, pg_s r = None) rs ∧
          h_pv h' !!! pv = (h_pv h !!! pv) <| pv_x := pv_x (h_pv h' !!! pv) |> <| pv_y := pv_y (h_pv h' !!! pv) |>
             <| pv_h := pv_h (h_pv h' !!! pv) |> <| pv_geoms := pv_geoms (h_pv h !!! pv) ++ rs |>.
  Proof.
    induction gs as [|g gs IH]; intros h ls ls' h' Hr Hls; simpl in Hr.
    { mleaf Hr. injection Hls as <-. exists []. split; [constructor|]. split; [constructor|].
      rewrite app_nil_r. by destruct (h_pv h !!! pv). }
    mstep Hr.
    apply bind_ok in Hr as (ng & h2 & H2 & Hr). unfold pgeom_init in H2.
    apply bind_ok in H2 as ([q0 l0] & h2' & H2 & Hng). mleaf Hng.
    apply eval_end_ok in H2 as [Hrep0 ->].
    apply bind_ok in Hr as ([[[[x1 y1] hd1] l1] ng'] & h3 & H3 & Hr). unfold pgeom_start in H3. simpl in H3.
    apply bind_ok in H3 as ([[[x y] hd] l] & h3' & H3 & Hr3). mleaf Hr3.
    apply eval_start_ok in H3 as [Hrep ->]. simpl in Hrep.
    mstep Hr. mstep Hr.
    apply bind_ok in Hr as (ls0 & h4 & Hr & Hret). mleaf Hret.
    match goal with H : adjust_backward _ _ ?hh = _ |- _ => set (h5 := hh) in * end.
    destruct l as [l|]; [|done]. simpl in Hls.
    destruct (mapM id ls0) as [ls1|] eqn:Hls0; [|done]. simpl in Hls. injection Hls as <-.
    destruct (IH _ _ _ _ Hr Hls0) as (rs & Hch & Hno & Hp).
    assert (Hev : ∀ g', evolves (h_geom h !!! g') (h_geom h5 !!! g')).
    { intros g'. unfold h5. simpl.
      destruct (decide (g' = g)) as [->|Hne]; [|rewrite !ltm_insert_ne //; constructor].
      rewrite !ltm_insert. apply ev_start, ev_end, ev_refl. }
    set (r := mkPgeom None x y (fadd hd fpi) g (Some l)) in *.
    assert (Hp5 : h_pv h5 !!! pv = (h_pv h !!! pv) <| pv_x := x |> <| pv_y := y |> <| pv_h := hd |>
        <| pv_geoms := pv_geoms (h_pv h !!! pv) ++ [r] |>).
    { unfold h5. simpl. rewrite !ltm_insert. by destruct (h_pv h !!! pv). }
    clearbody h5. rewrite Hp5 in Hch, Hp. simpl in *.
    exists (r :: rs). split; [|split; [by constructor|]].
    - apply (back_cons _ _ _ _ (x, y, hd)); try done.
      + eexists. split; [|exact Hrep]. rewrite ltm_insert. constructor. constructor.
      + eapply back_chain_evolves; [|exact Hch]; done.
    - rewrite {1}Hp. rewrite /r -app_assoc /=. by destruct (h_pv h !!! pv).
  Qed.

  (** what [assign_s] does to the records *)
  Definition label_last (s : F) (ls : list F) (rs : list (pgeom F)) : list (pgeom F) :=
    match ls with [] => rs | _ => set_last_s (sum_from s (removelast ls)) rs end.

  Lemma set_last_s_twice (s s' : F) (rs : list (pgeom F)) : set_last_s s (set_last_s s' rs) = set_last_s s rs.
  Proof.
    unfold set_last_s. destruct (rev rs) as [|r rs'] eqn:E; [done|]. by rewrite rev_involutive.
  Qed.
  Lemma set_last_s_snoc (s : F) (rs : list (pgeom F)) r : set_last_s s (rs ++ [r]) = rs ++ [r <| pg_s := Some s |>].
  Proof. unfold set_last_s. rewrite rev_app_distr /=. by rewrite rev_involutive. Qed.

  Lemma assign_s_run pv ls : ∀ h, ∃ h',
    assign_s pv ls h = (Ok tt, h') ∧
    h_pv h' !!! pv = (h_pv h !!! pv) <| pv_s := sum_from (pv_s (h_pv h !!! pv)) ls |>
      <| pv_geoms := label_last (pv_s (h_pv h !!! pv)) ls (pv_geoms (h_pv h !!! pv)) |> ∧
    h_geom h' = h_geom h.
  Proof.
    induction ls as [|l ls IH]; intros h; simpl.
    { exists h. split; [done|]. by destruct (h_pv h !!! pv). }
    unfold bind at 1. rewrite upd_pv_run. unfold bind at 1. rewrite upd_pv_run. simpl.
    match goal with |- context [assign_s pv ls ?hh] => set (h1 := hh) end.
    destruct (IH h1) as (h' & -> & Hp & Hg). exists h'. split; [done|].
    assert (Hp1 : h_pv h1 !!! pv = (h_pv h !!! pv) <| pv_s := fadd (pv_s (h_pv h !!! pv)) l |>
       <| pv_geoms := set_last_s (pv_s (h_pv h !!! pv)) (pv_geoms (h_pv h !!! pv)) |>).
    { unfold h1. simpl. rewrite !ltm_insert. by destruct (h_pv h !!! pv). }
    split; [|done]. rewrite Hp Hp1. clear. destruct (h_pv h !!! pv). destruct ls; cbn; [done|]. by rewrite set_last_s_twice.
  Qed.

  (** ** adjust_geometries as a whole *)
  Theorem adjust_forward_spec pv h h' :
    adjust_geometries pv false h = (Ok tt, h') →
    ∃ rs q t,
      chain (λ g, h_geom h !!! g) (pv_over (h_pv h !!! pv)) 0 (pv_pose (h_pv h !!! pv)) (pv_s (h_pv h !!! pv))
        (pv_raw (h_pv h !!! pv)) rs q t ∧
      pv_geoms (h_pv h' !!! pv) = pv_geoms (h_pv h !!! pv) ++ rs ∧
      pv_start (h_pv h' !!! pv) = Some (pv_pose (h_pv h !!! pv)) ∧
      pv_end (h_pv h' !!! pv) = Some q ∧ pv_pose (h_pv h' !!! pv) = q ∧
      pv_total_length (h_pv h' !!! pv) = t ∧
      pv_adjusted (h_pv h' !!! pv) = true.
  Proof.
    unfold adjust_geometries. intros Hr.
    apply bind_ok in Hr as ([] & h1 & H1 & Hr). simpl in H1.
    mstep H1. mstep H1. apply bind_ok in H1 as ([] & h2 & H2 & H1). mleaf H1. mleaf Hr.
    apply adjust_forward_chain in H2 as (rs & Hch & Hgs & Hst & Hen & Had). simpl in *.
    rewrite !ltm_insert in Hch, Hgs, Hst, Hen, Had. rewrite !ltm_insert. simpl in *.
    eexists rs, _, _. split; [exact Hch|]. done.
  Qed.

  Theorem adjust_backward_spec pv h h' :
    adjust_geometries pv true h = (Ok tt, h') →
    ∃ rs ls q,
      back_chain (λ g, h_geom h !!! g) (pv_pose (h_pv h !!! pv)) (rev (pv_raw (h_pv h !!! pv))) rs ls q ∧
      Forall (λ r, pg_s r = None) rs ∧
      pv_geoms (h_pv h' !!! pv) = label_last (fofZ 0) ls (pv_geoms (h_pv h !!! pv) ++ rs) ∧
      pv_end (h_pv h' !!! pv) = Some (turn (pv_pose (h_pv h !!! pv))) ∧
      pv_start (h_pv h' !!! pv) = Some (turn q) ∧ pv_pose (h_pv h' !!! pv) = q ∧
      pv_total_length (h_pv h' !!! pv) = sum_from (fofZ 0) ls ∧
      pv_adjusted (h_pv h' !!! pv) = true.
  Proof.
    unfold adjust_geometries. intros Hr.
    apply bind_ok in Hr as ([] & h1 & H1 & Hr). simpl in H1.
    mstep H1. mstep H1. rewrite ltm_insert /= in H1.
    apply bind_ok in H1 as (ls & h2 & H2 & H1). mstep H1.
    apply bind_ok in H1 as (ls' & h3 & H3 & H1). apply or_raise_ok in H3 as [Hls ->]. mstep H1.
    match type of H1 with assign_s _ _ ?hh = _ => set (h4 := hh) in * end.
    destruct (assign_s_run pv ls' h4) as (h5 & E5 & Hp5 & _). rewrite E5 in H1. injection H1 as ->.
    mleaf Hr.
    destruct (adjust_backward_chain _ _ _ _ _ _ H2 Hls) as (rs & Hch & Hno & Hp). simpl in *.
    rewrite !ltm_insert in Hch, Hp. simpl in *.
    exists rs, ls', (pv_pose (h_pv h2 !!! pv)). split; [exact Hch|]. split; [done|].
    rewrite ltm_insert. simpl. rewrite Hp5. unfold h4. simpl. rewrite !ltm_insert. simpl.
    rewrite {1}Hp {1}Hp. simpl. split; [done|]. split; [by rewrite Hp|]. done.
  Qed.

  Local Ltac dz := match goal with |- context [negb (fiszero ?z)] => destruct (fiszero z) end.
  Lemma evaluable_step (g : geom F) x y hd :
    evaluable g →
    (∃ q l, (geom_end g x y hd).1 = Ok (q, Some l)) ∧ evaluable (geom_end g x y hd).2 ∧
    (∃ q l, (geom_start g x y hd).1 = Ok (q, Some l)) ∧ evaluable (geom_start g x y hd).2.
  Proof.
    assert (Harc : ∀ c length angle x y hd, evaluable (GArc c length angle) →
      ∃ q l a, arc_eval c length angle x y hd = (Ok (q, Some l), (Some l, Some a))).
    { clear. intros c length angle x y hd Hg. unfold arc_eval. simpl in Hg.
      destruct Hg as [(l & -> & Hl)|[(a & -> & Ha)|(l & a & -> & ->)]].
      - simpl. rewrite /ftruthy Hl. simpl. dz; simpl; by eexists _, _, _.
      - destruct length as [l|]; simpl.
        + rewrite /ftruthy. destruct (fiszero l); simpl; dz; simpl; by eexists _, _, _.
        + rewrite /ftruthy Ha. simpl. by eexists _, _, _.
      - simpl. rewrite /ftruthy. destruct (fiszero l); simpl; dz; simpl; by eexists _, _, _. }
    destruct g as [l|cs ce len|c len ang|au bu cu du av bv cv dv pr len]; intros Hg.
    - unfold geom_end, geom_start. simpl. split_and!; try done; by eexists _, _.
    - destruct Hg as (l & -> & Hl). unfold geom_end, geom_start, spiral_eval, euler_create. rewrite Hl. simpl.
      split_and!; try (by eexists _, _); by exists l.
    - unfold geom_end, geom_start.
      destruct (Harc c len ang x y hd Hg) as (q & l & a & ->).
      destruct (Harc (fneg c) len ang x y hd) as (q' & l' & a' & ->); [exact Hg|].
      simpl. split_and!; try (by eexists _, _); right; right; by eexists _, _.
    - unfold geom_end, geom_start, poly_param. simpl in Hg.
      destruct (String.eqb_spec pr "normalized") as [->|Hne].
      + simpl. split_and!; try (by eexists _, _); by left.
      + destruct Hg as [?|Hg]; [done|]. destruct len as [len|]; [|done]. simpl.
        split_and!; try (by eexists _, _); by right.
  Qed.

  Lemma evaluable_placeable (g : geom F) : evaluable g → placeable g.
  Proof.
    intros Hg g' x y hd He.
    assert (Hg' : evaluable g').
    { clear x y hd. induction He as [|g' x y hd He IH|g' x y hd He IH]; [done|..]; by apply evaluable_step. }
    destruct (evaluable_step g' x y hd Hg') as (?&_&?&_). done.
  Qed.

  (** ** Adjusting succeeds when all primitives can be evaluated *)
  Definition all_placeable (h : heap F) (gs : list ref) : Prop := Forall (λ g, placeable (h_geom h !!! g)) gs.

  Lemma placeable_evolves (g g' : geom F) : evolves g g' → placeable g → placeable g'.
  Proof. intros He Hp g2 x y hd H2. apply Hp. by eapply evolves_trans. Qed.
  Lemma all_placeable_frame (h h' : heap F) gs :
    (∀ g, evolves (h_geom h !!! g) (h_geom h' !!! g)) → all_placeable h gs → all_placeable h' gs.
  Proof.
    intros Hf Ha. eapply Forall_impl; [exact Ha|]. intros g. apply placeable_evolves, Hf.
  Qed.

  Lemma eval_end_run g x y hd h :
    placeable (h_geom h !!! g) → ∃ q l h', eval_end g x y hd h = (Ok (q, Some l), h').
  Proof.
    intros Hp. destruct (Hp _ x y hd (ev_refl _)) as [(q & l & E) _].
    unfold eval_end, get_geom, gets, bind. simpl.
    destruct (geom_end (h_geom h !!! g) x y hd) as [r o']. simpl in *. subst r. eexists _, _, _. done.
  Qed.
  Lemma eval_start_run g x y hd h :
    placeable (h_geom h !!! g) → ∃ q l h', eval_start g x y hd h = (Ok (q, Some l), h').
  Proof.
    intros Hp. destruct (Hp _ x y hd (ev_refl _)) as [_ (q & l & E)].
    unfold eval_start, get_geom, gets, bind. simpl.
    destruct (geom_start (h_geom h !!! g) x y hd) as [r o']. simpl in *. subst r. eexists _, _, _. done.
  Qed.

  Lemma adjust_forward_run pv gs : ∀ i h,
    all_placeable h gs → (pv_over (h_pv h !!! pv) = [] ∨ (i + length gs ≤ length (pv_over (h_pv h !!! pv)))%nat) →
    ∃ h', adjust_forward pv i gs h = (Ok tt, h').
  Proof.
    induction gs as [|g gs IH]; intros i h Hpl Hov; simpl; [by eexists|].
    inversion_clear Hpl as [|?? Hg Hgs].
    unfold get_pv at 1. unfold bind at 1, gets. simpl.
    match goal with |- ∃ _, bind ?mm ?kk h = _ => assert (∃ h1, mm h = (Ok tt, h1)) as (h1 & E1) end.
    { destruct (decide _) as [Hlt|Hlt]; [|by eexists].
      destruct Hov as [Hov|Hov]; [rewrite Hov /= in Hlt; lia|].
      destruct (lookup_lt_is_Some_2 (pv_over (h_pv h !!! pv)) i) as [hd Hhd]; [simpl in *; lia|].
      rewrite Hhd. unfold bind, or_raise, ret. rewrite upd_pv_run. by eexists. }
    assert (F1 : geo_frame pv h h1).
    { eapply pres_ok; [|exact E1]. destruct (decide _); pres. }
    rewrite (bind_run _ _ _ _ _ E1).
    unfold get_pv at 1. mexec.
    destruct (eval_end_run g (pv_x (h_pv h1 !!! pv)) (pv_y (h_pv h1 !!! pv)) (pv_h (h_pv h1 !!! pv)) h1) as (q & l & h2 & E2).
    { eapply placeable_evolves; [apply F1|done]. }
    assert (F2 : geo_frame pv h1 h2) by (eapply pres_ok; [apply gf_eval_end|exact E2]).
    unfold pgeom_init. rewrite (bind_run _ _ _ (mkPgeom (Some (pv_s (h_pv h1 !!! pv))) (pv_x (h_pv h1 !!! pv)) (pv_y (h_pv h1 !!! pv)) (pv_h (h_pv h1 !!! pv)) g (Some l)) h2);
      [by rewrite (bind_run _ _ _ _ _ E2)|].
    destruct (eval_end_run g (pv_x (h_pv h1 !!! pv)) (pv_y (h_pv h1 !!! pv)) (pv_h (h_pv h1 !!! pv)) h2) as ([[x y] hd] & l' & h3 & E3).
    { eapply placeable_evolves; [apply F2|]. eapply placeable_evolves; [apply F1|done]. }
    assert (F3 : geo_frame pv h2 h3) by (eapply pres_ok; [apply gf_eval_end|exact E3]).
    unfold pgeom_end. simpl pg_geom. simpl pg_x. simpl pg_y. simpl pg_h. rewrite (bind_run _ _ _ _ _ E3).
    unfold upd_pv. mexec. unfold or_raise. mexec. mexec. mexec.
    assert (F13 : geo_frame pv h h3) by (etrans; [exact F1|]; etrans; [exact F2|exact F3]).
    apply IH.
    - simpl. eapply all_placeable_frame; [apply F13|done].
    - simpl. rewrite !ltm_insert. simpl. destruct (gf_same _ _ _ F13) as (_ & -> & _).
      destruct Hov; [by left|right; simpl in *; lia].
  Qed.

  Lemma adjust_backward_run pv gs : ∀ h,
    all_placeable h gs → ∃ ls h', adjust_backward pv gs h = (Ok (map Some ls), h').
  Proof.
    induction gs as [|g gs IH]; intros h Hpl; simpl; [by exists []; eexists|].
    inversion_clear Hpl as [|?? Hg Hgs].
    unfold get_pv at 1. mexec.
    destruct (eval_end_run g (pv_x (h_pv h !!! pv)) (pv_y (h_pv h !!! pv)) (pv_h (h_pv h !!! pv)) h) as (q & l & h2 & E2); [done|].
    assert (F2 : geo_frame pv h h2) by (eapply pres_ok; [apply gf_eval_end|exact E2]).
    unfold pgeom_init. rewrite (bind_run _ _ _ (mkPgeom (Some (pv_s (h_pv h !!! pv))) (pv_x (h_pv h !!! pv)) (pv_y (h_pv h !!! pv)) (pv_h (h_pv h !!! pv)) g (Some l)) h2);
      [by rewrite (bind_run _ _ _ _ _ E2)|].
    destruct (eval_start_run g (pv_x (h_pv h !!! pv)) (pv_y (h_pv h !!! pv)) (pv_h (h_pv h !!! pv)) h2) as ([[x y] hd] & l' & h3 & E3).
    { eapply placeable_evolves; [apply F2|done]. }
    assert (F3 : geo_frame pv h2 h3) by (eapply pres_ok; [apply gf_eval_start|exact E3]).
    unfold pgeom_start. simpl pg_geom. simpl pg_x. simpl pg_y. simpl pg_h.
    rewrite (bind_run _ _ _ ((x, y, hd), Some l', mkPgeom None x y (fadd hd fpi) g (Some l')) h3);
      [by rewrite (bind_run _ _ _ _ _ E3)|].
    unfold upd_pv. mexec. mexec.
    assert (F13 : geo_frame pv h h3) by (etrans; [exact F2|exact F3]).
    match goal with |- context [bind (adjust_backward pv gs) _ ?hh] => destruct (IH hh) as (ls & h' & E) end.
    { simpl. eapply all_placeable_frame; [apply F13|done]. }
    rewrite (bind_run _ _ _ _ _ E). exists (l' :: ls). by eexists.
  Qed.

  Theorem adjust_geometries_run pv b h :
    all_placeable h (pv_raw (h_pv h !!! pv)) →
    (b = true ∨ pv_over (h_pv h !!! pv) = [] ∨
     (length (pv_raw (h_pv h !!! pv)) ≤ length (pv_over (h_pv h !!! pv)))%nat) →
    ∃ h', adjust_geometries pv b h = (Ok tt, h').
  Proof.
    intros Hpl Hov. unfold adjust_geometries.
    match goal with |- ∃ _, bind ?mm ?kk h = _ => assert (∃ h1, mm h = (Ok tt, h1)) as (h1 & E1) end.
    2: { rewrite (bind_run _ _ _ _ _ E1). rewrite upd_pv_run. by eexists. }
    destruct b; simpl.
    - unfold upd_pv, get_pv. mexec. mexec. cbn [h_pv]. rewrite ltm_insert. simpl pv_raw.
      match goal with |- context [bind (adjust_backward pv ?gs) _ ?hh] => destruct (adjust_backward_run pv gs hh) as (ls & h' & E) end.
      { by apply Forall_rev. }
      rewrite (bind_run _ _ _ _ _ E). mexec.
      assert (mapM id (map Some ls) = Some ls) as -> by (clear; induction ls as [|l ls IH]; simpl; [done|by rewrite IH]).
      unfold or_raise. mexec. mexec.
      match goal with |- context [assign_s pv ls ?hh] => destruct (assign_s_run pv ls hh) as (h5 & -> & _) end.
      by eexists.
    - destruct Hov as [Hov|Hov]; [done|].
      unfold upd_pv, get_pv. mexec. mexec. cbn [h_pv]. rewrite ltm_insert. simpl pv_raw.
      match goal with |- context [bind (adjust_forward pv 0 ?gs) _ ?hh] => destruct (adjust_forward_run pv gs 0 hh) as (h' & E) end.
      { done. }
      { simpl. rewrite ltm_insert. simpl. done. }
      rewrite (bind_run _ _ _ _ _ E). by eexists.
  Qed.
End PlanView.
