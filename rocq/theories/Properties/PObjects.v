(** * C36, C48, C49: objects *)
From Coq Require Import ssreflect.
From Verif.Model Require Import Api Xml.
From Verif.Inst Require Import Quarter.
From Verif.Spec Require Import SpecState SpecHistory SpecLanes SpecGenerate SpecObjects.
From Verif.Proof Require Import Monad DictFacts PlanViewFacts NetFrame Reach Steps History Invariants LaneLinks Generate.
From Verif.Properties Require Import PHistory PLaneLinks PGenerators.
Local Open Scope general_if_scope.
Local Open Scope nat_scope.

Section Roadside.
  Context {F : Type} `{!Num F}.
  Implicit Types (h : heap F) (o : road).

  Lemma sum_widths_run h : ∀ ls acc, sum_widths acc ls h = (Ok (foldl (λ w l, fadd w (ln_a (h_lane h !!! l))) acc ls), h).
  Proof. induction ls as [|l ls IH]; intros acc; [done|]. cbn [sum_widths]. unfold get_lane. rewrite bind_gets. apply IH. Qed.

  (** the state with objects [xs] added *)
  Definition ost h (xs : list (sobj F)) : heap F := h <| h_obj := ins_from (h_next h) xs (h_obj h) |> <| h_next := h_next h + length xs |>.
  Definition entry h (pl : ref * bool) (x : ref) : F * Z * F * ref :=
    let S := h_sec h !!! pl.1 in (ls_s S, (if pl.2 then 1 else -1)%Z, width_of h (if pl.2 then ls_left S else ls_right S), x).

  Lemma ost_snoc h xs x : new_obj x (ost h xs) = (Ok (h_next h + length xs), ost h (xs ++ [x])).
  Proof.
    unfold new_obj, ost. simpl. f_equal. rewrite app_length ins_from_app /=. replace (h_next h + (length xs + 1)) with (S (h_next h + length xs)) by lia. done.
  Qed.
  Lemma side_run h proto xs sec (b : bool) : is_Some (h_obj h !! proto) → proto < h_next h →
    (if b then roadside_left proto sec else roadside_right proto sec) (ost h xs) =
    (Ok [entry h (sec, b) (h_next h + length xs)], ost h (xs ++ [h_obj h !!! proto])).
  Proof.
    intros [p Hp] Hlt. assert (Eo : h_obj (ost h xs) !!! proto = h_obj h !!! proto).
    { unfold ost. simpl. rewrite !lookup_total_alt ins_from_old //. }
    destruct b; unfold roadside_left, roadside_right, get_sec, get_obj; rewrite bind_gets bind_gets Eo (bind_run _ _ _ _ _ (ost_snoc _ _ _)) (bind_run _ _ _ _ _ (sum_widths_run _ _ _)); done.
  Qed.
  Fixpoint entries h (pls : list (ref * bool)) (n : nat) : list (F * Z * F * ref) :=
    match pls with [] => [] | pl :: pls' => entry h pl n :: entries h pls' (S n) end.
  Lemma entries_app h : ∀ a b n, entries h (a ++ b) n = entries h a n ++ entries h b (n + length a).
  Proof. induction a as [|x a IH]; intros b n; simpl; [by rewrite Nat.add_0_r|]. by rewrite IH Nat.add_succ_r. Qed.
  Lemma entries_lookup h : ∀ pls n k pl, pls !! k = Some pl → entries h pls n !! k = Some (entry h pl (n + k)).
  Proof. induction pls as [|x pls IH]; intros n [|k] pl; try done; simpl; intros E; [injection E as ->; by rewrite Nat.add_0_r|]. by rewrite (IH _ _ _ E) Nat.add_succ_r. Qed.
  Lemma entries_refs h : ∀ pls n, map (λ e, e.2) (entries h pls n) = seq n (length pls).
  Proof. induction pls as [|x pls IH]; intros n; [done|]. simpl. by rewrite IH. Qed.

  Lemma entries_run h proto side : is_Some (h_obj h !! proto) → proto < h_next h → ∀ secs xs,
    let pls := concat (map (λ sec, match side with side_left => [(sec, true)] | side_right => [(sec, false)] | side_both => [(sec, true); (sec, false)] end) secs) in
    roadside_entries proto side secs (ost h xs) = (Ok (entries h pls (h_next h + length xs)), ost h (xs ++ repeat (h_obj h !!! proto) (length pls))).
  Proof.
    intros Hp Hlt. induction secs as [|sec secs IH]; intros xs pls.
    { unfold pls. simpl. by rewrite app_nil_r. }
    unfold pls. cbn [map concat roadside_entries]. rewrite entries_app app_length repeat_app app_assoc.
    assert (E : ∀ ys l, ys = xs ++ repeat (h_obj h !!! proto) (length l) → 
      (let! rest := roadside_entries proto side secs in ret (entries h l (h_next h + length xs) ++ rest)) (ost h ys) =
      (Ok (entries h l (h_next h + length xs) ++ entries h (concat (map (λ sec, match side with side_left => [(sec, true)] | side_right => [(sec, false)] | side_both => [(sec, true); (sec, false)] end) secs)) (h_next h + length xs + length l)),
       ost h (ys ++ repeat (h_obj h !!! proto) (length (concat (map (λ sec, match side with side_left => [(sec, true)] | side_right => [(sec, false)] | side_both => [(sec, true); (sec, false)] end) secs)))))).
    { intros ys l ->. rewrite (bind_run _ _ _ _ _ (IH _)). unfold ret. rewrite app_length repeat_length. by rewrite Nat.add_assoc. }
    pose proof (λ xs, side_run h proto xs sec true Hp Hlt) as SL. pose proof (λ xs, side_run h proto xs sec false Hp Hlt) as SR. cbv match in SL, SR.
    destruct side.
    - rewrite (bind_run _ _ _ _ _ (SL _)) (bind_run _ _ _ _ _ (SR _)). rewrite -(E _ [(sec, true); (sec, false)]); [done|]. rewrite -(app_assoc xs).
      simpl. rewrite app_length /=. by replace (h_next h + (length xs + 1)) with (S (h_next h + length xs)) by lia.
    - rewrite (bind_run _ _ _ _ _ (SL _)) bind_ret. by rewrite -(E _ [(sec, true)]).
    - rewrite bind_ret (bind_run _ _ _ _ _ (SR _)). by rewrite -(E _ [(sec, false)]).
  Qed.

  Lemma ost_at h a x b : h_obj (ost h (a ++ x :: b)) !! (h_next h + length a) = Some x.
  Proof. unfold ost. simpl. apply ins_from_new. rewrite lookup_app_r // Nat.sub_diag. done. Qed.
  Lemma ost_upd h a x b f : upd_obj (h_next h + length a) f (ost h (a ++ x :: b)) = (Ok tt, ost h (a ++ f x :: b)).
  Proof.
    unfold upd_obj, modify. rewrite (lookup_total_correct _ _ _ (ost_at h a x b)). f_equal. unfold ost. simpl. rewrite !app_length /=.
    assert (E : <[h_next h + length a:=f x]> (ins_from (h_next h) (a ++ x :: b) (h_obj h)) = ins_from (h_next h) (a ++ f x :: b) (h_obj h)); [|by rewrite E].
    apply map_eq. intros i. destruct (decide (i = h_next h + length a)) as [->|Hne].
    - rewrite lookup_insert. symmetry. apply ins_from_new. rewrite lookup_app_r // Nat.sub_diag. done.
    - rewrite lookup_insert_ne // !ins_from_lookup !app_length /=. destruct (decide _) as [H1|]; [|done].
      destruct (decide (i - h_next h < length a)); [by rewrite !lookup_app_l|]. rewrite !lookup_app_r; [lia|lia|].
      destruct (i - h_next h - length a) eqn:En; [lia|done].
  Qed.
  Lemma finish_run h pv p dist sO tO : so_class p = CObject → ∀ pls a,
    for_each (roadside_finish pv dist sO tO) (entries h pls (h_next h + length a)) (ost h (a ++ repeat p (length pls))) =
    (Ok tt, ost h (a ++ map (λ pl, roadside_object h p (pv_s (h_pv h !!! pv)) dist sO tO pl (so_id p)) pls)).
  Proof.
    intros Hc. induction pls as [|pl pls IH]; intros a; [by rewrite /= !app_nil_r|]. cbn [entries for_each length repeat map].
    erewrite bind_run; last first.
    { unfold roadside_finish, entry. rewrite (bind_run _ _ _ _ _ (ost_upd _ _ _ _ _)). unfold get_pv, get_obj. rewrite !bind_gets.
      rewrite (lookup_total_correct _ _ _ (ost_at _ _ _ _)). simpl so_class. rewrite Hc. rewrite bind_ret.
      unfold object_repeat. apply ost_upd. }
    match goal with |- for_each _ _ (ost h (a ++ ?x :: ?b)) = _ => assert (Ex : x = roadside_object h p (pv_s (h_pv h !!! pv)) dist sO tO pl (so_id p)) end.
    { unfold roadside_object, repeat_entry, width_of. destruct pl as [sec []]; destruct p as []; simpl; destruct so_height; done. }
    refine (eq_trans (f_equal (λ x, for_each (roadside_finish pv dist sO tO) (entries h pls (S (h_next h + length a))) (ost h (a ++ x :: repeat p (length pls)))) Ex) _). clear Ex.
    specialize (IH (a ++ [roadside_object h p (pv_s (h_pv h !!! pv)) dist sO tO pl (so_id p)])). rewrite app_length /= in IH.
    replace (h_next h + (length a + 1)) with (S (h_next h + length a)) in IH by lia. rewrite -!(app_assoc a) /= in IH. exact IH.
  Qed.

  (** ** C36 *)
  Theorem C36_roadside h r proto R P dist sO tO side : reachable h → h_road h !! r = Some R → h_obj h !! proto = Some P → so_class P = CObject →
    pv_adjusted (h_pv h !!! rd_planview R) = true →
    let pls := roadside_places h R side in
    ∃ h' xs, step (OpAddObjectRoadside r proto dist sO tO side) h = (Ok RNone, h') ∧
      (* one new object per place, added to the road in this order *)
      length xs = length pls ∧ NoDup xs ∧ h_road h' = <[r := R <| rd_objects := rd_objects R ++ xs |>]> (h_road h) ∧
      (∀ k pl, pls !! k = Some pl → ∃ x i, xs !! k = Some x ∧ is_new h_obj h h' x ∧
         h_obj h' !! x = Some (roadside_object h P (pv_s (h_pv h !!! rd_planview R)) dist sO tO pl (Some i))) ∧
      (* the ids of the new objects differ from each other and from those of all objects that are on a road *)
      (∀ x1 x2 i1 i2, x1 ∈ xs → x2 ∈ xs ∨ placed h x2 → so_class (h_obj h' !!! x2) = CObject → x1 ≠ x2 →
         so_id (h_obj h' !!! x1) = Some i1 → so_id (h_obj h' !!! x2) = Some i2 → pystr i1 ≠ pystr i2) ∧
      (* nothing else changes *)
      kept h_obj h h' ∧ ∃ objs ids next, h' = h <| h_obj := objs |> <| h_ids := ids |> <| h_next := next |> <| h_road := h_road h' |>.
  Proof.
    intros Hr HR HP Hc Ha pls. pose proof (reachable_no_dangling _ Hr) as N. pose proof (nd_obj _ N _ _ HP) as [Hlt _].
    assert (Eh : ost h [] = h). { unfold ost. simpl. rewrite Nat.add_0_r. by destruct h. }
    pose proof (entries_run h proto side (mk_is_Some _ _ HP) Hlt (sections h R) []) as E1. cbv zeta in E1. fold pls in E1. rewrite Eh Nat.add_0_r (lookup_total_correct _ _ _ HP) in E1.
    pose proof (finish_run h (rd_planview R) P dist sO tO Hc pls []) as E2. rewrite Nat.add_0_r !app_nil_l in E2. rewrite app_nil_l in E1.
    set (news := map (λ pl, roadside_object h P (pv_s (h_pv h !!! rd_planview R)) dist sO tO pl (so_id P)) pls) in *.
    set (h1 := ost h news) in *. set (xs := seq (h_next h) (length pls)).
    assert (Hnew : ∀ k pl, pls !! k = Some pl → h_obj h1 !! (h_next h + k) = Some (roadside_object h P (pv_s (h_pv h !!! rd_planview R)) dist sO tO pl (so_id P))).
    { intros k pl Hk. unfold h1, ost. simpl. apply ins_from_new. unfold news. rewrite list_lookup_fmap Hk. done. }
    assert (Hold : ∀ x, x < h_next h → h_obj h1 !! x = h_obj h !! x). { intros x Hx. unfold h1, ost. simpl. by rewrite ins_from_old. }
    assert (Hxs : ∀ x, x ∈ xs → ∃ k pl, pls !! k = Some pl ∧ x = h_next h + k).
    { intros x Hx. apply elem_of_seq in Hx. destruct (lookup_lt_is_Some_2 pls (x - h_next h)) as [pl Hpl]; [lia|]. exists (x - h_next h), pl. split; [done|lia]. }
    assert (Hex : Forall (exists_in h_obj h1) xs).
    { apply Forall_forall. intros x (k & pl & Hk & ->)%Hxs. eexists. by apply Hnew. }
    assert (Hok : ids_ok (placed h) h1).
    { destruct (reachable_ids _ Hr) as [X Y Z].
      assert (G : ∀ x, placed h x → h_obj h1 !!! x = h_obj h !!! x ∧ exists_in h_obj h1 x).
      { intros x Hx. destruct (X x Hx) as [v Hv]. pose proof (nd_obj _ N _ _ Hv) as [Hl _]. split; [by rewrite !lookup_total_alt Hold|]. exists v. by rewrite Hold. }
      split.
      - intros x Hx. by apply G.
      - intros x Hx. destruct (G x Hx) as [-> _]. apply Y, Hx.
      - intros x1 x2 i1 i2 H1 H2. destruct (G x1 H1) as [-> _], (G x2 H2) as [-> _]. by apply Z. }
    destruct (update_ids_ok xs _ h1 Hex Hok) as (h2 & E3 & [Hex2 Hu2 Hd2] & (m & m' & Eh2) & Hno & Hid).
    exists (h2 <| h_road := <[r := R <| rd_objects := rd_objects R ++ xs |>]> (h_road h) |>), xs.
    assert (Er2 : h_road h2 = h_road h) by (by rewrite Eh2). split_and!.
    - unfold step. rewrite guarded_true; [by rewrite (has_true _ _ _ (mk_is_Some _ _ HR)) (has_true _ _ _ (mk_is_Some _ _ HP))|].
      apply as_unit_ok. unfold add_object_roadside, get_road, get_pv, get_lanes. rewrite !bind_gets (lookup_total_correct _ _ _ HR) Ha. cbn [negb].
      rewrite bind_gets. fold (sections h R). rewrite (bind_run _ _ _ _ _ E1) (bind_run _ _ _ _ _ E2). unfold add_object.
      rewrite entries_refs. fold xs. rewrite (bind_run _ _ _ _ _ E3). unfold upd_road, modify. by rewrite Er2 (lookup_total_correct _ _ _ HR).
    - unfold xs. apply seq_length.
    - unfold xs. apply NoDup_ListNoDup, seq_NoDup.
    - done.
    - intros k pl Hk. exists (h_next h + k). assert (Hx : h_next h + k ∈ xs). { apply elem_of_seq. apply lookup_lt_Some in Hk. lia. }
      destruct (Hu2 (h_next h + k) (or_intror Hx)) as (i & Ei & _). exists i.
      assert (Ex : h_obj h2 !! (h_next h + k) = Some (roadside_object h P (pv_s (h_pv h !!! rd_planview R)) dist sO tO pl (Some i))).
      { rewrite (exists_at _ _ _ (Hex2 _ (or_intror Hx))). rewrite Hid Ei (lookup_total_correct _ _ _ (Hnew k pl Hk)). done. }
      split; [apply lookup_seq_lt; by eapply lookup_lt_Some|]. split; [|done]. split; [|by eexists].
      by eapply stored_free; [apply N|lia].
    - simpl. intros x1 x2 i1 i2 H1 H2 Hc2 Hne I1 I2. eapply (Hd2 x1 x2); [by right|tauto|done| |done|done].
      rewrite Hc2. destruct (Hxs x1 H1) as (k & pl & Hk & ->). rewrite Hid. simpl. rewrite (lookup_total_correct _ _ _ (Hnew k pl Hk)). simpl. exact Hc.
    - intros x v Hv. simpl. pose proof (nd_obj _ N _ _ Hv) as [Hl _].
      assert (Hnx : x ∉ xs). { intros Hx. apply elem_of_seq in Hx. lia. }
      assert (He : exists_in h_obj h2 x). { pose proof (f_equal snd E3) as Es. simpl in Es. rewrite -Es. pose proof (nd_update_ids xs h1 Hex) as [Ext _]. apply (e_obj _ _ Ext). exists v. by rewrite Hold. }
      rewrite (exists_at _ _ _ He) (Hno x Hnx). rewrite lookup_total_alt Hold // Hv. done.
    - eexists m, m', _. rewrite Eh2. unfold h1, ost. done.
  Qed.
  (** on a road that is not adjusted nothing happens *)
  Theorem C36_not_adjusted h r proto R dist sO tO side : h_road h !! r = Some R → exists_in h_obj h proto →
    pv_adjusted (h_pv h !!! rd_planview R) = false →
    step (OpAddObjectRoadside r proto dist sO tO side) h = (Err RoadsAndLanesNotAdjusted, h).
  Proof.
    intros HR HP Ha. unfold step. rewrite guarded_true; [by rewrite (has_true _ _ _ (mk_is_Some _ _ HR)) (has_true _ _ _ HP)|].
    apply as_unit_err. unfold add_object_roadside, get_road, get_pv. by rewrite !bind_gets (lookup_total_correct _ _ _ HR) Ha.
  Qed.
End Roadside.

(** ** C48 *)
Section Dimensions.
  Context {F : Type} `{!Num F}.
  Implicit Types (h : heap F).

  (** the value of an attribute of the element that is written for an object *)
  Definition obj_attr (o : sobj F) (k : string) : option string := dict_get (xattrs (sobj_element o)) k.

  Lemma obj_attr_dims o : so_class o = CObject →
    obj_attr o "radius" = fstr <$> so_radius o ∧
    obj_attr o "length" = match so_radius o, so_length o, so_width o with None, Some l, Some _ => Some (fstr l) | _, _, _ => None end ∧
    obj_attr o "width" = fstr <$> so_width o.
  Proof.
    intros Hc. unfold obj_attr, sobj_element. rewrite Hc. simpl xattrs. unfold object_attributes, common_attributes.
    destruct (ftruthy (so_pitch o)), (ftruthy (so_roll o)), (so_width o), (so_height o), (so_name o), (so_validLength o), (so_radius o), (so_length o); done.
  Qed.
  Theorem C48_dimensions h x o : reachable h → h_obj h !! x = Some o → so_class o = CObject →
    (is_Some (obj_attr o "radius") ∧ obj_attr o "length" = None ∧ obj_attr o "width" = None) ∨
    (obj_attr o "radius" = None ∧ is_Some (obj_attr o "length") ∧ is_Some (obj_attr o "width")) ∨
    (obj_attr o "radius" = None ∧ obj_attr o "length" = None ∧ obj_attr o "width" = None).
  Proof.
    intros Hr Ho Hc. pose proof (reachable_obj_wf h Hr x) as [W _]. rewrite (lookup_total_correct _ _ _ Ho) in W. specialize (W Hc).
    destruct (obj_attr_dims o Hc) as (-> & -> & ->). destruct (so_radius o).
    - left. destruct W as [-> _]. simpl. split_and!; [by eexists|done|done].
    - right. destruct (so_width o) eqn:Ew, (so_length o) eqn:El; simpl.
      + left. split_and!; [done|by eexists..].
      + exfalso. destruct W as [W _]. destruct (W (ltac:(by eexists))). done.
      + exfalso. destruct W as [_ W]. destruct (W (ltac:(by eexists))). done.
      + by right.
  Qed.
  (** which values are written for a given call of the constructor, now or after any later calls *)
  Theorem C48_values h x h' s t ty st id n dy z o hd p r width len he radius vl os : reachable h →
    step (OpObject s t ty st id n dy z o hd p r width len he radius vl) h = (Ok (RRef x), h') →
    let X := h_obj (run h' os) !!! x in
    exists_in h_obj (run h' os) x ∧
    obj_attr X "radius" = fstr <$> radius ∧
    obj_attr X "length" = match radius, width, len with Some _, _, _ | _, None, None => None | _, _, Some l => Some (fstr l) | _, _, None => Some (fstr (fofZ 0)) end ∧
    obj_attr X "width" = match radius, width, len with Some _, _, _ | _, None, None => None | _, Some w, _ => Some (fstr w) | _, None, _ => Some (fstr (fofZ 0)) end ∧
    obj_attr X "height" = fstr <$> he ∧ obj_attr X "validLength" = fstr <$> vl.
  Proof.
    intros Hr E X. assert (Hr' : reachable h'). { replace h' with (step (OpObject s t ty st id n dy z o hd p r width len he radius vl) h).2 by (by rewrite E). by apply (run_reachable h [_]). }
    assert (Hx : h_obj h' !! x = Some (object_ctor s t ty st id n dy z o hd p r width len he radius vl)).
    { unfold step, as_ref, new_obj, bind, ret in E. injection E as <- <-. simpl. apply lookup_insert. }
    pose proof (run_obj_keeps h' x os Hr' (mk_is_Some _ _ Hx)) as (i & s' & t' & hd' & rp & EX). fold X in EX. rewrite (lookup_total_correct _ _ _ Hx) in EX.
    split. { apply (run_ind (λ h', exists_in h_obj h' x) h' os Hr'); [by eexists|]. intros h1 h2 _ H1 A. by apply (e_obj _ _ (astep_ext _ _ A)). }
    assert (Hc : so_class X = CObject). { rewrite EX. by destruct radius, width, len. }
    destruct (obj_attr_dims X Hc) as (-> & -> & ->). rewrite EX. clear EX. split; [by destruct radius, width, len|]. split; [by destruct radius, width, len|]. split; [by destruct radius, width, len|].
    unfold obj_attr, sobj_element, object_attributes, common_attributes.
    destruct radius, width, len; simpl; destruct (ftruthy p), (ftruthy r), he, n, vl; done.
  Qed.
End Dimensions.

(** ** C49 *)
Section Repeat.
  Context {F : Type} `{!Num F}.
  Implicit Types (h : heap F).

  (** a required value: the argument, or else the value of the object *)
  Definition given_or (arg : option F) (own : F) : option string := Some (fstr (match arg with Some v => v | None => own end)).
  (** a required height: as above, but the text None if there is neither *)
  Definition height_or (arg own : option F) : option string :=
    Some match arg, own with Some v, _ => fstr v | None, Some v => fstr v | None, None => "None" end.

  Theorem C49_entry h x o len dist sStart tStart tEnd heightStart heightEnd zStart zEnd wStart wEnd lStart lEnd rStart rEnd :
    h_obj h !! x = Some o → so_class o = CObject →
    ∃ e, step (OpRepeat x len dist sStart tStart tEnd heightStart heightEnd zStart zEnd wStart wEnd lStart lEnd rStart rEnd) h
         = (Ok RNone, h <| h_obj := <[x := o <| so_repeats := so_repeats o ++ [e] |>]> (h_obj h) |>) ∧
      dict_get e "length" = Some (fstr len) ∧ dict_get e "distance" = Some (fstr dist) ∧
      dict_get e "s" = given_or sStart (so_s o) ∧ dict_get e "tStart" = given_or tStart (so_t o) ∧ dict_get e "tEnd" = given_or tEnd (so_t o) ∧
      dict_get e "heightStart" = height_or heightStart (so_height o) ∧ dict_get e "heightEnd" = height_or heightEnd (so_height o) ∧
      dict_get e "zOffsetStart" = given_or zStart (so_zoffset o) ∧ dict_get e "zOffsetEnd" = given_or zEnd (so_zoffset o) ∧
      dict_get e "widthStart" = fstr <$> wStart ∧ dict_get e "widthEnd" = fstr <$> wEnd ∧
      dict_get e "lengthStart" = fstr <$> lStart ∧ dict_get e "lengthEnd" = fstr <$> lEnd ∧
      dict_get e "radiusStart" = fstr <$> rStart ∧ dict_get e "radiusEnd" = fstr <$> rEnd.
  Proof.
    intros Ho Hc. exists (repeat_entry o len dist sStart tStart tEnd heightStart heightEnd zStart zEnd wStart wEnd lStart lEnd rStart rEnd).
    split.
    - unfold step. rewrite guarded_true; [by rewrite (has_true _ _ _ (mk_is_Some _ _ Ho))|]. apply as_unit_ok.
      unfold get_obj. rewrite bind_gets (lookup_total_correct _ _ _ Ho) Hc. unfold object_repeat, upd_obj, modify. by rewrite (lookup_total_correct _ _ _ Ho).
    - unfold repeat_entry, given_or, height_or.
      split_and!; try reflexivity; try (by destruct sStart); try (by destruct tStart); try (by destruct tEnd);
        try (by destruct heightStart, (so_height o)); try (by destruct heightEnd, (so_height o)); try (by destruct zStart); try (by destruct zEnd);
        simpl; destruct wStart, wEnd, lStart, lEnd, rStart, rEnd; reflexivity.
  Qed.
  (** every repeat element of every object that is ever written has the nine required attributes *)
  Theorem C49_complete h x o e k : reachable h → h_obj h !! x = Some o → e ∈ xchildren (sobj_element o) →
    k ∈ ["length"; "distance"; "s"; "tStart"; "tEnd"; "heightStart"; "heightEnd"; "zOffsetStart"; "zOffsetEnd"] →
    xtag e = Some "repeat" ∧ is_Some (dict_get (xattrs e) k).
  Proof.
    intros Hr Ho He Hk. pose proof (reachable_obj_wf h Hr x) as [_ W]. rewrite (lookup_total_correct _ _ _ Ho) in W.
    unfold sobj_element in He. destruct (so_class o); [by apply elem_of_nil in He|]. simpl in He.
    apply elem_of_list_fmap in He as (d & -> & Hd). split; [done|]. simpl. destruct (W d Hd) as (vs & rest & Hl & _ & ->).
    apply dict_get_keys. rewrite map_app. apply elem_of_app. left. change (map fst (zip repeat_keys vs)) with ((zip repeat_keys vs).*1).
    rewrite fst_zip; [simpl; lia|]. exact Hk.
  Qed.
  (** a Signal has no repeat *)
  Theorem C49_signal h x o len dist a b c d e f g i j k l m n : h_obj h !! x = Some o → so_class o = CSignal →
    step (OpRepeat x len dist a b c d e f g i j k l m n) h = (Err AttributeError, h) ∧ xchildren (sobj_element o) = [].
  Proof.
    intros Ho Hc. split; [|unfold sobj_element; by rewrite Hc].
    unfold step. rewrite guarded_true; [by rewrite (has_true _ _ _ (mk_is_Some _ _ Ho))|]. apply as_unit_err.
    unfold get_obj. by rewrite bind_gets (lookup_total_correct _ _ _ Ho) Hc.
  Qed.
End Repeat.

(** ** Concrete cases (arithmetic: quarter turns, so pi is 2) *)
Section Examples.
  Local Existing Instance QNum.
  (** a straight road (9) of length 100 with two lanes of width 3 on each side, adjusted; a prototype (11) of width 1 without height *)
  Definition post : op Z := OpObject 0%Z 0%Z (inl ot_pole) None None None dyn_no 0%Z or_none 0%Z 0%Z 0%Z (Some 1%Z) None None None None.
  Definition roadside_setup : list (op Z) := [OpCreateStraightRoad (PInt 1) 100%Z (-1) 2 3%Z; OpOpenDrive "x"; OpAddRoad 10 9; OpAdjustRoadsAndLanes 10; post].
  Example C36_example_hypotheses : let h := run heap_init roadside_setup in ∃ R P, h_road h !! 9 = Some R ∧ h_obj h !! 11 = Some P ∧
    so_class P = CObject ∧ pv_adjusted (h_pv h !!! rd_planview R) = true ∧ length (roadside_places h R side_both) = 2.
  Proof. eexists _, _. split_and!; vm_compute; reflexivity. Qed.
  Example C36_example : let h := run heap_init (roadside_setup ++ [OpAddObjectRoadside 9 11 20%Z 5%Z 1%Z side_both]) in
    map (λ x, let o := h_obj h !!! x in (x, so_id o, so_s o, so_t o, so_hdg o)) (rd_objects (h_road h !!! 9)) =
      [(12%nat, Some (PStr "0"), 5, 7, 2)%Z; (13%nat, Some (PStr "1"), 5, -7, 0)%Z] ∧ so_id (h_obj h !!! 11) = None.
  Proof. split; vm_compute; reflexivity. Qed.
  Example C48_example : let h := run heap_init roadside_setup in let o := h_obj h !!! 11 in
    reachable h ∧ exists_in h_obj h 11 ∧ so_class o = CObject ∧ obj_attr o "radius" = None ∧ obj_attr o "width" = Some "1" ∧ obj_attr o "length" = Some "0".
  Proof. split; [by eexists|]. split; [eexists; vm_compute; reflexivity|]. split_and!; vm_compute; reflexivity. Qed.
  (** C49 is false for an object without height: the required heights are written as the text None *)
  Theorem C49_refuted_height : let h := run heap_init [post; OpRepeat 0 50%Z 5%Z None None None None None None None None None None None None None] in
    map (λ e, (dict_get (xattrs e) "heightStart", dict_get (xattrs e) "heightEnd", dict_get (xattrs e) "length")) (xchildren (sobj_element (h_obj h !!! 0))) =
    [(Some "None", Some "None", Some "50")].
  Proof. vm_compute. reflexivity. Qed.
End Examples.

Print Assumptions C36_roadside.
Print Assumptions C36_not_adjusted.
Print Assumptions C48_dimensions.
Print Assumptions C48_values.
Print Assumptions C49_entry.
Print Assumptions C49_complete.
Print Assumptions C49_signal.
Print Assumptions C49_refuted_height.
