(** Every API call on existing objects is a sequence of atomic changes (Reach.v) *)
From Coq Require Import ssreflect.
From Verif.Model Require Import Api.
From Verif.Spec Require Import SpecChain SpecState SpecKeeps.
From Verif.Proof Require Import Monad DictFacts PlanViewFacts NetFrame Reach.
Local Open Scope general_if_scope.

Section Steps.
  Context {F : Type} `{!Num F}.
  Local Arguments geom_end : simpl never.
  Local Arguments geom_start : simpl never.
  Implicit Types (h : heap F).

  Definition wp {A} (m : H (F:=F) A) (Q : A → heap F → Prop) h : Prop :=
    no_dangling h → rtc astep h (m h).2 ∧ ∀ a h', m h = (Ok a, h') → Q a h'.

  Lemma wp_nd {A} (m : H (F:=F) A) Q h : (no_dangling h → wp m Q h) → wp m Q h.
  Proof. intros H N. by apply H. Qed.
  Lemma wp_bind {A B} (m : H (F:=F) A) (k : A → H (F:=F) B) R Q h :
    wp m R h → (∀ a h', ext h h' → no_dangling h' → R a h' → wp (k a) Q h') → wp (bind m k) Q h.
  Proof.
    intros Hm Hk N. destruct (Hm N) as [S1 HR]. unfold bind. destruct (m h) as [[a|e] h1]; simpl in *; [|split; [done|by intros ? ? [=]]].
    assert (N1 := asteps_no_dangling _ _ S1 N). destruct (Hk a h1 (asteps_ext _ _ S1) N1 (HR _ _ eq_refl) N1) as [S2 HQ].
    split; [by etrans|done].
  Qed.
  Lemma wp_bindT {A B} (m : H (F:=F) A) (k : A → H (F:=F) B) Q h :
    wp m (λ _ _, True) h → (∀ a h', ext h h' → no_dangling h' → True → wp (k a) Q h') → wp (bind m k) Q h.
  Proof. apply wp_bind. Qed.
  Lemma wp_mono {A} (m : H (F:=F) A) (R Q : A → heap F → Prop) h :
    wp m R h → (∀ a h', ext h h' → no_dangling h' → R a h' → Q a h') → wp m Q h.
  Proof.
    intros Hm Hk N. destruct (Hm N) as [S1 HR]. split; [done|]. intros a h' E. rewrite E in S1. simpl in S1.
    apply Hk; [by apply asteps_ext|by eapply asteps_no_dangling|by apply HR].
  Qed.
  Lemma wp_gets {A} (f : heap F → A) (Q : A → heap F → Prop) h : Q (f h) h → wp (gets f) Q h.
  Proof. intros HQ N. split; [reflexivity|]. by intros a h' [= <- <-]. Qed.
  Lemma wp_bgets {A B} (f : heap F → A) (k : A → H (F:=F) B) Q h : wp (k (f h)) Q h → wp (bind (gets f) k) Q h.
  Proof. done. Qed.
  Lemma wp_ret {A} (a : A) (Q : A → heap F → Prop) h : Q a h → wp (ret a) Q h.
  Proof. intros HQ N. split; [reflexivity|]. by intros ? h' [= <- <-]. Qed.
  Lemma wp_bret {A B} (a : A) (k : A → H (F:=F) B) Q h : wp (k a) Q h → wp (bind (ret a) k) Q h.
  Proof. done. Qed.
  Lemma wp_raise {A} e (Q : A → heap F → Prop) h : wp (raise e) Q h.
  Proof. intros N. split; [reflexivity|]. by intros ? h' [=]. Qed.
  Lemma wp_or_raise {A} e (o : option A) (Q : A → heap F → Prop) h : (∀ a, o = Some a → Q a h) → wp (or_raise e o) Q h.
  Proof. intros HQ. destruct o; [apply wp_ret; auto|apply wp_raise]. Qed.
  Lemma wp_lift {A} (o : res A) (Q : A → heap F → Prop) h : (∀ a, o = Ok a → Q a h) → wp (lift o) Q h.
  Proof. intros HQ. intros N. split; [reflexivity|]. intros a h' [= -> <-]. auto. Qed.
  Lemma wp_atomic {A} (m : H (F:=F) A) (Q : A → heap F → Prop) h :
    astep h (m h).2 → (∀ a h', m h = (Ok a, h') → Q a h') → wp m Q h.
  Proof. intros Hs HQ N. split; [by apply rtc_once|done]. Qed.
  Lemma wp_for_each {A} (f : A → H (F:=F) unit) l h :
    (∀ x h', x ∈ l → ext h h' → no_dangling h' → wp (f x) (λ _ _, True) h') → wp (for_each f l) (λ _ _, True) h.
  Proof.
    revert h. induction l as [|x l IH]; intros h Hf; simpl; [by apply wp_ret|].
    eapply wp_nd; intros N. eapply wp_bind; [apply Hf; [by left|reflexivity|done]|]. intros _ h1 E1 N1 _. apply IH.
    intros y h2 Hy E2 N2. apply Hf; [by right|by etrans|done].
  Qed.

  Ltac ex :=
    lazymatch goal with
    | |- exists_in _ ?h' _ =>
      first [ assumption
            | match goal with E : ext ?h h' |- _ =>
                first [ apply (e_geom _ _ E) | apply (e_pv _ _ E) | apply (e_lane _ _ E) | apply (e_sec _ _ E) | apply (e_lanes _ _ E)
                      | apply (e_linker _ _ E) | apply (e_conn _ _ E) | apply (e_junc _ _ E) | apply (e_obj _ _ E) | apply (e_road _ _ E)
                      | apply (e_odr _ _ E) ]; ex end ]
    end.

  Lemma T {A} (m : H (F:=F) A) (Q : A → heap F → Prop) h : wp m Q h → wp m (λ _ _, True) h.
  Proof. intros H. by eapply wp_mono. Qed.

  (** *** allocation *)
  Lemma new_exists {V} (f : heap F → gmap nat V) h x (h' : heap F) : f h' = <[h_next h := x]> (f h) → exists_in f h' (h_next h).
  Proof. intros E. unfold exists_in. rewrite E lookup_insert. eauto. Qed.
  Ltac newly c := apply wp_atomic; [apply c; assumption|]; intros r h'; intros [= <- <-]; simpl; eapply new_exists; reflexivity.
  Lemma wp_new_geom x h : wp (new_geom x) (λ r h', exists_in h_geom h' r) h. Proof. newly as_geom_new. Qed.
  Lemma wp_new_pv p h : pv_raw p = [] → pv_geoms p = [] → wp (new_pv p) (λ r h', exists_in h_pv h' r) h.
  Proof. intros. newly as_pv_new. Qed.
  Lemma wp_lane_ctor ty a b c d s h : wp (lane_ctor ty a b c d s) (λ r h', exists_in h_lane h' r) h. Proof. newly as_lane_new. Qed.
  Lemma wp_lanes_ctor h : wp lanes_ctor (λ r h', exists_in h_lanes h' r) h. Proof. newly as_lanes_new. Qed.
  Lemma wp_linker_ctor h : wp linker_ctor (λ r h', exists_in h_linker h' r) h. Proof. newly as_linker_new. Qed.
  Lemma wp_conn_ctor i c cp id h : wp (connection_ctor i c cp id) (λ r h', exists_in h_conn h' r) h. Proof. newly as_conn_new. Qed.
  Lemma wp_junc_ctor n id h : wp (junction_ctor n id) (λ r h', exists_in h_junc h' r) h. Proof. newly as_junc_new. Qed.
  Lemma wp_new_obj x h : obj_wf x ∨ (∃ r, x = h_obj h !!! r) → wp (new_obj x) (λ r h', exists_in h_obj h' r) h. Proof. intros. newly as_obj_new. Qed.
  Lemma wf_signal s t c ty st id n dy v u z o ho p r he w : obj_wf (signal_ctor s t c ty st id n dy v u z o ho p r he w).
  Proof. split; simpl; [done|intros d []%elem_of_nil|intros d k v' []%elem_of_nil]. Qed.
  Lemma wf_object s t ty st id n dy z o hd p r w l he ra vl : obj_wf (object_ctor s t ty st id n dy z o hd p r w l he ra vl).
  Proof. destruct ra, w, l; (split; simpl; [intros _|intros d Hd; by apply elem_of_nil in Hd|intros d ?? Hd; by apply elem_of_nil in Hd]); try done; split; intros [? ?]; try discriminate; eexists; reflexivity. Qed.
  Lemma moves_place (o : sobj F) s t hd : obj_moves o (o <| so_t := t |> <| so_s := s |> <| so_hdg := hd |>).
  Proof. exists s, t, hd, []. rewrite app_nil_r. by destruct o. Qed.
  Lemma moves_repeat (o : sobj F) rp : obj_moves o (o <| so_repeats := so_repeats o ++ rp |>).
  Proof. exists (so_s o), (so_t o), (so_hdg o), rp. by destruct o. Qed.
  Lemma wf_place (o : sobj F) s t hd : obj_wf o → obj_wf (o <| so_s := s |> <| so_t := t |> <| so_hdg := hd |>).
  Proof. intros [A B C]. split; [exact A|exact B|exact C]. Qed.
  Lemma wf_repeat (o : sobj F) len dist a b c d e f g i j k l m n : obj_wf o →
    obj_wf (o <| so_repeats := so_repeats o ++ [repeat_entry o len dist a b c d e f g i j k l m n] |>).
  Proof.
    intros [A B C]. split; [exact A| |].
    - simpl. intros x [Hx| ->%elem_of_list_singleton]%elem_of_app; [by apply B|].
      eexists [_;_;_;_;_;_;_;_;_], _. split; [reflexivity|]. split; [|reflexivity].
      rewrite !map_app. unfold optional_keys, opt_attr. destruct i, j, k, l, m, n; simpl; repeat constructor.
    - simpl. intros x kk v [Hx| ->%elem_of_list_singleton]%elem_of_app; [by apply C|]. clear A B C. unfold repeat_entry.
      assert (O : ∀ key (y : option F), (kk, v) ∈ opt_attr key (fstr <$> y) → ∃ x : F, v = fstr x).
      { intros key [y|]; simpl; [intros [= -> ->]%elem_of_list_singleton; by eexists|intros []%elem_of_nil]. }
      rewrite !elem_of_app !elem_of_cons. intros [H|[H|[H|[H|[H|[H|H]]]]]]; [|left; eapply O; exact H..].
      destruct H as [[= -> ->]|[[= -> ->]|[[= -> ->]|[[= -> ->]|[[= -> ->]|[[= -> ->]|[[= -> ->]|[[= -> ->]|[[= -> ->]|[]%elem_of_nil]]]]]]]]]; try (left; by eexists).
      + destruct d; [left; by eexists|]. destruct (so_height o); [left; by eexists|right; split; [by left|done]].
      + destruct e; [left; by eexists|]. destruct (so_height o); [left; by eexists|right; split; [by right; left|done]].
  Qed.
  Lemma wp_odr_ctor n h : wp (odr_ctor n) (λ r h', exists_in h_odr h' r) h. Proof. newly as_odr_new. Qed.
  Lemma wp_road_ctor id pv ls ty n ru h : exists_in h_pv h pv → exists_in h_lanes h ls →
    wp (road_ctor id pv ls ty n ru) (λ r h', exists_in h_road h' r) h.
  Proof. intros. newly as_road_new. Qed.
  Lemma wp_section_ctor s c h : exists_in h_lane h c → wp (lanesection_ctor s c) (λ r h', exists_in h_sec h' r) h.
  Proof. intros. newly as_sec_new. Qed.

  Ltac atom c := intros; apply wp_atomic; [apply c; assumption|done].
  Lemma wp_lane_add_link l ty id h : exists_in h_lane h l → wp (lane_add_link l ty id) (λ _ _, True) h. Proof. atom as_lane_link. Qed.
  Lemma wp_lane_mark l m h : exists_in h_lane h l → wp (lane_add_roadmark l m) (λ _ _, True) h. Proof. atom as_lane_mark. Qed.
  Lemma wp_left s l h : exists_in h_sec h s → exists_in h_lane h l → wp (add_left_lane s l) (λ _ _, True) h. Proof. atom as_left. Qed.
  Lemma wp_right s l h : exists_in h_sec h s → exists_in h_lane h l → wp (add_right_lane s l) (λ _ _, True) h. Proof. atom as_right. Qed.
  Lemma wp_upd_pv pv f h : exists_in h_pv h pv → pv_refs_ok h (f (h_pv h !!! pv)) →
    pv_keeps (h_pv h !!! pv) (f (h_pv h !!! pv)) → wp (upd_pv pv f) (λ _ _, True) h.
  Proof. atom as_pv. Qed.
  Lemma wp_upd_pv_same pv f h : exists_in h_pv h pv →
    (∀ p, pv_raw (f p) = pv_raw p ∧ pv_geoms (f p) = pv_geoms p ∧ pv_fixed (f p) = pv_fixed p ∧ pv_over (f p) = pv_over p ∧
      (pv_adjusted p = true → pv_adjusted (f p) = true) ∧ (pv_start p ≠ None → pv_start (f p) ≠ None) ∧ (pv_end p ≠ None → pv_end (f p) ≠ None)) → wp (upd_pv pv f) (λ _ _, True) h.
  Proof.
    intros Hp Hf. apply wp_nd; intros N. destruct (Hf (h_pv h !!! pv)) as (A & B & C & D & E1 & E2 & E3). apply wp_upd_pv; [done| |split; rewrite ?A ?B ?D; done].
    unfold pv_refs_ok. rewrite A B. apply (nd_pv _ N _ _ (exists_at _ _ _ Hp)).
  Qed.
  Lemma wp_upd_pv_geoms pv ng h : exists_in h_pv h pv → exists_in h_geom h (pg_geom ng) →
    wp (upd_pv pv (λ p, p <| pv_geoms := pv_geoms p ++ [ng] |>)) (λ _ _, True) h.
  Proof.
    intros Hp Hg. apply wp_nd; intros N. apply wp_upd_pv; [done| |split; simpl; try done; rewrite map_app; by apply prefix_app_r]. destruct (nd_pv _ N _ _ (exists_at _ _ _ Hp)) as (_ & A & B).
    split; simpl; [exact A|]. intros g. rewrite elem_of_app elem_of_list_singleton. intros [?| ->]; auto.
  Qed.

  (** *** planviews *)
  Lemma wp_eval_end g x y hd h : exists_in h_geom h g → wp (eval_end g x y hd) (λ _ _, True) h.
  Proof.
    intros Hg. apply wp_bgets. destruct (geom_end _ x y hd) as [r o] eqn:E. eapply wp_bindT; [|intros; by apply wp_lift].
    apply wp_atomic; [|done]. apply as_geom; [done|]. change o with (r, o).2. rewrite -E. apply ev_end, ev_refl.
  Qed.
  Lemma wp_eval_start g x y hd h : exists_in h_geom h g → wp (eval_start g x y hd) (λ _ _, True) h.
  Proof.
    intros Hg. apply wp_bgets. destruct (geom_start _ x y hd) as [r o] eqn:E. eapply wp_bindT; [|intros; by apply wp_lift].
    apply wp_atomic; [|done]. apply as_geom; [done|]. change o with (r, o).2. rewrite -E. apply ev_start, ev_refl.
  Qed.
  Lemma wp_add_geometry pv g hd h : exists_in h_pv h pv → exists_in h_geom h g → wp (pv_add_geometry pv g hd) (λ _ _, True) h.
  Proof.
    intros Hp Hg. eapply wp_bind.
    { apply wp_nd; intros N. apply wp_upd_pv; [done| |].
      - pose proof (nd_pv _ N _ _ (exists_at _ _ _ Hp)) as [_ A]. by destruct hd.
      - destruct hd; split; simpl; try done. by apply prefix_app_r. }
    intros _ h1 E1 N1 _. apply wp_upd_pv; [ex| |split; simpl; try done; by apply prefix_app_r]. destruct (nd_pv _ N1 pv _ (exists_at _ _ _ (e_pv _ _ E1 _ Hp))) as (_ & A & B).
    split; simpl; [|exact B]. intros x. rewrite elem_of_app elem_of_list_singleton. intros [?| ->]; [auto|ex].
  Qed.
  Lemma wp_set_start pv x y hd h : exists_in h_pv h pv → wp (pv_set_start_point pv x y hd) (λ _ _, True) h.
  Proof. intros. by apply wp_upd_pv_same. Qed.
  Lemma wp_pgeom_init s x y hd g h : exists_in h_geom h g → wp (pgeom_init s x y hd g) (λ ng _, pg_geom ng = g) h.
  Proof. intros. eapply wp_bind; [by apply wp_eval_end|]. intros. by apply wp_ret. Qed.
  Lemma wp_adjust_forward pv gs : ∀ i h, exists_in h_pv h pv → (∀ g, g ∈ gs → exists_in h_geom h g) →
    wp (adjust_forward pv i gs) (λ _ _, True) h.
  Proof.
    induction gs as [|g gs IH]; intros i h Hp Hgs; simpl; [by apply wp_ret|].
    assert (Hg : exists_in h_geom h g) by (apply Hgs; by left).
    apply wp_bgets. eapply wp_bindT; [|intros _ h1 E1 N1 _].
    { destruct (decide _); [|by apply wp_ret]. eapply wp_bindT; [by apply wp_or_raise|]. intros. apply wp_upd_pv_same; [ex|done]. }
    apply wp_bgets. eapply wp_bind; [apply wp_pgeom_init; ex|]. intros ng h2 E2 N2 Hng.
    eapply wp_bind; [apply wp_eval_end; rewrite Hng; ex|]. intros [[[x y] hd] l] h3 E3 N3 _.
    eapply wp_bind; [apply wp_upd_pv_same; [ex|done]|]. intros _ h4 E4 N4 _.
    eapply wp_bindT; [by apply wp_or_raise|]. intros l' h5 E5 N5 _.
    eapply wp_bind; [apply wp_upd_pv_same; [ex|done]|]. intros _ h6 E6 N6 _.
    eapply wp_bind; [apply wp_upd_pv_geoms; [ex|rewrite Hng; ex]|]. intros _ h7 E7 N7 _.
    apply IH; [ex|]. intros g' Hg'. assert (exists_in h_geom h g') by (apply Hgs; by right). ex.
  Qed.
  Lemma wp_adjust_backward pv gs : ∀ h, exists_in h_pv h pv → (∀ g, g ∈ gs → exists_in h_geom h g) →
    wp (adjust_backward pv gs) (λ _ _, True) h.
  Proof.
    induction gs as [|g gs IH]; intros h Hp Hgs; simpl; [by apply wp_ret|].
    assert (Hg : exists_in h_geom h g) by (apply Hgs; by left).
    apply wp_bgets. eapply wp_bind; [apply wp_pgeom_init; ex|]. intros ng h2 E2 N2 Hng.
    eapply (wp_bind _ _ (λ r _, pg_geom r.2 = g)).
    { eapply wp_bind; [apply wp_eval_start; rewrite Hng; ex|]. intros [[[x y] hd] l] h3 E3 N3 _. by apply wp_ret. }
    intros [[[[x y] hd] l] ng'] h3 E3 N3 Hng'. simpl in Hng'.
    eapply wp_bind; [apply wp_upd_pv_same; [ex|done]|]. intros _ h6 E6 N6 _.
    eapply wp_bind; [apply wp_upd_pv_geoms; [ex|rewrite Hng'; ex]|]. intros _ h7 E7 N7 _.
    eapply wp_bind; [apply IH; [ex|]|].
    { intros g' Hg'. assert (exists_in h_geom h g') by (apply Hgs; by right). ex. }
    intros. by apply wp_ret.
  Qed.
  Lemma set_last_s_geoms s (l : list (pgeom F)) : map pg_geom (set_last_s s l) = map pg_geom l.
  Proof.
    unfold set_last_s. destruct (rev l) as [|x l'] eqn:E.
    - destruct l; [done|]. simpl in E. by destruct (rev l).
    - rewrite -(rev_involutive l) E. simpl. by rewrite !map_app.
  Qed.
  Lemma set_last_s_spots s (l : list (pgeom F)) : map spot (set_last_s s l) = map spot l.
  Proof.
    unfold set_last_s. destruct (rev l) as [|x l'] eqn:E.
    - apply (f_equal (@rev _)) in E. rewrite rev_involutive in E. by subst.
    - apply (f_equal (@rev _)) in E. rewrite rev_involutive in E. subst. simpl. by rewrite !map_app.
  Qed.
  Lemma wp_assign_s pv ls : ∀ h, exists_in h_pv h pv → wp (assign_s pv ls) (λ _ _, True) h.
  Proof.
    induction ls as [|l ls IH]; intros h Hp; simpl; [by apply wp_ret|].
    apply wp_nd; intros N. eapply wp_bind; [apply wp_upd_pv; [done| |split; simpl; try done; by rewrite set_last_s_spots]|].
    { destruct (nd_pv _ N _ _ (exists_at _ _ _ Hp)) as (_ & A & B). split; simpl; [exact A|].
      intros g Hg. apply (elem_of_list_fmap_1 pg_geom) in Hg.
      match goal with |- exists_in _ _ ?x => change (x ∈ map pg_geom (set_last_s (pv_s (h_pv h !!! pv)) (pv_geoms (h_pv h !!! pv)))) in Hg end.
      rewrite set_last_s_geoms in Hg. apply elem_of_list_fmap in Hg as (g' & -> & Hg'). by apply B. }
    intros _ h1 E1 N1 _. eapply wp_bind; [apply wp_upd_pv_same; [ex|done]|]. intros _ h2 E2 N2 _. apply IH. ex.
  Qed.
  Lemma wp_adjust_geometries pv b h : exists_in h_pv h pv → wp (adjust_geometries pv b) (λ _ _, True) h.
  Proof.
    intros Hp. eapply wp_bindT; [|intros; apply wp_upd_pv_same; [ex|done]]. destruct b; simpl.
    - eapply wp_bind; [by apply wp_upd_pv_same|]. intros _ h1 E1 N1 _. apply wp_bgets.
      eapply wp_bind; [apply wp_adjust_backward; [ex|]|].
      { intros g Hg. rewrite elem_of_rev in Hg. apply (nd_pv_raw _ pv); [done|ex|exact Hg]. }
      intros ls h2 E2 N2 _. eapply wp_bind; [apply wp_upd_pv_same; [ex|done]|]. intros _ h3 E3 N3 _.
      eapply wp_bindT; [by apply wp_or_raise|]. intros ls' h4 E4 N4 _.
      eapply wp_bind; [apply wp_upd_pv_same; [ex|done]|]. intros _ h5 E5 N5 _. apply wp_assign_s. ex.
    - eapply wp_bind; [by apply wp_upd_pv_same|]. intros _ h1 E1 N1 _. apply wp_bgets.
      eapply wp_bind; [apply wp_adjust_forward; [ex|]|].
      { intros g Hg. apply (nd_pv_raw _ pv); [done|ex|exact Hg]. }
      intros _ h2 E2 N2 _. apply wp_upd_pv_same; [ex|done].
  Qed.

  (** *** lane sections, links, junctions *)
  Lemma wp_add_lanesection ls sec ks h : exists_in h_lanes h ls → exists_in h_sec h sec → Forall (exists_in h_linker h) ks →
    wp (add_lanesection ls sec ks) (λ _ _, True) h.
  Proof.
    intros H1 H2 Hk. eapply wp_bind; [apply wp_for_each|].
    - intros k h1 Hin E1 N1. apply wp_bgets. apply wp_for_each. intros i h2 _ E2 N2.
      assert (exists_in h_linker h k) by by eapply Forall_forall in Hk. apply wp_atomic; [|done]. apply as_linker_use. ex.
    - intros _ h1 E1 N1 _. apply wp_atomic; [apply as_lanes_add; ex|done].
  Qed.
  Lemma wp_add_connection j c h : exists_in h_junc h j → exists_in h_conn h c → wp (add_connection j c) (λ _ _, True) h. Proof. atom as_conn_add. Qed.
  Lemma wp_add_lanelink c i o h : exists_in h_conn h c → wp (conn_add_lanelink c i o) (λ _ _, True) h. Proof. atom as_conn_link. Qed.

  Lemma py_index_elem {A} (l : list A) i x : py_index l i = Some x → x ∈ l.
  Proof. unfold py_index. destruct (_ <=? _)%Z; [|destruct (_ <=? _)%Z]; [..|done]; intros ?; by eapply elem_of_list_lookup_2. Qed.
  Lemma wp_py_index_opt {A} (l : list A) i (Q : A → heap F → Prop) h : (∀ a, a ∈ l → Q a h) → wp (py_index_opt l i) Q h.
  Proof. intros HQ. destruct i; [|apply wp_raise]. apply wp_or_raise. intros a Ha. by apply HQ, (py_index_elem _ z). Qed.
  Lemma wp_road_section r i h : exists_in h_lanes h (rd_lanes r) →
    wp (road_section r i) (λ s h', ∃ x, exists_in h_sec h' x ∧ s = h_sec h' !!! x) h.
  Proof.
    intros Hl. apply wp_nd; intros N. apply wp_bgets.
    eapply wp_bind; [apply (wp_py_index_opt _ _ (λ x h', exists_in h_sec h' x)); intros; by eapply nd_lanes_sec|].
    intros x h1 E1 N1 Hx. apply wp_gets. by exists x.
  Qed.
  Lemma wp_lane_id_times l s h : wp (lane_id_times l s) (λ _ _, True) h.
  Proof.
    apply wp_bgets. eapply wp_bindT; [by apply wp_or_raise|]. intros. eapply wp_bindT; [by apply wp_or_raise|]. intros. by apply wp_ret.
  Qed.
  Lemma sec_left_ex h x i l : no_dangling h → exists_in h_sec h x → ls_left (h_sec h !!! x) !! i = Some l → exists_in h_lane h l.
  Proof. intros N Hx Hl. eapply nd_sec_left; [done|exact Hx|by eapply elem_of_list_lookup_2]. Qed.
  Lemma sec_right_ex h x i l : no_dangling h → exists_in h_sec h x → ls_right (h_sec h !!! x) !! i = Some l → exists_in h_lane h l.
  Proof. intros N Hx Hl. eapply nd_sec_right; [done|exact Hx|by eapply elem_of_list_lookup_2]. Qed.

  Ltac sect := eapply wp_bind; [apply wp_road_section; ex|].

  Lemma wp_links_connecting c r h : exists_in h_road h c → exists_in h_road h r →
    wp (create_links_connecting_road c r) (λ _ _, True) h.
  Proof.
    intros Hc Hr. apply wp_nd; intros N. apply wp_bgets, wp_bgets.
    pose proof (nd_road_lanes _ _ N Hc) as Hcl. pose proof (nd_road_lanes _ _ N Hr) as Hrl.
    set (C := h_road h !!! c) in *. set (R := h_road h !!! r) in *.
    eapply wp_bindT; [by apply wp_lift|]. intros [[lt sg] csec] h1 E1 N1 _.
    eapply wp_bindT; [by apply wp_lift|]. intros [[? ?] rsec] h2 E2 N2 _.
    destruct csec as [ci|]; [|by apply wp_ret]. sect. intros s h3 E3 N3 (x & Hx & ->).
    eapply wp_bindT; [|intros _ h4 E4 N4 _].
    - destruct (ls_left _) eqn:El; [by apply wp_ret|]. clear El. sect. intros s' h4 E4 N4 _. apply wp_for_each.
      intros i h5 _ E5 N5. sect. intros s1 h6 E6 N6 (x1 & Hx1 & ->). eapply wp_bindT; [by apply wp_or_raise|]. intros rl h7 E7 N7 _.
      eapply wp_bind; [by apply wp_lane_id_times|]. intros k h8 E8 N8 _. sect. intros s2 h9 E9 N9 (x2 & Hx2 & ->).
      eapply wp_bind; [apply (wp_or_raise _ _ (λ l h', exists_in h_lane h' l)); intros; by eapply sec_left_ex|]. intros cl h10 E10 N10 Hcl'.
      by apply wp_lane_add_link.
    - sect. intros s3 h5 E5 N5 (x3 & Hx3 & ->).
      destruct (ls_right _) eqn:El; [by apply wp_ret|]. clear El. apply wp_for_each.
      intros i h6 _ E6 N6. sect. intros s1 h7 E7 N7 (x1 & Hx1 & ->). eapply wp_bindT; [by apply wp_or_raise|]. intros rl h8 E8 N8 _.
      eapply wp_bind; [by apply wp_lane_id_times|]. intros k h9 E9 N9 _. sect. intros s2 h10 E10 N10 (x2 & Hx2 & ->).
      eapply wp_bind; [apply (wp_or_raise _ _ (λ l h', exists_in h_lane h' l)); intros; by eapply sec_right_ex|]. intros cl h11 E11 N11 Hcl'.
      by apply wp_lane_add_link.
  Qed.
  Lemma wp_links_roads p s h : exists_in h_road h p → exists_in h_road h s → wp (create_links_roads p s) (λ _ _, True) h.
  Proof.
    intros Hc Hr. apply wp_nd; intros N. apply wp_bgets, wp_bgets.
    pose proof (nd_road_lanes _ _ N Hc) as Hcl. pose proof (nd_road_lanes _ _ N Hr) as Hrl.
    set (C := h_road h !!! p) in *. set (R := h_road h !!! s) in *.
    eapply wp_bindT; [by apply wp_lift|]. intros [[lt sg] csec] h1 E1 N1 _.
    eapply wp_bindT; [by apply wp_lift|]. intros [[? ?] rsec] h2 E2 N2 _.
    sect. intros s1 h3 E3 N3 _. sect. intros s2 h4 E4 N4 _.
    eapply wp_bindT; [|intros _ h5 E5 N5 _].
    - destruct (bool_decide _); [|apply wp_raise]. apply wp_for_each. intros i h5 _ E5 N5.
      sect. intros s3 h6 E6 N6 (x1 & Hx1 & ->).
      eapply wp_bind; [apply (wp_or_raise _ _ (λ l h', exists_in h_lane h' l)); intros; by eapply sec_left_ex|]. intros pl h7 E7 N7 Hpl.
      eapply wp_bind; [by apply wp_lane_id_times|]. intros k h8 E8 N8 _.
      eapply wp_bind; [apply wp_lane_add_link; ex|]. intros _ h9 E9 N9 _. sect. intros s4 h10 E10 N10 (x2 & Hx2 & ->).
      eapply wp_bind; [apply (wp_or_raise _ _ (λ l h', exists_in h_lane h' l)); intros; by eapply sec_left_ex|]. intros sl h11 E11 N11 Hsl.
      eapply wp_bindT; [by apply wp_or_raise|]. intros. apply wp_lane_add_link. ex.
    - sect. intros s3 h6 E6 N6 _. sect. intros s4 h7 E7 N7 _.
      destruct (bool_decide _); [|apply wp_raise]. apply wp_for_each. intros i h8 _ E8 N8.
      sect. intros s5 h9 E9 N9 (x1 & Hx1 & ->).
      eapply wp_bind; [apply (wp_or_raise _ _ (λ l h', exists_in h_lane h' l)); intros; by eapply sec_right_ex|]. intros pl h10 E10 N10 Hpl.
      apply wp_bgets.
      eapply wp_bind; [apply wp_lane_add_link; ex|]. intros _ h11 E11 N11 _. sect. intros s6 h12 E12 N12 (x2 & Hx2 & ->).
      eapply wp_bind; [apply (wp_or_raise _ _ (λ l h', exists_in h_lane h' l)); intros; by eapply sec_right_ex|]. intros sl h13 E13 N13 Hsl.
      by apply wp_lane_add_link.
  Qed.
  Lemma wp_create_lane_links r1 r2 h : exists_in h_road h r1 → exists_in h_road h r2 → wp (create_lane_links r1 r2) (λ _ _, True) h.
  Proof.
    intros H1 H2. apply wp_bgets, wp_bgets.
    destruct (_ && _); [destruct (are_roads_consecutive _ _); [by apply wp_links_roads|]; destruct (are_roads_consecutive _ _); [by apply wp_links_roads|by apply wp_ret]|].
    destruct (negb _); by apply wp_links_connecting.
  Qed.

  (** *** objects and roads *)
  Lemma wp_upd_obj r f h : exists_in h_obj h r → (obj_wf (h_obj h !!! r) → obj_wf (f (h_obj h !!! r))) → obj_moves (h_obj h !!! r) (f (h_obj h !!! r)) → wp (upd_obj r f) (λ _ _, True) h.
  Proof. atom as_obj. Qed.
  Lemma wp_add_successor r et id cp off h : exists_in h_road h r → wp (add_successor r et id cp off) (λ _ _, True) h.
  Proof. atom as_succ. Qed.
  Lemma wp_add_predecessor r et id cp off h : exists_in h_road h r → wp (add_predecessor r et id cp off) (λ _ _, True) h.
  Proof. atom as_pred. Qed.
  Lemma wp_add_object r os h : exists_in h_road h r → Forall (exists_in h_obj h) os → wp (add_object r os) (λ _ _, True) h.
  Proof. atom as_objects. Qed.
  Lemma wp_sum_widths ls : ∀ acc h, wp (sum_widths acc ls) (λ _ _, True) h.
  Proof. induction ls as [|l ls IH]; intros acc h; simpl; [by apply wp_ret|]. apply wp_bgets. apply IH. Qed.
  Lemma wp_repeat o len dist a b c d e f g i j k l m n h : exists_in h_obj h o →
    wp (object_repeat o len dist a b c d e f g i j k l m n) (λ _ _, True) h.
  Proof. intros. apply wp_upd_obj; [done|apply wf_repeat|apply moves_repeat]. Qed.
  Lemma wp_roadside_left p s h : wp (roadside_left p s) (λ l h', Forall (λ e, exists_in h_obj h' e.2) l) h.
  Proof.
    apply wp_bgets, wp_bgets. eapply wp_bind; [apply wp_new_obj; right; by eexists|]. intros o h1 E1 N1 Ho.
    eapply wp_bind; [apply wp_sum_widths|]. intros w h2 E2 N2 _. apply wp_ret. apply Forall_singleton. simpl. ex.
  Qed.
  Lemma wp_roadside_right p s h : wp (roadside_right p s) (λ l h', Forall (λ e, exists_in h_obj h' e.2) l) h.
  Proof.
    apply wp_bgets, wp_bgets. eapply wp_bind; [apply wp_new_obj; right; by eexists|]. intros o h1 E1 N1 Ho.
    eapply wp_bind; [apply wp_sum_widths|]. intros w h2 E2 N2 _. apply wp_ret. apply Forall_singleton. simpl. ex.
  Qed.
  Lemma objs_ext {X} (l : list (X * ref)) h h' : ext h h' → Forall (λ e, exists_in h_obj h e.2) l → Forall (λ e, exists_in h_obj h' e.2) l.
  Proof. intros E H. eapply Forall_impl; [exact H|]. intros e. apply (e_obj _ _ E). Qed.
  Lemma wp_roadside_entries p side secs : ∀ h, wp (roadside_entries p side secs) (λ l h', Forall (λ e, exists_in h_obj h' e.2) l) h.
  Proof.
    induction secs as [|s secs IH]; intros h; simpl; [by apply wp_ret|].
    eapply (wp_bind _ _ (λ l h', Forall (λ e, exists_in h_obj h' e.2) l)).
    { destruct side; [apply wp_roadside_left..|by apply wp_ret]. }
    intros l h1 E1 N1 Hl. eapply (wp_bind _ _ (λ l h', Forall (λ e, exists_in h_obj h' e.2) l)).
    { destruct side; [apply wp_roadside_right|by apply wp_ret|apply wp_roadside_right]. }
    intros r h2 E2 N2 Hr. eapply wp_bind; [apply IH|]. intros rest h3 E3 N3 Hrest. apply wp_ret.
    apply Forall_app. split; [by eapply objs_ext, objs_ext|]. apply Forall_app. split; [by eapply objs_ext|done].
  Qed.
  Lemma wp_add_object_roadside r p d s t side h : exists_in h_road h r → wp (add_object_roadside r p d s t side) (λ _ _, True) h.
  Proof.
    intros Hr. apply wp_bgets, wp_bgets. destruct (negb _); [apply wp_raise|]. apply wp_bgets.
    eapply wp_bind; [apply wp_roadside_entries|]. intros es h1 E1 N1 Hes.
    eapply wp_bind; [apply wp_for_each|].
    - intros [[[sx f] w] o] h2 Hin E2 N2. assert (Ho : exists_in h_obj h1 o) by (eapply Forall_forall in Hes; [|exact Hin]; done).
      eapply wp_bind; [apply wp_upd_obj; [ex|apply wf_place|apply moves_place]|]. intros _ h3 E3 N3 _. apply wp_bgets, wp_bgets.
      eapply wp_bindT; [destruct (so_class _); [apply wp_raise|by apply wp_ret]|]. intros _ h4 E4 N4 _. apply wp_repeat. ex.
    - intros _ h2 E2 N2 _. apply wp_add_object; [ex|]. apply Forall_forall. intros x Hx.
      apply elem_of_list_fmap in Hx as (e & -> & He). eapply Forall_forall in Hes; [|exact He]. simpl in Hes. ex.
  Qed.

  (** *** OpenDrive *)
  Lemma wp_pure {A} (m : H (F:=F) A) (Q : A → heap F → Prop) h : Pure m → (∀ a, m h = (Ok a, h) → Q a h) → wp m Q h.
  Proof.
    intros Hp HQ N. pose proof (Hp h) as E. split; [by rewrite E|]. intros a h' E'. rewrite E' in E. simpl in E. subst. by apply HQ.
  Qed.
  Lemma wp_planview_at d k h : exists_in h_odr h d →
    wp (planview_at (od_roads (h_odr h !!! d)) k) (λ pv h', exists_in h_pv h' pv) h.
  Proof.
    intros Hd. apply wp_nd; intros N. eapply wp_bind; [apply (wp_or_raise _ _ (λ r h', exists_in h_road h' r)); intros; by eapply nd_odr_road|].
    intros r h1 E1 N1 Hr. apply wp_bgets, wp_ret. by apply nd_road_pv.
  Qed.
  Lemma wp_awn d k k2 cp b h : exists_in h_odr h d → wp (adjust_road_wrt_neighbour d k k2 cp b) (λ _ _, True) h.
  Proof.
    intros Hd. apply wp_nd; intros N. apply wp_bgets.
    eapply wp_bind; [apply (wp_or_raise _ _ (λ r h', exists_in h_road h' r)); intros; by eapply nd_odr_road|].
    intros mr h1 E1 N1 Hr. apply wp_bgets. pose proof (nd_road_pv _ _ N1 Hr) as Hpv.
    eapply wp_bindT; [apply wp_pure; [destruct cp; [apply pure_planview_at|apply pure_raise]|done]|]. intros npv h2 E2 N2 _.
    eapply wp_bindT; [apply wp_pure; [apply pure_neighbour_pose|done]|]. intros q h3 E3 N3 _.
    destruct (if b then _ else _) as [[x y] hd]. eapply wp_bind; [apply wp_set_start; ex|]. intros _ h4 E4 N4 _.
    apply wp_adjust_geometries. ex.
  Qed.
  Lemma wp_adjust_road_wrt d k k2 cp kind h : exists_in h_odr h d → wp (adjust_road_wrt d k k2 cp kind) (λ _ _, True) h.
  Proof.
    intros Hd. unfold adjust_road_wrt. destruct (String.eqb kind _); [by apply wp_awn|]. destruct (String.eqb kind _); [by apply wp_awn|].
    apply wp_bgets. eapply wp_bindT; [by apply wp_or_raise|]. intros. by apply wp_ret.
  Qed.
  Lemma wp_place_other_succ d k ty o h : exists_in h_odr h d → wp (place_other_succ d k ty o) (λ _ _, True) h.
  Proof.
    intros Hd. unfold place_other_succ. destruct o; [|by apply wp_ret]. destruct (bool_decide _); [by apply wp_ret|].
    apply wp_bgets. eapply wp_bindT; [apply wp_pure; [apply pure_lta|done]|]. intros [] h1 E1 N1 _; [by apply wp_ret|].
    eapply wp_bind; [apply wp_awn; ex|]. intros. by apply wp_ret.
  Qed.
  Lemma wp_place_other_pred d k ty o h : exists_in h_odr h d → wp (place_other_pred d k ty o) (λ _ _, True) h.
  Proof.
    intros Hd. unfold place_other_pred. destruct o; [|by apply wp_ret]. destruct (bool_decide _); [by apply wp_ret|].
    apply wp_bgets. eapply wp_bindT; [apply wp_pure; [apply pure_lta|done]|]. intros [] h1 E1 N1 _; [by apply wp_ret|].
    eapply wp_bind; [apply wp_awn; ex|]. intros. by apply wp_ret.
  Qed.
  Lemma wp_sweep_road d k h : exists_in h_odr h d → wp (sweep_road d k) (λ _ _, True) h.
  Proof.
    intros Hd. apply wp_bgets. eapply wp_bindT; [by apply wp_or_raise|]. intros r h1 E1 N1 _. apply wp_bgets, wp_bgets.
    destruct (pv_adjusted _); [by apply wp_ret|]. eapply wp_bindT; [apply wp_pure; [apply pure_link_ready|done]|]. intros [] h2 E2 N2 _.
    - destruct (rd_pred _); [|by apply wp_ret]. eapply wp_bind; [apply wp_awn; ex|]. intros _ h3 E3 N3 _.
      eapply wp_bind; [apply wp_place_other_succ; ex|]. intros. by apply wp_ret.
    - eapply wp_bindT; [apply wp_pure; [apply pure_link_ready|done]|]. intros [] h3 E3 N3 _; [|by apply wp_ret].
      destruct (rd_succ _); [|by apply wp_ret]. eapply wp_bind; [apply wp_awn; ex|]. intros _ h4 E4 N4 _.
      eapply wp_bind; [apply wp_place_other_pred; ex|]. intros. by apply wp_ret.
  Qed.
  Lemma wp_sweep d ks : ∀ h, exists_in h_odr h d → wp (sweep d ks) (λ _ _, True) h.
  Proof.
    induction ks as [|k ks IH]; intros h Hd; simpl; [by apply wp_ret|]. eapply wp_bind; [by apply wp_sweep_road|]. intros n h1 E1 N1 _.
    eapply wp_bind; [apply IH; ex|]. intros. by apply wp_ret.
  Qed.
  Lemma wp_place_loop d fuel : ∀ total h, exists_in h_odr h d → wp (place_loop fuel d total) (λ _ _, True) h.
  Proof.
    induction fuel as [|fuel IH]; intros total h Hd; cbn [place_loop]; apply wp_bgets; destruct (decide _); try (by apply wp_ret); [apply wp_raise|].
    eapply wp_bind; [by apply wp_sweep|]. intros n h1 E1 N1 _. destruct (decide _); [apply wp_raise|]. apply IH. ex.
  Qed.
  Lemma wp_place_fixed d ks : ∀ h, exists_in h_odr h d → wp (place_fixed d ks) (λ _ _, True) h.
  Proof.
    induction ks as [|k ks IH]; intros h Hd; simpl; [by apply wp_ret|]. apply wp_bgets.
    eapply wp_bind; [by apply wp_planview_at|]. intros pv h1 E1 N1 Hpv. apply wp_bgets. destruct (pv_fixed _); [|apply IH; ex].
    eapply wp_bind; [by apply wp_adjust_geometries|]. intros _ h2 E2 N2 _. eapply wp_bind; [apply IH; ex|]. intros. by apply wp_ret.
  Qed.
  Lemma wp_adjust_startpoints d h : exists_in h_odr h d → wp (adjust_startpoints d) (λ _ _, True) h.
  Proof.
    intros Hd. apply wp_nd; intros N. unfold adjust_startpoints, get_odr. apply wp_bgets.
    eapply (wp_bind _ _ (λ _ h', h_odr h' = h_odr h ∧ ∀ k r, road_at (od_roads (h_odr h !!! d)) k h = (Ok r, h) → exists_in h_road h' r)).
    { intros N'. split; [by apply wp_place_fixed|]. intros a h' E. pose proof (nf_place_fixed d (dict_keys (od_roads (h_odr h !!! d))) h) as Hf.
      rewrite E in Hf. split; [apply Hf|]. intros k r Hr. apply or_raise_ok in Hr as [Hr _].
      unfold exists_in. rewrite (nf_road _ _ _ Hf). by eapply nd_odr_road. }
    intros n h1 E1 N1 [Ho Hro]. eapply wp_bindT; [|intros; apply wp_place_loop; ex].
    destruct n; [|by apply wp_ret]. eapply wp_bindT; [by apply wp_or_raise|]. intros k h2 E2 N2 _.
    eapply (wp_bind _ _ (λ pv h', exists_in h_pv h' pv)).
    - eapply (wp_bind _ _ (λ r h', exists_in h_road h' r)).
      + apply wp_or_raise. intros r Hr. apply (e_road _ _ E2). apply (Hro k). by apply or_raise_ok.
      + intros r h3 E3 N3 Hr. apply wp_bgets, wp_ret. by apply nd_road_pv.
    - intros pv h3 E3 N3 Hpv. eapply wp_bind; [by apply wp_adjust_geometries|]. intros. by apply wp_ret.
  Qed.
  Lemma wp_adjust_roads_and_lanes d h : exists_in h_odr h d → wp (adjust_roads_and_lanes d) (λ _ _, True) h.
  Proof.
    intros Hd. eapply wp_bind; [by apply wp_adjust_startpoints|]. intros _ h1 E1 N1 _. apply wp_bgets. apply wp_for_each.
    intros [k1 k2] h2 _ E2 N2. assert (Hd1 : exists_in h_odr h1 d) by ex.
    eapply wp_bind; [apply (wp_or_raise _ _ (λ r h', exists_in h_road h' r)); intros r Hr; apply (e_road _ _ E2); by eapply nd_odr_road|].
    intros r1 h3 E3 N3 Hr1.
    eapply wp_bind; [apply (wp_or_raise _ _ (λ r h', exists_in h_road h' r)); intros r Hr; apply (e_road _ _ E3), (e_road _ _ E2); by eapply nd_odr_road|].
    intros r2 h4 E4 N4 Hr2. apply wp_create_lane_links; ex.
  Qed.

  (** *** generators *)
  Lemma wp_standard_lane w m h : wp (standard_lane w m) (λ r h', exists_in h_lane h' r) h.
  Proof.
    eapply wp_bind; [apply wp_lane_ctor|]. intros l h1 E1 N1 Hl. eapply wp_bind; [by apply wp_lane_mark|].
    intros _ h2 E2 N2 _. apply wp_ret. ex.
  Qed.
  Lemma wp_add_geometries pv gs h : exists_in h_pv h pv → Forall (exists_in h_geom h) gs → wp (add_geometries pv gs) (λ _ _, True) h.
  Proof.
    intros Hp Hg. apply wp_for_each. intros g h1 Hin E1 N1. assert (exists_in h_geom h g) by by eapply Forall_forall in Hg.
    eapply wp_bind; [apply wp_add_geometry; ex|]. intros _ h2 E2 N2 _. apply wp_bgets.
    eapply wp_bindT; [by apply wp_or_raise|]. intros. by apply wp_ret.
  Qed.
  Lemma wp_create_side add sec n w h : (∀ l h', exists_in h_sec h' sec → exists_in h_lane h' l → wp (add sec l) (λ _ _, True) h') →
    exists_in h_sec h sec → wp (create_side add sec n w) (λ _ _, True) h.
  Proof.
    intros Ha Hs. apply wp_for_each. intros i h1 _ E1 N1. eapply wp_bind; [apply wp_standard_lane|]. intros l h2 E2 N2 Hl. apply Ha; ex.
  Qed.
  Lemma wp_create_sides sec n w h : exists_in h_sec h sec → wp (create_sides sec n w) (λ _ _, True) h.
  Proof.
    intros Hs. apply wp_for_each. intros i h1 _ E1 N1. eapply wp_bindT.
    - eapply wp_bind; [apply wp_standard_lane|]. intros l h2 E2 N2 Hl. apply wp_right; ex.
    - intros _ h2 E2 N2 _. eapply wp_bind; [apply wp_standard_lane|]. intros l h3 E3 N3 Hl. apply wp_left; ex.
  Qed.
  Lemma wp_create_road gs id l r ty m w h : Forall (exists_in h_geom h) gs →
    wp (create_road gs id l r ty m w) (λ r h', exists_in h_road h' r) h.
  Proof.
    intros Hg. eapply wp_bind; [by apply wp_new_pv|]. intros pv h1 E1 N1 Hpv.
    eapply wp_bind; [apply wp_add_geometries; [done|eapply Forall_impl; [exact Hg|apply E1]]|]. intros _ h2 E2 N2 _.
    eapply wp_bind; [apply wp_lane_ctor|]. intros lc h3 E3 N3 Hlc. eapply wp_bind; [by apply wp_lane_mark|]. intros _ h4 E4 N4 _.
    eapply wp_bind; [apply wp_section_ctor; ex|]. intros sec h5 E5 N5 Hsec.
    eapply wp_bind; [apply wp_create_side; [intros; by apply wp_left|done]|]. intros _ h6 E6 N6 _.
    eapply wp_bind; [apply wp_create_side; [intros; by apply wp_right|ex]|]. intros _ h7 E7 N7 _.
    eapply wp_bind; [apply wp_lanes_ctor|]. intros ls h8 E8 N8 Hls.
    eapply wp_bind; [apply wp_add_lanesection; [ex|ex|done]|]. intros _ h9 E9 N9 _. apply wp_road_ctor; ex.
  Qed.
  Lemma wp_create_straight_road id l j n w h : wp (create_straight_road id l j n w) (λ r h', exists_in h_road h' r) h.
  Proof.
    eapply wp_bind; [apply wp_new_geom|]. intros g h1 E1 N1 Hg. eapply wp_bind; [by apply wp_new_pv|]. intros pv h2 E2 N2 Hpv.
    eapply wp_bind; [apply wp_add_geometry; ex|]. intros _ h3 E3 N3 _. eapply wp_bind; [apply wp_standard_lane|]. intros lc h4 E4 N4 Hlc.
    eapply wp_bind; [apply wp_section_ctor; ex|]. intros sec h5 E5 N5 Hsec.
    eapply wp_bind; [by apply wp_create_sides|]. intros _ h6 E6 N6 _.
    eapply wp_bind; [apply wp_lanes_ctor|]. intros ls h8 E8 N8 Hls.
    eapply wp_bind; [apply wp_add_lanesection; [ex|ex|done]|]. intros _ h9 E9 N9 _. apply wp_road_ctor; ex.
  Qed.
  Lemma wp_create_cloth_arc_cloth c a ca id j cs n w h : wp (create_cloth_arc_cloth c a ca id j cs n w) (λ r h', exists_in h_road h' r) h.
  Proof.
    eapply wp_bind; [by apply wp_new_pv|]. intros pv h1 E1 N1 Hpv. cbv zeta.
    eapply wp_bindT; [by apply wp_lift|]. intros g1 h2 E2 N2 _. eapply wp_bind; [apply wp_new_geom|]. intros s1 h3 E3 N3 Hs1.
    eapply wp_bindT; [by apply wp_lift|]. intros g2 h4 E4 N4 _. eapply wp_bind; [apply wp_new_geom|]. intros s2 h5 E5 N5 Hs2.
    eapply wp_bindT; [by apply wp_lift|]. intros g3 h6 E6 N6 _. eapply wp_bind; [apply wp_new_geom|]. intros s3 h7 E7 N7 Hs3.
    eapply wp_bind; [apply wp_add_geometry; ex|]. intros _ h8 E8 N8 _.
    eapply wp_bind; [apply wp_add_geometry; ex|]. intros _ h9 E9 N9 _.
    eapply wp_bind; [apply wp_add_geometry; ex|]. intros _ h10 E10 N10 _.
    eapply wp_bind; [apply wp_standard_lane|]. intros lc h11 E11 N11 Hlc.
    eapply wp_bind; [apply wp_section_ctor; ex|]. intros sec h12 E12 N12 Hsec.
    eapply wp_bind; [by apply wp_create_sides|]. intros _ h13 E13 N13 _.
    eapply wp_bind; [apply wp_lanes_ctor|]. intros ls h14 E14 N14 Hls.
    eapply wp_bind; [apply wp_add_lanesection; [ex|ex|done]|]. intros _ h15 E15 N15 _. apply wp_road_ctor; ex.
  Qed.
  Lemma pure_py_index_opt {A} (l : list A) i : Pure (py_index_opt (S:=heap F) l i).
  Proof. destruct i; [apply pure_or_raise|apply pure_raise]. Qed.
  Lemma pure_road_section r i : Pure (road_section (F:=F) r i).
  Proof. apply pure_bind; [apply pure_gets|intros secs]. apply pure_bind; [apply pure_py_index_opt|intros s; apply pure_gets]. Qed.
  Lemma pure_get_lanes_offset r1 r2 cp : Pure (get_lanes_offset (F:=F) r1 r2 cp).
  Proof.
    apply pure_bind; [apply pure_gets|intros o1]. apply pure_bind; [apply pure_gets|intros o2].
    apply pure_bind; [apply pure_road_section|intros s1]. apply pure_bind; [apply pure_road_section|intros s2].
    destruct (_ && _); [|apply pure_raise]. apply pure_bind; [apply pure_or_raise|intros l].
    apply pure_bind; [apply pure_gets|intros o]. apply pure_ret.
  Qed.
  Lemma wp_junction_road rs an r j sp ap ll cp i sn jj h : Forall (exists_in h_road h) rs →
    wp (junction_road rs an r j sp ap ll cp i sn jj) (λ _ _, True) h.
  Proof.
    intros Hrs. unfold junction_road.
    eapply wp_bindT; [by apply wp_or_raise|]. intros aj h1 E1 N1 _. eapply wp_bindT; [by apply wp_or_raise|]. intros ai h2 E2 N2 _. cbv zeta.
    eapply wp_bindT; [by apply wp_or_raise|]. intros ri h3 E3 N3 _. eapply wp_bindT; [by apply wp_or_raise|]. intros rj h4 E4 N4 _.
    eapply wp_bindT; [apply wp_pure; [apply pure_get_lanes_offset|done]|]. intros [n w] h5 E5 N5 _.
    eapply (wp_bind _ _ (λ r h', exists_in h_road h' r)).
    { destruct (fiszero _); [apply wp_create_straight_road|apply wp_create_cloth_arc_cloth]. }
    intros tmp h6 E6 N6 Ht. apply wp_bgets. eapply wp_bind; [by apply wp_add_predecessor|]. intros _ h7 E7 N7 _.
    apply wp_bgets. eapply wp_bind; [apply wp_add_successor; ex|]. intros. by apply wp_ret.
  Qed.
  Lemma roads_ext rs h h' : ext h h' → Forall (exists_in h_road h) rs → Forall (exists_in h_road h') rs.
  Proof. intros E Hr. eapply Forall_impl; [exact Hr|apply E]. Qed.
  Lemma wp_junction_inner rs an r j sp ap ll cp i js : ∀ sn h, Forall (exists_in h_road h) rs →
    wp (junction_inner rs an r j sp ap ll cp i sn js) (λ _ _, True) h.
  Proof.
    induction js as [|jj js IH]; intros sn h Hrs; simpl; [by apply wp_ret|].
    eapply wp_bind; [by apply wp_junction_road|]. intros t h1 E1 N1 _.
    eapply wp_bind; [apply IH; by eapply roads_ext|]. intros. by apply wp_ret.
  Qed.
  Lemma wp_junction_outer rs an r j sp ap ll  iss : ∀ sn h, Forall (exists_in h_road h) rs →
    wp (junction_outer rs an r j sp ap ll sn iss) (λ _ _, True) h.
  Proof.
    induction  iss as [|i  iss IH]; intros sn h Hrs; simpl; [by apply wp_ret|].
    eapply wp_bind; [apply (wp_or_raise _ _ (λ r h', exists_in h_road h' r))|].
    { intros a Ha. eapply Forall_forall in Hrs; [done|by eapply elem_of_list_lookup_2]. }
    intros ri h1 E1 N1 Hri. eapply wp_bindT; [destruct (bool_decide _); [by apply wp_add_successor|by apply wp_add_predecessor]|].
    intros _ h2 E2 N2 _. eapply wp_bind; [apply wp_junction_inner; by eapply roads_ext, roads_ext|]. intros row h3 E3 N3 _.
    eapply wp_bind; [apply IH; by eapply roads_ext, roads_ext, roads_ext|]. intros. by apply wp_ret.
  Qed.
  Lemma wp_create_junction_roads rs an r j sp ap sn h : Forall (exists_in h_road h) rs →
    wp (create_junction_roads rs an r j sp ap sn) (λ _ _, True) h.
  Proof.
    intros Hrs. eapply wp_bindT; [by apply wp_lift|]. intros ll h1 E1 N1 _.
    eapply wp_bind; [apply wp_junction_outer; by eapply roads_ext|]. intros js h2 E2 N2 _.
    eapply wp_bind; [apply (wp_or_raise _ _ (λ r h', exists_in h_road h' r))|].
    { intros a Ha. eapply Forall_forall in Hrs; [|apply last_Some_elem_of; exact Ha]. ex. }
    intros rl h3 E3 N3 Hrl. eapply wp_bind; [by apply wp_add_predecessor|]. intros. by apply wp_ret.
  Qed.
  Lemma wp_create_junction_links c n rl sg fo to h : exists_in h_conn h c → wp (create_junction_links c n rl sg fo to) (λ _ _, True) h.
  Proof.
    intros Hc. apply wp_for_each. intros i h1 _ E1 N1. eapply wp_bindT; [by apply wp_or_raise|]. intros s h2 E2 N2 _. apply wp_add_lanelink. ex.
  Qed.
  Lemma pure_get_road_by_id rs id : Pure (get_road_by_id (F:=F) rs id).
  Proof.
    induction rs as [|r rs IH]; simpl; [apply pure_ret|]. apply pure_bind; [apply pure_gets|intros o].
    destruct (bool_decide _); [apply pure_ret|apply IH].
  Qed.
  Lemma pure_lift {A} (r : res A) : Pure (F:=F) (lift r). Proof. done. Qed.
  Lemma wp_junction_connection j rs jr k cp idx fo to h : exists_in h_junc h j →
    wp (junction_connection j rs jr k cp idx fo to) (λ _ _, True) h.
  Proof.
    intros Hj. eapply wp_bind; [apply wp_conn_ctor|]. intros c h1 E1 N1 Hc.
    eapply wp_bindT; [apply wp_pure; [apply pure_get_road_by_id|done]|]. intros rr h2 E2 N2 _.
    eapply wp_bindT; [by apply wp_or_raise|]. intros rr' h3 E3 N3 _. apply wp_bgets.
    eapply wp_bindT; [by apply wp_lift|]. intros [[? sg] ?] h4 E4 N4 _.
    eapply wp_bindT; [apply wp_pure; [apply pure_road_section|done]|]. intros s h5 E5 N5 _.
    eapply wp_bind; [apply wp_create_junction_links; ex|]. intros _ h6 E6 N6 _.
    eapply wp_bind; [apply wp_create_junction_links; ex|]. intros _ h7 E7 N7 _. apply wp_add_connection; ex.
  Qed.
  Lemma wp_create_junction jrs id rs h : wp (create_junction jrs id rs) (λ r h', exists_in h_junc h' r) h.
  Proof.
    eapply wp_bind; [apply wp_junc_ctor|]. intros j h1 E1 N1 Hj. eapply wp_bind; [apply wp_for_each|].
    - intros r h2 _ E2 N2. apply wp_bgets. eapply wp_bindT; [by apply wp_or_raise|]. intros ks h3 E3 N3 _.
      eapply wp_bind; [apply wp_junction_connection; ex|]. intros _ h4 E4 N4 _. eapply wp_bindT; [by apply wp_or_raise|]. intros kp h5 E5 N5 _.
      apply wp_junction_connection. ex.
    - intros _ h2 E2 N2 _. apply wp_ret. ex.
  Qed.

  (** *** the calls *)
  Lemma wp_linker_add k p s c h : exists_in h_linker h k → exists_in h_lane h p → exists_in h_lane h s →
    wp (linker_add_link k p s c) (λ _ _, True) h. Proof. atom as_linker_add. Qed.
  Lemma wp_add_neighbor r et id dir h : exists_in h_road h r → wp (add_neighbor r et id dir) (λ _ _, True) h. Proof. atom as_neighbor. Qed.
  Lemma wp_add_signal r os h : exists_in h_road h r → Forall (exists_in h_obj h) os → wp (add_signal r os) (λ _ _, True) h.
  Proof. atom as_signals. Qed.
  Lemma wp_add_road d r h : exists_in h_odr h d → exists_in h_road h r → wp (add_road d r) (λ _ _, True) h. Proof. atom as_odr_road. Qed.
  Lemma wp_add_junction d j h : exists_in h_odr h d → exists_in h_junc h j → wp (add_junction d j) (λ _ _, True) h. Proof. atom as_odr_junc. Qed.
  Lemma has_exists {V} (f : heap F → gmap nat V) r h : has f r h = true → exists_in f h r.
  Proof. unfold has. by intros ?%bool_decide_eq_true. Qed.
  Lemma all_have_exists {V} (f : heap F → gmap nat V) rs h : all_have f rs h = true → Forall (exists_in f h) rs.
  Proof. unfold all_have. rewrite forallb_forall. intros Hr. apply Forall_forall. intros r Hin. apply has_exists, Hr. by apply elem_of_list_In. Qed.

  Lemma wp_as_ref m Q h : wp m Q h → wp (as_ref m) (λ _ _, True) h.
  Proof. intros. eapply wp_bind; [done|]. intros. by apply wp_ret. Qed.
  Lemma wp_as_refs m Q h : wp m Q h → wp (as_refs m) (λ _ _, True) h.
  Proof. intros. eapply wp_bind; [done|]. intros. by apply wp_ret. Qed.
  Lemma wp_as_unit m Q h : wp m Q h → wp (as_unit m) (λ _ _, True) h.
  Proof. intros. eapply wp_bind; [done|]. intros. by apply wp_ret. Qed.
  Lemma wp_as_pose m Q h : wp m Q h → wp (as_pose m) (λ _ _, True) h.
  Proof. intros. eapply wp_bind; [done|]. intros [[[x y] hd] l] h' _ _ _. by apply wp_ret. Qed.
  Lemma wp_guarded b m Q h : (b h = true → wp m Q h) → wp (guarded b m) Q h.
  Proof.
    intros Hb. intros N. unfold guarded. destruct (b h) eqn:E; [by apply Hb|]. simpl. split; [reflexivity|]. intros ? ? [=].
  Qed.

  Theorem wp_step o h : wp (step o) (λ _ _, True) h.
  Proof.
    destruct o; simpl;
      try (apply wp_guarded; intros G; repeat rewrite andb_true_iff in G; repeat match goal with H : _ ∧ _ |- _ => destruct H end;
           repeat match goal with H : has _ _ _ = true |- _ => apply has_exists in H | H : all_have _ _ _ = true |- _ => apply all_have_exists in H end);
      match goal with
      | |- wp (as_ref _) _ _ => eapply wp_as_ref
      | |- wp (as_refs _) _ _ => eapply wp_as_refs
      | |- wp (as_unit _) _ _ => eapply wp_as_unit
      | |- wp (as_pose _) _ _ => eapply wp_as_pose
      end.
    - apply wp_new_geom.
    - eapply wp_bindT; [by apply wp_lift|]. intros. apply wp_new_geom.
    - eapply wp_bindT; [by apply wp_lift|]. intros. apply wp_new_geom.
    - eapply wp_bindT; [by apply wp_lift|]. intros. apply wp_new_geom.
    - by apply wp_eval_end.
    - by apply wp_eval_start.
    - eapply (wp_bind _ _ (λ p _, pv_raw p = [] ∧ pv_geoms p = [])).
      + apply wp_lift. intros p. unfold mk_planview. destruct x, y, h0; intros ?; by simplify_eq.
      + intros p h' _ _ [? ?]. by apply wp_new_pv.
    - by apply wp_add_geometry.
    - by apply wp_set_start.
    - by apply wp_adjust_geometries.
    - apply wp_lane_ctor.
    - by apply wp_lane_add_link.
    - by apply wp_lane_mark.
    - by apply wp_section_ctor.
    - by apply wp_left.
    - by apply wp_right.
    - apply wp_lanes_ctor.
    - by apply wp_add_lanesection.
    - apply wp_linker_ctor.
    - by apply wp_linker_add.
    - apply wp_conn_ctor.
    - by apply wp_add_lanelink.
    - apply wp_junc_ctor.
    - by apply wp_add_connection.
    - by apply wp_create_lane_links.
    - apply wp_new_obj. left. apply wf_signal.
    - apply wp_new_obj. left. apply wf_object.
    - apply wp_bgets. destruct (so_class _); [apply wp_raise|by apply wp_repeat].
    - by apply wp_road_ctor.
    - by apply wp_add_successor.
    - by apply wp_add_predecessor.
    - by apply wp_add_neighbor.
    - by apply wp_add_object.
    - by apply wp_add_signal.
    - by apply wp_add_object_roadside.
    - apply wp_odr_ctor.
    - by apply wp_add_road.
    - by apply wp_add_junction.
    - by apply wp_adjust_startpoints.
    - by apply wp_adjust_roads_and_lanes.
    - by apply wp_adjust_road_wrt.
    - apply wp_standard_lane.
    - by apply wp_create_road.
    - apply wp_create_straight_road.
    - apply wp_create_cloth_arc_cloth.
    - by apply wp_create_junction_roads.
    - apply wp_create_junction.
  Qed.

  Theorem run_asteps os h : no_dangling h → rtc astep h (run h os).
  Proof.
    revert h. induction os as [|o os IH]; intros h N; [reflexivity|]. simpl. destruct (wp_step o h N) as [S1 _].
    etrans; [exact S1|]. apply IH. by eapply asteps_no_dangling.
  Qed.
  Lemma init_no_dangling : no_dangling (heap_init (F:=F)).
  Proof. by split; intros r v; rewrite lookup_empty. Qed.
  Theorem reachable_no_dangling h : reachable h → no_dangling h.
  Proof. intros [os ->]. eapply asteps_no_dangling; [apply run_asteps|]; apply init_no_dangling. Qed.
  (** induction over the atomic changes of a history *)
  Lemma reachable_ind (P : heap F → Prop) : P heap_init → (∀ h h', no_dangling h → P h → astep h h' → P h') → ∀ h, reachable h → P h.
  Proof.
    intros H0 HS h [os ->]. pose proof (run_asteps os _ init_no_dangling) as S.
    pose proof init_no_dangling as N. revert H0 N. generalize (heap_init (F:=F)) as h0, S. clear S.
    intros h0 S. induction S as [|h1 h2 h3 A _ IH]; intros P1 N1; [done|]. apply IH; [by eapply HS|by eapply astep_no_dangling].
  Qed.
End Steps.
