(** Invariants of all reachable states *)
From Coq Require Import ssreflect.
From Verif.Model Require Import Api.
From Verif.Spec Require Import SpecChain SpecState SpecHistory.
From Verif.Proof Require Import Monad DictFacts PlanViewFacts NetFrame Reach Steps History.
Local Open Scope general_if_scope.

Section Invariants.
  Context {F : Type} `{!Num F}.
  Implicit Types (h : heap F).

  (** ** Induction over the rest of a history *)
  Lemma run_reachable h os : reachable h → reachable (run h os).
  Proof. intros [os0 ->]. exists (os0 ++ os). unfold run. by rewrite foldl_app. Qed.
  Lemma run_ind (P : heap F → Prop) h os : reachable h → P h →
    (∀ h1 h2, no_dangling h1 → P h1 → astep h1 h2 → P h2) → P (run h os).
  Proof.
    intros Hr H0 Hs. pose proof (run_asteps os h (reachable_no_dangling _ Hr)) as Ha.
    pose proof (reachable_no_dangling _ Hr) as N. clear Hr. revert N H0. induction Ha as [|h1 h2 h3 A _ IH]; [done|].
    intros N H0. apply IH; [by eapply (astep_no_dangling h1)|by eapply (Hs h1)].
  Qed.

  (** ** Roads *)
  Record road_inv (o : road) : Prop := {
    ri_succ : links_of "successor" o = option_list (rd_succ o);
    ri_pred : links_of "predecessor" o = option_list (rd_pred o);
    ri_neigh : length (links_of "neighbor" o) = rd_neighbors o ∧ rd_neighbors o ≤ 2;
    ri_dir : ∀ l, l ∈ links_of "neighbor" o → is_Some (lk_dir l);
    ri_kinds : ∀ l, l ∈ rd_links o → lk_type l = Some "successor" ∨ lk_type l = Some "predecessor" ∨ lk_type l = Some "neighbor"
  }.
  Lemma links_of_app kind o k : links_of kind (o <| rd_links := rd_links o ++ [k] |>) =
    links_of kind o ++ (if decide (lk_type k = Some kind) then [k] else []).
  Proof. unfold links_of. simpl. rewrite filter_app. f_equal. Qed.
  Lemma links_of_eq kind o o' k : rd_links o' = rd_links o ++ [k] →
    links_of kind o' = links_of kind o ++ (if decide (lk_type k = Some kind) then [k] else []).
  Proof. intros E. unfold links_of. rewrite E filter_app. f_equal. Qed.
  Lemma links_of_same kind o o' : rd_links o' = rd_links o → links_of kind o' = links_of kind o.
  Proof. intros E. unfold links_of. by rewrite E. Qed.

  Local Ltac nk Hl := rewrite Hl; destruct (decide _) as [Ek|_]; [discriminate Ek|].
  Local Ltac yk Hl := rewrite Hl; destruct (decide _) as [_|Ek]; [|by destruct Ek].
  Lemma road_step_inv o o' : road_step o o' → road_inv o → road_inv o'.
  Proof.
    intros Hs [I1 I2 [I3 I4] I5 I6].
    assert (Hk : ∀ k l, l ∈ rd_links o ++ [k] → l ∈ rd_links o ∨ l = k) by (intros k l; rewrite elem_of_app elem_of_list_singleton; tauto).
    destruct Hs as [et id cp off E k|et id cp off E k|et id dir E| |];
      try (split; [by rewrite (links_of_same _ o)|by rewrite (links_of_same _ o)|by rewrite (links_of_same _ o)|
        intros l; rewrite (links_of_same _ o) //; apply I5|done]).
    - match goal with |- road_inv ?x => pose proof (λ kind, links_of_eq kind o x k eq_refl) as Hl end.
      split; [by rewrite Hl I1 E|nk Hl; by rewrite app_nil_r|nk Hl; by rewrite app_nil_r| |].
      + intros l. nk Hl. rewrite app_nil_r. apply I5.
      + intros l [Hl'| ->]%Hk; [auto|by left].
    - match goal with |- road_inv ?x => pose proof (λ kind, links_of_eq kind o x k eq_refl) as Hl end.
      split; [nk Hl; by rewrite app_nil_r|by rewrite Hl I2 E|nk Hl; by rewrite app_nil_r| |].
      + intros l. nk Hl. rewrite app_nil_r. apply I5.
      + intros l [Hl'| ->]%Hk; [auto|by right; left].
    - match goal with |- road_inv ?x => pose proof (λ kind, links_of_eq kind o x (mkLink (Some "neighbor") id et None (Some dir)) eq_refl) as Hl end.
      split; [nk Hl; by rewrite app_nil_r|nk Hl; by rewrite app_nil_r| | |].
      + yk Hl. rewrite app_length I3 /=. lia.
      + intros l. yk Hl. rewrite elem_of_app elem_of_list_singleton. intros [?| ->]; [by apply I5|by eexists].
      + intros l [Hl'| ->]%Hk; [auto|by right; right].
  Qed.
  Lemma reachable_road h r o : reachable h → h_road h !! r = Some o → road_inv o.
  Proof.
    intros Hr. revert r o. revert h Hr. apply (reachable_ind (λ h, ∀ r o, h_road h !! r = Some o → road_inv o)).
    - intros r o H. done.
    - intros h h' N IH A r o' Ho'. destruct (astep_road h h' r o' A Ho') as [?|[(-> & id & pv & ls & ty & n & ru & ->)|(o & Ho & Hs)]].
      + eauto.
      + split; simpl; [done|done|split; [done|lia]|intros l Hl; by apply elem_of_nil in Hl|intros l Hl; by apply elem_of_nil in Hl].
      + eapply road_step_inv; eauto.
  Qed.

  (** a road changes only by [road_step] *)
  Lemma astep_road_old h h' r o : no_dangling h → astep h h' → h_road h !! r = Some o →
    h_road h' !! r = Some o ∨ ∃ o', h_road h' !! r = Some o' ∧ road_step o o'.
  Proof.
    intros N A Ho. assert (exists_in h_road h' r) as [o' Ho'] by (apply (e_road _ _ (astep_ext _ _ A)); by eexists).
    destruct (astep_road h h' r o' A Ho') as [?|[(-> & id & pv & ls & ty & n & ru & ->)|(o2 & Ho2 & Hs)]].
    - left. congruence.
    - apply (nd_road _ N) in Ho as [? _]. lia.
    - right. exists o'. split; [done|]. congruence.
  Qed.

  (** ** Lane sections *)
  Record sec_inv h : Prop := {
    si_left : ∀ sec s, h_sec h !! sec = Some s → ls_left_id s = (Z.of_nat (length (ls_left s)) + 1)%Z;
    si_right : ∀ sec s, h_sec h !! sec = Some s → ls_right_id s = (- (Z.of_nat (length (ls_right s)) + 1))%Z;
    si_ids : ∀ sec p l, lane_at h sec p = Some l → ∃ sec' p', lane_at h sec' p' = Some l ∧ ln_id (h_lane h !!! l) = Some (lane_number p')
  }.
  Lemma lane_at_ex h sec p l : no_dangling h → lane_at h sec p = Some l → exists_in h_lane h l.
  Proof.
    intros N. unfold lane_at. destruct (h_sec h !! sec) as [s|] eqn:E; [|done]. apply (nd_sec _ N) in E as (_ & Hc & Hl).
    destruct p as [|i|i]; [by intros [= <-]|intros Hi..]; apply Hl, elem_of_app; [left|right]; by apply elem_of_list_lookup_2 in Hi.
  Qed.
  Lemma sec_ex h sec : exists_in h_sec h sec → h_sec h !! sec = Some (h_sec h !!! sec).
  Proof. apply exists_at. Qed.
  Lemma reachable_sec h : reachable h → sec_inv h.
  Proof.
    revert h. apply (reachable_ind sec_inv).
    - split; intros sec; [done|done|]. intros p l. unfold lane_at. done.
    - intros h h' N [IL IR II] A. destruct (astep_sec h h' N A) as [Es El|s c Hc Es Ec El|sec l Hs Hl x Es Ei El|sec l Hs Hl x Es Ei El].
      + split; intros sec; rewrite ?Es; [eauto|eauto|]. intros p l. assert (Ea : ∀ sec p, lane_at h' sec p = lane_at h sec p) by (intros; unfold lane_at; by rewrite Es).
        rewrite Ea. intros Hl. destruct (II _ _ _ Hl) as (s' & p' & Hl' & Hid). exists s', p'. rewrite Ea El //. by eapply lane_at_ex.
      + assert (Hn : h_sec h !! h_next h = None).
        { destruct (h_sec h !! h_next h) eqn:E; [|done]. apply (nd_sec _ N) in E as [? _]. lia. }
        assert (Ea : ∀ sec p, sec ≠ h_next h → lane_at h' sec p = lane_at h sec p) by (intros; unfold lane_at; by rewrite Es lookup_insert_ne).
        assert (Ec' : lane_at h' (h_next h) Centre = Some c) by (unfold lane_at; by rewrite Es lookup_insert).
        split; intros sec.
        * intros s0. rewrite Es. intros [[<- <-]|[_ ?]]%lookup_insert_Some; [done|eauto].
        * intros s0. rewrite Es. intros [[<- <-]|[_ ?]]%lookup_insert_Some; [done|eauto].
        * intros p l Hl. destruct (decide (l = c)) as [->|Hne]; [by exists (h_next h), Centre|].
          destruct (decide (sec = h_next h)) as [->|Hsn].
          { unfold lane_at in Hl. rewrite Es lookup_insert in Hl. destruct p; simpl in Hl; [congruence|done..]. }
          rewrite Ea // in Hl. destruct (II _ _ _ Hl) as (sec' & p' & Hl' & Hid). exists sec', p'.
          rewrite Ea ?El //. intros ->. unfold lane_at in Hl'. by rewrite Hn in Hl'.
      + pose proof (sec_ex _ _ Hs) as Hx. fold x in Hx.
        assert (Ea : ∀ sec' p l', lane_at h sec' p = Some l' → lane_at h' sec' p = Some l').
        { intros sec' p l'. unfold lane_at. rewrite Es. destruct (decide (sec = sec')) as [<-|Hne]; [|by rewrite lookup_insert_ne].
          rewrite lookup_insert Hx. destruct p; simpl; [done| |done]. intros Hi. by apply lookup_app_l_Some. }
        assert (Eb : ∀ sec' p l', lane_at h' sec' p = Some l' → lane_at h sec' p = Some l' ∨ (sec' = sec ∧ p = LeftOf (length (ls_left x)) ∧ l' = l)).
        { intros sec' p l'. unfold lane_at. rewrite Es. destruct (decide (sec = sec')) as [<-|Hne]; [|rewrite lookup_insert_ne //; by left].
          rewrite lookup_insert Hx. destruct p as [|i|i]; simpl; [by left| |by left].
          intros [Hi|[Hge Hi]]%lookup_app_Some; [by left|]. right. destruct (i - length (ls_left x)) eqn:E; [|done].
          simpl in Hi. injection Hi as <-. split_and!; [done|f_equal; lia|done]. }
        assert (Enew : lane_at h' sec (LeftOf (length (ls_left x))) = Some l).
        { unfold lane_at. rewrite Es lookup_insert. simpl. rewrite lookup_app_r // Nat.sub_diag //. }
        split; intros sec'.
        * intros s0. rewrite Es. intros [[<- <-]|[_ ?]]%lookup_insert_Some; [|eauto]. simpl. rewrite app_length /= (IL sec x Hx). lia.
        * intros s0. rewrite Es. intros [[<- <-]|[_ ?]]%lookup_insert_Some; [|eauto]. simpl. eauto.
        * intros p l' Hl'. destruct (decide (l' = l)) as [->|Hne].
          { exists sec, (LeftOf (length (ls_left x))). split; [done|]. simpl. by rewrite Ei (IL sec x Hx). }
          apply Eb in Hl' as [Hl'|(_ & _ & ?)]; [|done]. destruct (II _ _ _ Hl') as (sec2 & p2 & Hl2 & Hid).
          exists sec2, p2. split; [by apply Ea|by rewrite El].
      + pose proof (sec_ex _ _ Hs) as Hx. fold x in Hx.
        assert (Ea : ∀ sec' p l', lane_at h sec' p = Some l' → lane_at h' sec' p = Some l').
        { intros sec' p l'. unfold lane_at. rewrite Es. destruct (decide (sec = sec')) as [<-|Hne]; [|by rewrite lookup_insert_ne].
          rewrite lookup_insert Hx. destruct p; simpl; [done|done|]. intros Hi. by apply lookup_app_l_Some. }
        assert (Eb : ∀ sec' p l', lane_at h' sec' p = Some l' → lane_at h sec' p = Some l' ∨ (sec' = sec ∧ p = RightOf (length (ls_right x)) ∧ l' = l)).
        { intros sec' p l'. unfold lane_at. rewrite Es. destruct (decide (sec = sec')) as [<-|Hne]; [|rewrite lookup_insert_ne //; by left].
          rewrite lookup_insert Hx. destruct p as [|i|i]; simpl; [by left|by left|].
          intros [Hi|[Hge Hi]]%lookup_app_Some; [by left|]. right. destruct (i - length (ls_right x)) eqn:E; [|done].
          simpl in Hi. injection Hi as <-. split_and!; [done|f_equal; lia|done]. }
        assert (Enew : lane_at h' sec (RightOf (length (ls_right x))) = Some l).
        { unfold lane_at. rewrite Es lookup_insert. simpl. rewrite lookup_app_r // Nat.sub_diag //. }
        split; intros sec'.
        * intros s0. rewrite Es. intros [[<- <-]|[_ ?]]%lookup_insert_Some; [|eauto]. simpl. eauto.
        * intros s0. rewrite Es. intros [[<- <-]|[_ ?]]%lookup_insert_Some; [|eauto]. simpl. rewrite app_length /= (IR sec x Hx). lia.
        * intros p l' Hl'. destruct (decide (l' = l)) as [->|Hne].
          { exists sec, (RightOf (length (ls_right x))). split; [done|]. simpl. by rewrite Ei (IR sec x Hx). }
          apply Eb in Hl' as [Hl'|(_ & _ & ?)]; [|done]. destruct (II _ _ _ Hl') as (sec2 & p2 & Hl2 & Hid).
          exists sec2, p2. split; [by apply Ea|by rewrite El].
  Qed.

  (** ** Junctions *)
  Record junc_inv h : Prop := {
    ji_counter : ∀ j x, h_junc h !! j = Some x → jn_counter x = Z.of_nat (length (jn_conns x));
    ji_ids : ∀ j x c, h_junc h !! j = Some x → c ∈ jn_conns x → is_Some (cn_id (h_conn h !!! c))
  }.
  Lemma reachable_junc h : reachable h → junc_inv h.
  Proof.
    revert h. apply (reachable_ind junc_inv).
    - split; done.
    - intros h h' N [IC II] A.
      destruct (astep_junc h h' N A) as [Ej Ec|n id Ej Ec|j c Hj Hc x Ej Ec Eo].
      + split; intros j x; rewrite Ej; [eauto|]. intros c Hj Hc. rewrite Ec; [by apply (nd_junc _ N _ _ Hj)|by eapply II].
      + split.
        * intros j x. rewrite Ej. intros [[<- <-]|[_ ?]]%lookup_insert_Some; [done|eauto].
        * intros j x c. rewrite Ej Ec. intros [[<- <-]|[_ ?]]%lookup_insert_Some; [intros []%elem_of_nil|intros ?; by eapply II].
      + pose proof (exists_at _ _ _ Hj) as Hx. fold x in Hx.
        split; intros j' x'; rewrite Ej.
        * intros [[<- <-]|[_ ?]]%lookup_insert_Some; [|eauto]. simpl. rewrite app_length /= (IC j x Hx). lia.
        * intros c' Hj' Hc'. destruct (decide (c' = c)) as [->|Hne]; [rewrite Ec; by eexists|]. rewrite Eo //.
          apply lookup_insert_Some in Hj' as [[<- <-]|[_ Hj']]; [|by eapply II]. simpl in Hc'. apply elem_of_app in Hc' as [?|?%elem_of_list_singleton]; [by eapply II|done].
  Qed.
  (** an id, once set, stays *)
  Lemma astep_conn_id h h' c i : no_dangling h → astep h h' → exists_in h_conn h c → cn_id (h_conn h !!! c) = Some i → cn_id (h_conn h' !!! c) = Some i.
  Proof.
    intros N A Hc Hi. destruct (astep_junc h h' N A) as [Ej Ec|n id Ej Ec|j c' Hj Hc' x Ej Ec Eo].
    - by rewrite Ec.
    - by rewrite Ec.
    - destruct (decide (c = c')) as [->|Hne]; [by rewrite Ec Hi|by rewrite Eo].
  Qed.

  (** ** Object ids *)
  Lemma astep_obj h h' : no_dangling h → astep h h' → 
    (∃ r os, exists_in h_road h r ∧ Forall (exists_in h_obj h) os ∧ (h' = (add_object r os h).2 ∨ h' = (add_signal r os h).2)) ∨
    (h_ids h' = h_ids h ∧ (∀ o, exists_in h_obj h o → so_class (h_obj h' !!! o) = so_class (h_obj h !!! o) ∧ so_id (h_obj h' !!! o) = so_id (h_obj h !!! o)) ∧
     ∀ o, placed h' o → placed h o).
  Proof.
    intros N A.
    assert (Hpl : (∀ r' o', h_road h' !! r' = Some o' → ∀ x, x ∈ rd_objects o' ++ rd_signals o' → ∃ r o, h_road h !! r = Some o ∧ x ∈ rd_objects o ++ rd_signals o) →
      ∀ o, placed h' o → placed h o).
    { intros Hx o (r & R & HR & Ho). destruct (Hx r R HR o Ho) as (r2 & R2 & H1 & H2). by exists r2, R2. }
    destruct A; try (right; split; [done|split; [done|done]]).
    - right. destruct (lane_add_link_form l ty id h) as (m & -> & Hm). done.
    - right. destruct (use_lanelink_form k i h) as (m & m' & -> & Hm). done.
    - right. split; [done|]. split; [|done]. simpl. intros o Ho. rewrite ltm_insert_ne //. assert (o < h_next h) by (eapply exists_lt; [|exact Ho]; apply N). lia.
    - right. split; [done|]. split; [|done]. simpl. intros o _. destruct (decide (r = o)) as [->|Hne]; [rewrite ltm_insert; destruct H1 as (?&?&?&?& ->); done|by rewrite ltm_insert_ne].
    - right. split; [done|]. split; [done|]. apply Hpl. intros r' o'. simpl.
      intros [[<- <-]|[_ ?]]%lookup_insert_Some; [simpl; intros ? ?%elem_of_nil; done|eauto].
    - right. split; [|split]; [| |apply Hpl; intros r' o'];
        unfold add_successor, get_road; rewrite bind_gets; destruct (rd_succ _) eqn:Es; try done; simpl; eauto.
      intros [?|(-> & -> & He)]%road_upd_inv; eauto.
    - right. split; [|split]; [| |apply Hpl; intros r' o'];
        unfold add_predecessor, get_road; rewrite bind_gets; destruct (rd_pred _) eqn:Es; try done; simpl; eauto.
      intros [?|(-> & -> & He)]%road_upd_inv; eauto.
    - right. unfold add_neighbor, get_road. rewrite bind_gets. destruct (decide _); [done|]. unfold mk_link.
      destruct dir as [dir|]; [|done]. split; [done|split; [done|]]. intros o (r' & R & HR & Ho). simpl in HR. rewrite insert_insert ltm_insert in HR.
      apply road_upd_inv in HR as [?|(-> & -> & He)]; [by exists r', R|by exists r, (h_road h !!! r)|done].
    - left. exists r, os. split_and!; auto.
    - left. exists r, os. split_and!; auto.
  Qed.
  Lemma ids_ok_mono (P Q : ref → Prop) h : (∀ o, Q o → P o) → ids_ok P h → ids_ok Q h.
  Proof. intros Hs [A B C]. split; [auto|auto|]. intros. eapply (C o1 o2); eauto. Qed.
  Lemma placed_ex h o : no_dangling h → placed h o → exists_in h_obj h o.
  Proof. intros N (r & R & HR & Ho). apply (nd_road _ N) in HR as (_ & _ & _ & H). by apply H. Qed.

  Lemma reachable_ids h : reachable h → ids_ok (placed h) h.
  Proof.
    revert h. apply (reachable_ind (λ h, ids_ok (placed h) h)).
    - split; [intros o (r & R & HR & _); done|intros o (r & R & HR & _); done|intros o1 o2 i1 i2 (r & R & HR & _); done].
    - intros h h' N IH A. destruct (astep_obj h h' N A) as [(r & os & Hr & Hos & Hh)|(Ei & Eo & Hp)].
      + destruct (update_ids_ok os _ h Hos IH) as (h1 & E1 & Hok & (m & m' & ->) & _).
        destruct Hh as [->| ->].
        * unfold add_object. rewrite (bind_run _ _ _ _ _ E1). simpl. eapply (ids_ok_mono (λ o, placed h o ∨ o ∈ os)).
          -- intros o (r' & R & HR & Ho). simpl in HR. apply road_upd_inv in HR as [?|(-> & -> & He)]; [left; by exists r', R| |done].
             simpl in Ho. rewrite -app_assoc in Ho. apply elem_of_app in Ho as [Ho|[Ho|Ho]%elem_of_app]; [left|by right|left];
               exists r, (h_road h !!! r); (split; [done|apply elem_of_app; by auto]).
          -- by destruct Hok as [X Y Z].
        * unfold add_signal. rewrite (bind_run _ _ _ _ _ E1). simpl. eapply (ids_ok_mono (λ o, placed h o ∨ o ∈ os)).
          -- intros o (r' & R & HR & Ho). simpl in HR. apply road_upd_inv in HR as [?|(-> & -> & He)]; [left; by exists r', R| |done].
             simpl in Ho. rewrite app_assoc in Ho. apply elem_of_app in Ho as [Ho|Ho]; [left|by right].
               exists r, (h_road h !!! r); (split; [done|done]).
          -- by destruct Hok as [X Y Z].
      + destruct IH as [X Y Z]. assert (Eu : ∀ c, ids_used h' c = ids_used h c) by (intros c; unfold ids_used; by rewrite Ei).
        pose proof (astep_ext _ _ A) as E. split.
        * intros o Ho. apply (e_obj _ _ E), X, Hp, Ho.
        * intros o Ho%Hp. destruct (Eo o (X o Ho)) as [-> ->]. rewrite Eu. by apply Y.
        * intros o1 o2 i1 i2 H1%Hp H2%Hp. destruct (Eo o1 (X o1 H1)) as [-> ->]. destruct (Eo o2 (X o2 H2)) as [-> ->]. by apply Z.
  Qed.

  (** ** Dimensions and repeat entries of objects *)
  Lemma wf_inhabitant : obj_wf (inhabitant : sobj F).
  Proof. split; simpl; [done|intros d []%elem_of_nil|intros d k v []%elem_of_nil]. Qed.
  Lemma wf_id (o : sobj F) i : obj_wf o → obj_wf (o <| so_id := i |>).
  Proof. intros [A B C]. split; [exact A|exact B|exact C]. Qed.
  Lemma reachable_obj_wf h : reachable h → ∀ x, obj_wf (h_obj h !!! x).
  Proof.
    revert h. apply (reachable_ind (λ h, ∀ x, obj_wf (h_obj h !!! x))).
    - intros x. rewrite lookup_total_alt lookup_empty. apply wf_inhabitant.
    - intros h h' N IH A. assert (K : h_obj h' = h_obj h → ∀ x, obj_wf (h_obj h' !!! x)) by (intros ->; exact IH).
      assert (U : ∀ os, Forall (exists_in h_obj h) os → ∃ h1, for_each update_id os h = (Ok tt, h1) ∧ ∀ x, obj_wf (h_obj h1 !!! x)).
      { intros os Hos. destruct (update_ids_ok os (λ _, False) h Hos) as (h1 & E1 & _ & _ & _ & Hid); [by split|].
        exists h1. split; [done|]. intros x. rewrite Hid. apply wf_id, IH. }
      destruct A; try (apply K; reflexivity).
      + apply K. destruct (lane_add_link_form l ty id h) as (m & -> & Hm). done.
      + apply K. destruct (use_lanelink_form k i h) as (m & m' & -> & Hm). done.
      + intros y. simpl. destruct (decide (h_next h = y)) as [<-|Hne]; [rewrite ltm_insert; destruct H as [?|[r ->]]; [done|apply IH]|rewrite ltm_insert_ne //].
      + intros y. simpl. destruct (decide (r = y)) as [<-|Hne]; [rewrite ltm_insert; auto|rewrite ltm_insert_ne //].
      + apply K. unfold add_successor, get_road; rewrite bind_gets; destruct (rd_succ _) eqn:Es; done.
      + apply K. unfold add_predecessor, get_road; rewrite bind_gets; destruct (rd_pred _) eqn:Es; done.
      + apply K. unfold add_neighbor, get_road. rewrite bind_gets. destruct (decide _); [done|]. unfold mk_link. by destruct dir as [dir|].
      + destruct (U os H0) as (h1 & E1 & Hx). unfold add_object. rewrite (bind_run _ _ _ _ _ E1). exact Hx.
      + destruct (U os H0) as (h1 & E1 & Hx). unfold add_signal. rewrite (bind_run _ _ _ _ _ E1). exact Hx.
  Qed.

  (** an object keeps everything but its id, place and repeat entries *)
  Definition obj_keeps (o o' : sobj F) : Prop :=
    ∃ i s t hd rp, o' = o <| so_id := i |> <| so_s := s |> <| so_t := t |> <| so_hdg := hd |> <| so_repeats := so_repeats o ++ rp |>.
  Lemma obj_keeps_refl o : obj_keeps o o.
  Proof. exists (so_id o), (so_s o), (so_t o), (so_hdg o), []. rewrite app_nil_r. by destruct o. Qed.
  Lemma obj_keeps_trans o1 o2 o3 : obj_keeps o1 o2 → obj_keeps o2 o3 → obj_keeps o1 o3.
  Proof. intros (i & s & t & hd & rp & ->) (i' & s' & t' & hd' & rp' & ->). exists i', s', t', hd', (rp ++ rp'). rewrite app_assoc. by destruct o1. Qed.
  Lemma astep_obj_keeps h h' x : no_dangling h → astep h h' → exists_in h_obj h x → obj_keeps (h_obj h !!! x) (h_obj h' !!! x).
  Proof.
    intros N A Hx. assert (K : h_obj h' = h_obj h → obj_keeps (h_obj h !!! x) (h_obj h' !!! x)) by (intros ->; apply obj_keeps_refl).
    assert (U : ∀ os, Forall (exists_in h_obj h) os → ∃ h1, for_each update_id os h = (Ok tt, h1) ∧ obj_keeps (h_obj h !!! x) (h_obj h1 !!! x)).
    { intros os Hos. destruct (update_ids_ok os (λ _, False) h Hos) as (h1 & E1 & _ & _ & _ & Hid); [by split|].
      exists h1. split; [done|]. rewrite Hid. set (o := h_obj h !!! x). exists (so_id (h_obj h1 !!! x)), (so_s o), (so_t o), (so_hdg o), []. rewrite app_nil_r. by destruct o. }
    destruct A; try (apply K; reflexivity).
    + apply K. destruct (lane_add_link_form l ty id h) as (m & -> & Hm). done.
    + apply K. destruct (use_lanelink_form k i h) as (m & m' & -> & Hm). done.
    + simpl. rewrite ltm_insert_ne; [|apply obj_keeps_refl]. pose proof (exists_lt _ _ _ _ (nd_obj _ N) Hx). lia.
    + simpl. destruct (decide (r = x)) as [<-|Hne]; [rewrite ltm_insert|rewrite ltm_insert_ne; [done|apply obj_keeps_refl]].
      destruct H1 as (s & t & hd & rp & ->). exists (so_id (h_obj h !!! r)), s, t, hd, rp. by destruct (h_obj h !!! r).
    + apply K. unfold add_successor, get_road; rewrite bind_gets; destruct (rd_succ _) eqn:Es; done.
    + apply K. unfold add_predecessor, get_road; rewrite bind_gets; destruct (rd_pred _) eqn:Es; done.
    + apply K. unfold add_neighbor, get_road. rewrite bind_gets. destruct (decide _); [done|]. unfold mk_link. by destruct dir as [dir|].
    + destruct (U os H0) as (h1 & E1 & Hk). unfold add_object. rewrite (bind_run _ _ _ _ _ E1). exact Hk.
    + destruct (U os H0) as (h1 & E1 & Hk). unfold add_signal. rewrite (bind_run _ _ _ _ _ E1). exact Hk.
  Qed.
  Lemma run_obj_keeps h x os : reachable h → exists_in h_obj h x → obj_keeps (h_obj h !!! x) (h_obj (run h os) !!! x).
  Proof.
    intros Hr Hx. apply (run_ind (λ h', exists_in h_obj h' x ∧ obj_keeps (h_obj h !!! x) (h_obj h' !!! x)) h os Hr).
    - split; [done|apply obj_keeps_refl].
    - intros h1 h2 N [Hx1 K1] A. split; [by apply (e_obj _ _ (astep_ext _ _ A))|]. eapply obj_keeps_trans; [exact K1|]. by apply astep_obj_keeps.
  Qed.

  (** ** The roads of an OpenDrive *)
  Record odr_inv h (x : opendrive) : Prop := {
    oi_nodup : NoDup (map fst (od_roads x));
    oi_key : ∀ k r, (k, r) ∈ od_roads x → k = pystr (rd_id (h_road h !!! r))
  }.
  Lemma road_step_id o o' : road_step o o' → rd_id o' = rd_id o.
  Proof. by destruct 1. Qed.
  Lemma astep_road_id h h' r : no_dangling h → astep h h' → exists_in h_road h r → rd_id (h_road h' !!! r) = rd_id (h_road h !!! r).
  Proof.
    intros N A Hr. pose proof (exists_at _ _ _ Hr) as Ho. destruct (astep_road_old h h' r _ N A Ho) as [E|(o' & E & Hs)].
    - by rewrite (lookup_total_correct _ _ _ E).
    - rewrite (lookup_total_correct _ _ _ E). by apply road_step_id.
  Qed.
  Lemma reachable_odr h : reachable h → ∀ d x, h_odr h !! d = Some x → odr_inv h x.
  Proof.
    revert h. apply (reachable_ind (λ h, ∀ d x, h_odr h !! d = Some x → odr_inv h x)); [done|].
    intros h h' N IH A d x' Hx'.
    assert (Hk : ∀ x, odr_refs_ok h x → odr_inv h x → odr_inv h' x).
    { intros x [Hrefs _] [I1 I2]. split; [done|]. intros k r Hkr. rewrite (astep_road_id _ _ _ N A); [by eapply Hrefs|eauto]. }
    destruct (astep_odr h h' d x' A Hx') as [Hx|[(n & ->)|[(x & r & Hx & Hr & ->)|(x & j & Hx & Hj & ->)]]].
    - apply Hk; [by apply (nd_odr _ N) in Hx as [_ ?]|eauto].
    - split; simpl; [constructor|intros ?? []%elem_of_nil].
    - destruct (IH d x Hx) as [I1 I2]. split; simpl; [by apply dict_set_nodup|].
      intros k r' Hkr. apply dict_set_In in Hkr as [Hkr|[-> ->]]; [|by rewrite (astep_road_id _ _ _ N A)].
      apply (nd_odr _ N) in Hx as [_ [Hrefs _]]. rewrite (astep_road_id _ _ _ N A); [by eapply Hrefs|eauto].
    - apply (nd_odr _ N) in Hx as Hrefs. destruct Hrefs as [_ Hrefs]. destruct (Hk x Hrefs (IH d x Hx)) as [I1 I2]. by split.
  Qed.
End Invariants.
