(** Which links lane linking adds to which lanes *)
From Coq Require Import ssreflect.
From Verif.Model Require Import Api.
From Verif.Spec Require Import SpecLinkOrder SpecLanes SpecXml.
From Verif.Proof Require Import Monad DictFacts PlanViewFacts NetFrame Network Again Reach Steps History LinkerFacts LaneLinks LinkAll LinkOrder.
Local Open Scope general_if_scope.

Section Kinds.
  Context {F : Type} `{!Num F}.
  Implicit Types (h : heap F) (o : road).

  (** [f] adds links described by [Q] and returns a value described by [V] *)
  Definition adding {A} h (Q : ref → link → Prop) (f : H (F:=F) A) (V : A → Prop) : Prop :=
    ∃ r us, static h f r us ∧ (∀ l k, (l, k) ∈ us → Q l k) ∧ ∀ a, r = Ok a → V a.
  Section Rules.
    Context h (Q : ref → link → Prop).
    Lemma ad_pure {A} (f : H (F:=F) A) r (V : A → Prop) : (∀ h', alike h h' → f h' = (r, h')) → (∀ a, r = Ok a → V a) → adding h Q f V.
    Proof. intros E HV. exists r, []. split; [intros h' Ha; rewrite (E h' Ha); by destruct h'|]. split; [|done]. by intros l k ?%elem_of_nil. Qed.
    Lemma ad_ret {A} (a : A) (V : A → Prop) : V a → adding h Q (ret a) V.
    Proof. intros HV. apply (ad_pure _ (Ok a)); [done|]. by intros a' [= <-]. Qed.
    Lemma ad_raise {A} e (V : A → Prop) : adding h Q (raise e) V.
    Proof. by apply (ad_pure _ (Err e)). Qed.
    Lemma ad_lift {A} (r : res A) (V : A → Prop) : (∀ a, r = Ok a → V a) → adding h Q (lift r) V.
    Proof. intros HV. by apply (ad_pure _ r). Qed.
    Lemma ad_or_raise {A} e (x : option A) (V : A → Prop) : (∀ a, x = Some a → V a) → adding h Q (or_raise e x) V.
    Proof. intros HV. destruct x; [apply ad_ret; auto|apply ad_raise]. Qed.
    Lemma ad_bind {A B} (f : H (F:=F) A) (g : A → H (F:=F) B) (U : A → Prop) (V : B → Prop) : adding h Q f U → (∀ a, U a → adding h Q (g a) V) → adding h Q (bind f g) V.
    Proof.
      intros (r & us & Ef & Hus & HU) Hg. destruct r as [a|e].
      - destruct (Hg a (HU a eq_refl)) as (r & vs & Eg & Hvs & HV). exists r, (us ++ vs). split; [|split; [|done]].
        + intros h' Ha. rewrite (bind_run _ _ _ _ _ (Ef h' Ha)). rewrite (Eg _ (alike_add _ _ _ Ha)). by rewrite add_links_app.
        + intros l k [?|?]%elem_of_app; auto.
      - exists (Err e), us. split; [|split; [done|done]]. intros h' Ha. unfold bind. by rewrite (Ef h' Ha).
    Qed.
    Definition anything {A} : A → Prop := λ _, True.
    Lemma ad_for_each {A} (f : A → H (F:=F) unit) l : (∀ x, adding h Q (f x) anything) → adding h Q (for_each f l) anything.
    Proof. intros Hf. induction l as [|x l IH]; [by apply ad_ret|]. eapply ad_bind; [apply Hf|intros ? ?; exact IH]. Qed.
    Lemma ad_get_road r : adding h Q (get_road r) (λ o, o = h_road h !!! r).
    Proof. apply (ad_pure _ (Ok (h_road h !!! r))); [|by intros a [= <-]]. intros h' Ha. unfold get_road, gets. by rewrite (ak_road _ _ Ha). Qed.
    Lemma ad_index {A} (l : list A) i : adding h Q (py_index_opt l i) (λ x, x ∈ l).
    Proof.
      unfold py_index_opt, py_index. destruct i as [z|]; [|apply ad_raise]. apply ad_or_raise. intros a. repeat case_match; try done; apply elem_of_list_lookup_2.
    Qed.
    Definition section_of r (s : lanesection F) : Prop := ∃ sec, sec ∈ sections h (h_road h !!! r) ∧ s = h_sec h !!! sec.
    Lemma ad_section r o i : o = h_road h !!! r → adding h Q (road_section o i) (section_of r).
    Proof.
      intros ->. unfold road_section. eapply (ad_bind _ _ (λ l, l = sections h (h_road h !!! r))).
      { apply (ad_pure _ (Ok (sections h (h_road h !!! r)))); [|by intros a [= <-]]. intros h' Ha. unfold get_lanes, gets, sections. by rewrite (ak_lanes _ _ Ha). }
      intros l ->. eapply ad_bind; [apply ad_index|]. intros sec Hs.
      apply (ad_pure _ (Ok (h_sec h !!! sec))); [|intros a [= <-]; by exists sec]. intros h' Ha. unfold get_sec, gets. by rewrite (ak_sec _ _ Ha).
    Qed.
    Lemma section_left r s i l : section_of r s → ls_left s !! i = Some l → l ∈ road_lanes h r.
    Proof.
      intros (sec & Hs & ->) Hl. unfold road_lanes. apply elem_of_list_In, in_concat. exists (section_lanes h sec). split.
      - apply in_map. by apply elem_of_list_In.
      - apply elem_of_list_In. unfold section_lanes. rewrite !elem_of_app. left. by eapply elem_of_list_lookup_2.
    Qed.
    Lemma section_right r s i l : section_of r s → ls_right s !! i = Some l → l ∈ road_lanes h r.
    Proof.
      intros (sec & Hs & ->) Hl. unfold road_lanes. apply elem_of_list_In, in_concat. exists (section_lanes h sec). split.
      - apply in_map. by apply elem_of_list_In.
      - apply elem_of_list_In. unfold section_lanes. rewrite !elem_of_app. right. right. by eapply elem_of_list_lookup_2.
    Qed.
    Lemma ad_id_times l s : adding h Q (lane_id_times l s) anything.
    Proof.
      destruct (st_id_times h l s) as (r & us & E). exists r, []. split; [|split; [by intros ?? ?%elem_of_nil|done]].
      intros h' Ha. unfold lane_id_times, get_lane. rewrite bind_gets. specialize (E h (alike_refl h)). unfold lane_id_times, get_lane in E. rewrite bind_gets in E.
      rewrite (ak_ids _ _ Ha l). destruct (ln_id (h_lane h !!! l)); [destruct s|]; cbn in *; injection E as <-; by destruct h'.
    Qed.
    (** a lane whose number is read *)
    Lemma ad_get_lane {B} l (g : lane F → H (F:=F) B) V : (∀ x x', ln_id x = ln_id x' → g x = g x') → adding h Q (g (h_lane h !!! l)) V → adding h Q (bind (get_lane l) g) V.
    Proof.
      intros Hi (r & us & E & H). exists r, us. split; [|done]. intros h' Ha. unfold get_lane. rewrite bind_gets.
      rewrite (Hi (h_lane h' !!! l) (h_lane h !!! l)); [apply (ak_ids _ _ Ha)|]. by apply E.
    Qed.
    Lemma ad_add_link l ty id : (∀ k, mk_link ty (PStr id) None None None = Ok k → Q l k) → adding h Q (lane_add_link l ty id) anything.
    Proof.
      intros HQ. unfold lane_add_link. destruct (mk_link ty (PStr id) None None None) as [k|e] eqn:E.
      - exists (Ok tt), [(l, k)]. split; [intros h' Ha; by rewrite bind_lift_ok|]. split; [|done]. intros l' k' [= -> ->]%elem_of_list_singleton. by apply HQ.
      - exists (Err e), []. split; [intros h' Ha; unfold bind, lift; by destruct h'|]. split; [|done]. by intros ?? ?%elem_of_nil.
    Qed.
  End Rules.

  (** a link that a lane of road [a] gets because of road [b] *)
  Definition kind_for o o' (ty : option string) : Prop :=
    ty = Some "successor" ∧ (∃ L, rd_succ o = Some L ∧ lk_id L = rd_id o') ∨ ty = Some "predecessor" ∧ (∃ L, rd_pred o = Some L ∧ lk_id L = rd_id o').
  Definition gained h (a b : ref) (l : ref) (k : link) : Prop :=
    l ∈ road_lanes h a ∧ kind_for (h_road h !!! a) (h_road h !!! b) (lk_type k) ∧ ∃ z : Z, lk_id k = PStr (pretty z).
  Definition gained_either h (r1 r2 : ref) l k : Prop := gained h r1 r2 l k ∨ gained h r2 r1 l k.
  Lemma related_kind o o' ty sg ix : get_related_lanesection o o' = Ok (ty, sg, ix) → names o o' → kind_for o o' ty.
  Proof.
    intros E Hn. assert (Et : (related_base o o').1.1 = ty).
    { unfold get_related_lanesection in E. destruct (related_base o o') as [[ty' sg'] ix']. simpl.
      destruct (bool_decide (rd_type o' = _)); [by injection E|]. destruct (rd_pred o') as [p|]; [|done]. destruct (bool_decide (lk_id p = _)); [by injection E|].
      destruct (rd_succ o') as [s|]; [|done]. destruct (bool_decide (lk_id s = _)); by injection E. }
    subst ty. unfold related_base. destruct Hn as (L & HL & Hid).
    destruct (rd_succ o) as [s|] eqn:Es; [case_bool_decide; [left; split; [done|by exists s]|]|];
      (destruct (rd_pred o) as [p|] eqn:Ep; [case_bool_decide; [right; split; [done|by exists p]|]|]); simpl; exfalso;
      destruct HL as [HL|HL]; try done; injection HL as ->; done.
  Qed.
  Lemma mk_link_facts ty id k : mk_link ty id None None None = Ok k → lk_type k = ty ∧ lk_id k = id.
  Proof. unfold mk_link. destruct (_ && _); [done|]. by intros [= <-]. Qed.
  Lemma id_str (i : option Z) : is_Some i → ∃ z : Z, lane_id_str i = pretty z.
  Proof. intros [z ->]. by exists z. Qed.

  Lemma ad_roads h a b (Q := gained_either h a b) : before (h_road h !!! a) (h_road h !!! b) → (∀ l, l ∈ road_lanes h a → has_id h l) → adding h Q (create_links_roads a b) anything.
  Proof.
    intros Hb Hids. assert (Ha : names (h_road h !!! a) (h_road h !!! b)). { destruct Hb as (s & p & E & _ & _ & _ & Hi & _). exists s. auto. }
    assert (Hb' : names (h_road h !!! b) (h_road h !!! a)). { destruct Hb as (s & p & _ & E & _ & _ & _ & Hi). exists p. auto. }
    unfold create_links_roads. eapply ad_bind; [apply ad_get_road|intros ? ->]. eapply ad_bind; [apply ad_get_road|intros ? ->].
    eapply ad_bind; [apply (ad_lift _ _ _ (λ t, get_related_lanesection (h_road h !!! a) (h_road h !!! b) = Ok t)); by intros ? ->|intros [[t1 sg1] ix1] R1].
    eapply ad_bind; [apply (ad_lift _ _ _ (λ t, get_related_lanesection (h_road h !!! b) (h_road h !!! a) = Ok t)); by intros ? ->|intros [[t2 sg2] ix2] R2].
    apply related_kind in R1; [|done]. apply related_kind in R2; [|done].
    eapply ad_bind; [by apply (ad_section _ _ a)|intros psec Hp]. eapply ad_bind; [by apply (ad_section _ _ b)|intros slast Hsl].
    eapply ad_bind.
    { destruct (bool_decide _); [|apply ad_raise]. apply ad_for_each. intros i.
      eapply ad_bind; [by apply (ad_section _ _ a)|intros ps Hps]. eapply ad_bind; [by apply (ad_or_raise _ _ _ _ (λ l, ls_left ps !! i = Some l))|intros pl Hpl].
      eapply ad_bind; [apply ad_id_times|intros z _]. eapply ad_bind.
      { apply ad_add_link. intros k Hk. apply mk_link_facts in Hk as [K1 K2]. left. split; [first [exact (section_left _ _ _ _ _ Hss Hsl')|exact (section_left _ _ _ _ _ Hps Hpl)]|]. rewrite K1 K2. split; [done|]. by eexists. }
      intros _ _. eapply ad_bind; [by apply (ad_section _ _ b)|intros ss Hss]. eapply ad_bind; [by apply (ad_or_raise _ _ _ _ (λ l, ls_left ss !! i = Some l))|intros sl Hsl'].
      eapply ad_bind; [by apply (ad_or_raise _ _ _ _ anything)|intros sg _].
      apply ad_add_link. intros k Hk. apply mk_link_facts in Hk as [K1 K2]. right. split; [first [exact (section_left _ _ _ _ _ Hss Hsl')|exact (section_left _ _ _ _ _ Hps Hpl)]|]. rewrite K1 K2. split; [done|]. by eexists. }
    intros _ _. eapply ad_bind; [by apply (ad_section _ _ a)|intros psec' Hp']. eapply ad_bind; [by apply (ad_section _ _ b)|intros slast' Hsl2].
    destruct (bool_decide _); [|apply ad_raise]. apply ad_for_each. intros i.
    eapply ad_bind; [by apply (ad_section _ _ a)|intros ps Hps]. eapply ad_bind; [by apply (ad_or_raise _ _ _ _ (λ l, ls_right ps !! i = Some l))|intros pl Hpl].
    assert (Hin : pl ∈ road_lanes h a) by (first [exact (section_right _ _ _ _ _ Hss Hsl')|exact (section_right _ _ _ _ _ Hps Hpl)]). destruct (id_str (ln_id (h_lane h !!! pl)) (Hids _ Hin)) as [z Hz].
    apply ad_get_lane; [by intros x x' ->|]. rewrite Hz. eapply ad_bind.
    { apply ad_add_link. intros k Hk. apply mk_link_facts in Hk as [K1 K2]. left. split; [done|]. rewrite K1 K2. split; [done|]. by eexists. }
    intros _ _. eapply ad_bind; [by apply (ad_section _ _ b)|intros ss Hss]. eapply ad_bind; [by apply (ad_or_raise _ _ _ _ (λ l, ls_right ss !! i = Some l))|intros sl Hsl'].
    apply ad_add_link. intros k Hk. apply mk_link_facts in Hk as [K1 K2]. right. split; [first [exact (section_right _ _ _ _ _ Hss Hsl')|exact (section_right _ _ _ _ _ Hps Hpl)]|]. rewrite K1 K2. split; [done|]. by eexists.
  Qed.

  Lemma unrelated_index o o' t : get_related_lanesection o o' = Ok t → ¬ names o o' → (¬ ordinary o' → ¬ names o' o) → t.2 = None.
  Proof.
    intros E Hn Hn'. unfold get_related_lanesection in E. rewrite (related_none _ _ Hn) in E. destruct (decide (ordinary o')) as [Ho|Ho].
    { rewrite bool_decide_true // in E. by injection E as <-. }
    specialize (Hn' Ho). rewrite (bool_decide_false (rd_type o' = (-1)%Z)) // in E. destruct (rd_pred o') as [p|] eqn:Ep; [|done].
    rewrite bool_decide_false in E; [intros Hid; apply Hn'; exists p; auto|]. destruct (rd_succ o') as [s|] eqn:Es; [|done].
    rewrite bool_decide_false in E; [intros Hid; apply Hn'; exists s; auto|]. by injection E as <-.
  Qed.
  Lemma names_or o o' : names o o' ∨ ¬ names o o'.
  Proof.
    destruct (rd_pred o) as [p|] eqn:Ep; [destruct (decide (lk_id p = rd_id o')); [left; exists p; auto|]|];
      (destruct (rd_succ o) as [s|] eqn:Es; [destruct (decide (lk_id s = rd_id o')); [left; exists s; auto|]|]); right; intros (L & [E|E] & Hi); congruence.
  Qed.
  Lemma ad_connecting h a b (Q := gained_either h a b) : (¬ ordinary (h_road h !!! b) → ¬ names (h_road h !!! a) (h_road h !!! b) ∧ ¬ names (h_road h !!! b) (h_road h !!! a)) →
    adding h Q (create_links_connecting_road a b) anything.
  Proof.
    intros Hp. unfold create_links_connecting_road. eapply ad_bind; [apply ad_get_road|intros ? ->]. eapply ad_bind; [apply ad_get_road|intros ? ->].
    eapply ad_bind; [apply (ad_lift _ _ _ (λ t, get_related_lanesection (h_road h !!! a) (h_road h !!! b) = Ok t)); by intros ? ->|intros [[t1 sg1] ix1] R1].
    eapply ad_bind; [apply (ad_lift _ _ _ (λ t, get_related_lanesection (h_road h !!! b) (h_road h !!! a) = Ok t)); by intros ? ->|intros [[t2 sg2] ix2] R2].
    destruct ix1 as [ix1|]; [|by apply ad_ret].
    assert (Hn : names (h_road h !!! a) (h_road h !!! b)).
    { destruct (names_or (h_road h !!! a) (h_road h !!! b)) as [?|Hno]; [done|].
      exfalso. pose proof (unrelated_index _ _ _ R1 Hno (λ Ho, proj2 (Hp Ho))) as [=]. }
    apply related_kind in R1; [|done].
    eapply ad_bind; [by apply (ad_section _ _ a)|intros csec Hc]. eapply ad_bind.
    { destruct (ls_left csec); [by apply (ad_ret _ _ _ anything)|]. eapply ad_bind; [by apply (ad_section _ _ a)|intros rng Hr]. apply ad_for_each. intros i.
      eapply ad_bind; [by apply (ad_section _ _ b)|intros ps Hps]. eapply ad_bind; [by apply (ad_or_raise _ _ _ _ anything)|intros pl Hpl].
      eapply ad_bind; [apply ad_id_times|intros z _]. eapply ad_bind; [by apply (ad_section _ _ a)|intros ss Hss].
      eapply ad_bind; [by apply (ad_or_raise _ _ _ _ (λ l, ls_left ss !! i = Some l))|intros sl Hsl'].
      apply ad_add_link. intros k Hk. apply mk_link_facts in Hk as [K1 K2]. left. split; [first [exact (section_left _ _ _ _ _ Hss Hsl')|exact (section_left _ _ _ _ _ Hps Hpl)]|]. rewrite K1 K2. split; [done|]. by eexists. }
    intros _ _. eapply ad_bind; [by apply (ad_section _ _ a)|intros csec' Hc'].
    destruct (ls_right csec'); [by apply ad_ret|]. apply ad_for_each. intros i.
    eapply ad_bind; [by apply (ad_section _ _ b)|intros ps Hps]. eapply ad_bind; [by apply (ad_or_raise _ _ _ _ anything)|intros pl Hpl].
    eapply ad_bind; [apply ad_id_times|intros z _]. eapply ad_bind; [by apply (ad_section _ _ a)|intros ss Hss].
    eapply ad_bind; [by apply (ad_or_raise _ _ _ _ (λ l, ls_right ss !! i = Some l))|intros sl Hsl'].
    apply ad_add_link. intros k Hk. apply mk_link_facts in Hk as [K1 K2]. left. split; [first [exact (section_right _ _ _ _ _ Hss Hsl')|exact (section_right _ _ _ _ _ Hps Hpl)]|]. rewrite K1 K2. split; [done|]. by eexists.
  Qed.
  Lemma ad_mono {A} h (Q Q' : ref → link → Prop) (f : H (F:=F) A) V : (∀ l k, Q l k → Q' l k) → adding h Q f V → adding h Q' f V.
  Proof. intros HQ (r & us & E & Hu & HV). exists r, us. auto. Qed.
  Lemma ad_create h a b : plain_pair (h_road h !!! a) (h_road h !!! b) → (∀ l, l ∈ road_lanes h a → has_id h l) → (∀ l, l ∈ road_lanes h b → has_id h l) →
    adding h (gained_either h a b) (create_lane_links a b) anything.
  Proof.
    intros [Hp _] Ha Hb. unfold create_lane_links. eapply ad_bind; [apply ad_get_road|intros ? ->]. eapply ad_bind; [apply ad_get_road|intros ? ->].
    assert (Hswap : ∀ l k, gained_either h b a l k → gained_either h a b l k) by (intros l k [?|?]; [by right|by left]).
    destruct (decide (ordinary (h_road h !!! a))) as [Oa|Oa].
    - rewrite (bool_decide_true (rd_type (h_road h !!! a) = (-1)%Z)) //. cbn [andb negb]. destruct (decide (ordinary (h_road h !!! b))) as [Ob|Ob].
      + rewrite (bool_decide_true (rd_type (h_road h !!! b) = (-1)%Z)) //.
        destruct (are_roads_consecutive (h_road h !!! a) (h_road h !!! b)) eqn:C1; [apply consecutive_iff in C1; by apply ad_roads|].
        destruct (are_roads_consecutive (h_road h !!! b) (h_road h !!! a)) eqn:C2; [apply consecutive_iff in C2; apply (ad_mono _ _ _ _ _ Hswap); by apply ad_roads|].
        by apply ad_ret.
      + rewrite (bool_decide_false (rd_type (h_road h !!! b) = (-1)%Z)) //. apply (ad_mono _ _ _ _ _ Hswap). by apply ad_connecting.
    - rewrite (bool_decide_false (rd_type (h_road h !!! a) = (-1)%Z)) //. cbn [andb negb]. apply ad_connecting. intros Ob. by apply Hp.
  Qed.
  (** what a pair of roads gives to a lane *)
  Lemma gets_links_kind h a b l k : plain_pair (h_road h !!! a) (h_road h !!! b) → (∀ l, l ∈ road_lanes h a → has_id h l) → (∀ l, l ∈ road_lanes h b → has_id h l) →
    k ∈ gets_links h a b l → gained_either h a b l k.
  Proof.
    intros Hp Ha Hb Hk. destruct (ad_create h a b Hp Ha Hb) as (r & us & E & Hus & _). apply Hus. unfold gets_links in Hk. rewrite (E h (alike_refl h)) in Hk.
    change (h_lane (r, h <| h_lane := add_links us (h_lane h) |>).2) with (add_links us (h_lane h)) in Hk. rewrite add_links_at in Hk. cbn [ln_links set] in Hk.
    rewrite drop_app in Hk. unfold links_for in Hk. rewrite -/(fmap (M:=list)) in Hk.
    by apply elem_of_list_fmap in Hk as ([l' k'] & -> & [<- Hin]%elem_of_list_filter).
  Qed.
End Kinds.

Lemma elem_combinations2 {A} (l : list A) x y : (x, y) ∈ combinations2 l → ∃ i j, i < j ∧ l !! i = Some x ∧ l !! j = Some y.
Proof.
  induction l as [|z l IH]; simpl; [by intros ?%elem_of_nil|]. intros [Hw|Hl]%elem_of_app.
  - apply elem_of_list_In, in_map_iff in Hw as (w & [= -> ->] & Hw). apply elem_of_list_In, elem_of_list_lookup in Hw as [i Hi]. exists 0, (S i). split_and!; [lia|done|done].
  - apply IH in Hl as (i & j & ? & ? & ?). exists (S i), (S j). split_and!; [lia|done|done].
Qed.

(** ** A table of chunks, one for each pair: the chunks of the pairs with [a0] *)
Section Chunks.
  Context {A K : Type} (f : A * A → list K) (pre suc : K → Prop) (P S : A → Prop) (a0 : A).
  Context (H0 : ∀ x y, x ≠ y → x ≠ a0 → y ≠ a0 → f (x, y) = []) (Hdec : ∀ x, x = a0 ∨ x ≠ a0).
  Context (H1 : ∀ y k, y ≠ a0 → k ∈ f (a0, y) ∨ k ∈ f (y, a0) → P y ∧ pre k ∧ ¬ suc k ∨ S y ∧ suc k ∧ ¬ pre k).
  Definition fine (ks : list K) : Prop := ∃ ps ss, ks = ps ++ ss ∧ (∀ k, k ∈ ps → pre k) ∧ (∀ k, k ∈ ss → suc k).
  Lemma fine_nil : fine [].
  Proof. exists [], []. split; [done|]. split; by intros k ?%elem_of_nil. Qed.
  Lemma fine_pre ks ks' : (∀ k, k ∈ ks → pre k) → fine ks' → fine (ks ++ ks').
  Proof. intros Hk (ps & ss & -> & Hp & Hs). exists (ks ++ ps), ss. rewrite app_assoc. split; [done|]. split; [|done]. intros k [?|?]%elem_of_app; auto. Qed.
  Lemma fine_suc ks : (∀ k, k ∈ ks → suc k) → fine ks.
  Proof. intros Hk. exists [], ks. split; [done|]. split; [by intros k ?%elem_of_nil|done]. Qed.
  Lemma chunk_cases y (c : list K) : y ≠ a0 → (P y → S y → False) → (∀ k, k ∈ c → k ∈ f (a0, y) ∨ k ∈ f (y, a0)) → (∀ k, k ∈ c → pre k) ∨ S y ∧ ∀ k, k ∈ c → suc k.
  Proof.
    intros Hy Hps Hc. destruct c as [|k0 c]; [left; by intros k ?%elem_of_nil|].
    destruct (H1 y k0 Hy (Hc k0 ltac:(left))) as [(Py & _)|(Sy & _)].
    - left. intros k Hk. destruct (H1 y k Hy (Hc k Hk)) as [(_ & ? & _)|(Sy & _)]; [done|]. by destruct (Hps Py Sy).
    - right. split; [done|]. intros k Hk. destruct (H1 y k Hy (Hc k Hk)) as [(Py & _)|(_ & ? & _)]; [by destruct (Hps Py Sy)|done].
  Qed.
  Definition in_order (l : list A) : Prop := ∀ i j x y, i ≤ j → l !! i = Some x → l !! j = Some y → S x → P y → False.
  Lemma in_order_tail x l : in_order (x :: l) → in_order l.
  Proof. intros Ho i j a b Hij Ha Hb. apply (Ho (Datatypes.S i) (Datatypes.S j)); [lia|done|done]. Qed.
  Lemma absent l : NoDup l → a0 ∉ l → concat (map f (combinations2 l)) = [].
  Proof.
    induction l as [|x l IH]; [done|]. intros [Hxl Hd]%NoDup_cons [Hx Hl]%not_elem_of_cons. simpl. rewrite map_app concat_app IH // app_nil_r.
    clear IH Hd. induction l as [|y l IH]; [done|]. apply not_elem_of_cons in Hl as [Hy Hl]. apply not_elem_of_cons in Hxl as [Hxy Hxl]. simpl. rewrite H0 //. by apply IH.
  Qed.
  Lemma first_row l : a0 ∉ l → in_order l → fine (concat (map f (map (λ y, (a0, y)) l))).
  Proof.
    induction l as [|y l IH]; intros Hn Ho; [apply fine_nil|]. apply not_elem_of_cons in Hn as [Hy Hn]. simpl.
    destruct (chunk_cases y (f (a0, y))) as [Hp|[Sy Hs]]; [congruence|intros Py Sy; by apply (Ho 0 0 y y)|by left| |].
    - apply fine_pre; [done|]. apply IH; [done|by eapply in_order_tail].
    - apply fine_suc. intros k [Hk|Hk]%elem_of_app; [auto|]. apply elem_of_list_In, in_concat in Hk as (c & Hc & Hk). apply in_map_iff in Hc as (xy & <- & Hc).
      apply in_map_iff in Hc as (z & <- & Hz). apply elem_of_list_In in Hk, Hz. assert (Hz0 : z ≠ a0) by congruence.
      destruct (H1 z k Hz0 ltac:(by left)) as [(Pz & _)|(_ & ? & _)]; [|done]. exfalso. apply elem_of_list_lookup in Hz as [i Hi].
      apply (Ho 0 (Datatypes.S i) y z); [lia|done|done|done|done].
  Qed.
  Lemma chunks_fine l : NoDup l → in_order l → fine (concat (map f (combinations2 l))).
  Proof.
    induction l as [|x l IH]; intros Hd Ho; [apply fine_nil|]. apply NoDup_cons in Hd as [Hx Hd]. simpl. rewrite map_app concat_app.
    destruct (Hdec x) as [->|Hne].
    - rewrite (absent l Hd Hx) app_nil_r. apply first_row; [done|by eapply in_order_tail].
    - specialize (IH Hd (in_order_tail _ _ Ho)).
      assert (Hrow : ∀ k, k ∈ concat (map f (map (λ y, (x, y)) l)) → k ∈ f (x, a0)).
      { intros k Hk. apply elem_of_list_In, in_concat in Hk as (c & Hc & Hk). apply in_map_iff in Hc as (xy & <- & Hc). apply in_map_iff in Hc as (z & <- & Hz).
        apply elem_of_list_In in Hk. destruct (Hdec z) as [->|Hz0]; [done|]. apply elem_of_list_In in Hz. rewrite H0 // in Hk; [congruence|]. by apply elem_of_nil in Hk. }
      destruct (chunk_cases x (concat (map f (map (λ y, (x, y)) l)))) as [Hp|[Sx Hs]]; [done|intros Px Sx; by apply (Ho 0 0 x x)|intros k Hk; right; by apply Hrow| |].
      + by apply fine_pre.
      + apply fine_suc. intros k [Hk|Hk]%elem_of_app; [auto|]. apply elem_of_list_In, in_concat in Hk as (c & Hc & Hk). apply in_map_iff in Hc as ([y z] & <- & Hc).
        apply elem_of_list_In in Hk, Hc. apply elem_combinations2 in Hc as (i & j & Hij & Hi & Hj).
        assert (Hin : ∀ w, (∃ i, l !! i = Some w) → w ≠ a0 → k ∈ f (a0, w) ∨ k ∈ f (w, a0) → suc k).
        { intros w [iw Hw] Hw0 Hkw. destruct (H1 w k Hw0 Hkw) as [(Pw & _)|(_ & ? & _)]; [|done]. exfalso. apply (Ho 0 (Datatypes.S iw) x w); [lia|done|done|done|done]. }
        destruct (Hdec y) as [->|Hy0]; [|destruct (Hdec z) as [->|Hz0]].
        * apply (Hin z); [by exists j| |by left]. intros ->. assert (i = j) by (by eapply NoDup_lookup). lia.
        * apply (Hin y); [by exists i|done|by right].
        * rewrite H0 // in Hk; [intros ->; assert (i = j) by (by eapply NoDup_lookup); lia|]. by apply elem_of_nil in Hk.
  Qed.
End Chunks.
