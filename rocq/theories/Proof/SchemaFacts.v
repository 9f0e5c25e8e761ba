(** * Trees that are written, and the schema *)
From Coq Require Import ssreflect.
From Verif.Model Require Import Api Xml.
From Verif.Spec Require Import SpecSchema.
From Verif.Proof Require Import DictFacts Monad Reach Steps History Invariants ReadXml.
Local Open Scope general_if_scope.

Ltac in_list := solve [repeat first [apply elem_of_list_here | apply elem_of_list_further]].
Ltac nodup := apply (bool_decide_unpack _); vm_compute; exact I.
Ltac of_kind := simpl; first [exact I | right; eexists; reflexivity | left; reflexivity | eexists; reflexivity | in_list | idtac].
Ltac attrs := split; [simpl; nodup|split;
  [let H := fresh in intros ? ? H; repeat (apply elem_of_cons in H as [[= -> ->]|H]; [eexists; in_list|]); try (by apply elem_of_nil in H)
  |let H := fresh in intros ? ? H; repeat (apply elem_of_cons in H as [[= -> ->]|H]; [eexists; split; [in_list|of_kind]|]); try (by apply elem_of_nil in H)]].

(** ** Contents *)
Lemma next_optional P C l : next (optional P) C l ↔ C l ∨ ∃ x l', l = x :: l' ∧ P x ∧ C l'.
Proof.
  split.
  - intros (l1 & l2 & -> & [->|(x & -> & Hx)] & H2); [by left|right; by exists x, l2].
  - intros [H|(x & l' & -> & Hx & H)]; [exists [], l; split; [done|]; split; [by left|done]|exists [x], l'; split; [done|]; split; [right; by exists x|done]].
Qed.
Lemma next_one P C l : next (one P) C l ↔ ∃ x l', l = x :: l' ∧ P x ∧ C l'.
Proof.
  split; [intros (l1 & l2 & -> & (x & -> & Hx) & H2); by exists x, l2|]. intros (x & l' & -> & Hx & H). exists [x], l'. split; [done|]. split; [by exists x|done].
Qed.
Lemma element_tag F `{!Num F} tag req opt C e : element F tag req opt C e → xtag e = Some tag.
Proof. destruct e. by intros [-> _]. Qed.
Lemma any_map {A} (f : A → xml) P l : any P (map f l) ↔ ∀ x, x ∈ l → P (f x).
Proof.
  unfold any. split.
  - intros H x Hx. apply H. by apply elem_of_list_fmap_1.
  - intros H y (x & -> & Hx)%elem_of_list_fmap. by apply H.
Qed.
(** two lists of elements that differ in their tags are told apart *)
Lemma split_tags (t1 t2 : option string) (a b c d : list xml) : t1 ≠ t2 →
  (∀ x, x ∈ a → xtag x = t1) → (∀ x, x ∈ b → xtag x = t2) → (∀ x, x ∈ c → xtag x = t1) → (∀ x, x ∈ d → xtag x = t2) →
  a ++ b = c ++ d → a = c ∧ b = d.
Proof.
  intros Ht. revert c. induction a as [|x a IH]; intros [|y c] Ha Hb Hc Hd E; simpl in E.
  - done.
  - exfalso. apply Ht. rewrite -(Hc y (elem_of_list_here _ _)). apply Hb. rewrite E. apply elem_of_list_here.
  - exfalso. apply Ht. rewrite -(Ha x (elem_of_list_here _ _)). apply Hd. rewrite -E. apply elem_of_list_here.
  - injection E as -> E. destruct (IH c) as [-> ->]; try done; intros z Hz; [apply Ha|apply Hc]; by apply elem_of_list_further.
Qed.

Section Attributes.
  Context {F : Type} `{!Num F}.
  Lemma kind_at req opt (a : dict string) k v t : attributes F req opt a → NoDup (map fst (req ++ opt)) → (k, t) ∈ req ++ opt → (k, v) ∈ a → of_kind F t v.
  Proof.
    intros (_ & _ & H) N Ht Hv. destruct (H k v Hv) as (t' & Ht' & K). assert (t' = t) as ->; [|done]. clear -N Ht Ht'.
    induction (req ++ opt) as [|[k' u] l IH]; [by apply elem_of_nil in Ht|]. simpl in N. apply NoDup_cons in N as [N1 N2].
    apply elem_of_cons in Ht as [E|Ht]; apply elem_of_cons in Ht' as [E'|Ht']; [congruence| | |auto].
    - injection E as -> ->. exfalso. apply N1. apply (elem_of_list_fmap_1 fst _ _ Ht').
    - injection E' as -> ->. exfalso. apply N1. apply (elem_of_list_fmap_1 fst _ _ Ht).
  Qed.
  Lemma known_key req opt (a : dict string) k v : attributes F req opt a → (k, v) ∈ a → k ∈ map fst (req ++ opt).
  Proof. intros (_ & _ & H) Hv. destruct (H k v Hv) as (t & Ht & _). apply (elem_of_list_fmap_1 fst _ _ Ht). Qed.
  Lemma not_number (H : ∀ x : F, fstr x ≠ "None") : ¬ of_kind F number "None".
  Proof. intros [?|[x Hx]]; [done|by apply (H x)]. Qed.
  Lemma dict_set_in {V} (d : dict V) k v k' v' : (k', v') ∈ dict_set d k v → (k', v') = (k, v) ∨ (k', v') ∈ d.
  Proof.
    induction d as [|[k0 v0] d IH]; simpl; [rewrite elem_of_list_singleton; auto|].
    destruct (String.eqb_spec k k0) as [->|]; rewrite !elem_of_cons; naive_solver.
  Qed.
  (** attributes that were read *)
  Lemma dict_get_in {V} (d : dict V) k v : dict_get d k = Some v → (k, v) ∈ d.
  Proof. induction d as [|[k0 v0] d IH]; simpl; [done|]. destruct (String.eqb_spec k k0) as [->|]; [intros [= ->]; apply elem_of_list_here|intros H; apply elem_of_list_further; auto]. Qed.
  Lemma in_dict_get {V} (d : dict V) k v : NoDup (map fst d) → (k, v) ∈ d → dict_get d k = Some v.
  Proof.
    induction d as [|[k0 v0] d IH]; simpl; [intros _ H; by apply elem_of_nil in H|]. intros [N1 N2]%NoDup_cons H. apply elem_of_cons in H as [[= -> ->]|H]; [by rewrite String.eqb_refl|].
    destruct (String.eqb_spec k k0) as [->|]; [|auto]. exfalso. apply N1. apply (elem_of_list_fmap_1 fst _ _ H).
  Qed.
  Lemma read_attrs_in ks e vs k v : read_attrs ks e = Some vs → ((k, v) ∈ xattrs e ↔ (k, Some v) ∈ zip ks vs).
  Proof.
    unfold read_attrs. case_bool_decide as E; [|done]. destruct E as [N K]. intros [= <-]. split.
    - intros H. rewrite -(in_dict_get _ _ _ N H). assert (Hk : k ∈ ks). { rewrite Forall_forall in K. apply K. apply (elem_of_list_fmap_1 fst _ _ H). }
      clear -Hk. induction ks as [|k' ks IH]; [by apply elem_of_nil in Hk|]. simpl. apply elem_of_cons in Hk as [->|Hk]; [apply elem_of_list_here|apply elem_of_list_further; auto].
    - clear K. induction ks as [|k' ks IH]; simpl; [intros H; by apply elem_of_nil in H|]. intros [[= -> H]|H]%elem_of_cons; [by apply dict_get_in|auto].
  Qed.
  Lemma attributes_read req opt ks e vs : read_attrs ks e = Some vs → (∀ k t, (k, t) ∈ req → ∃ v, (k, Some v) ∈ zip ks vs) →
    (∀ k v, (k, Some v) ∈ zip ks vs → ∃ t, (k, t) ∈ req ++ opt ∧ of_kind F t v) → attributes F req opt (xattrs e).
  Proof.
    intros R H1 H2. split; [|split].
    - unfold read_attrs in R. case_bool_decide as E; [|done]. apply E.
    - intros k t Hk. destruct (H1 k t Hk) as [v Hv]. exists v. by apply (read_attrs_in _ _ _ _ _ R).
    - intros k v Hv. apply H2. by apply (read_attrs_in _ _ _ _ _ R).
  Qed.
End Attributes.

Lemma elem_concat {A} (x : A) ll : x ∈ concat ll ↔ ∃ l, x ∈ l ∧ l ∈ ll.
Proof. rewrite elem_of_list_In in_concat. split; intros (l & H1 & H2); exists l; rewrite !elem_of_list_In in H1 H2 |- *; by split; rewrite ?elem_of_list_In. Qed.

(** ** The letters of countries *)
Lemma capital_upper c : capital (ascii_upper c) = letter c.
Proof. destruct c as [[] [] [] [] [] [] [] []]; vm_compute; reflexivity. Qed.
Lemma code_upper s : code capital (str_upper s) ↔ code letter s.
Proof. destruct s as [|a [|b [|c [|d s]]]]; simpl; rewrite ?capital_upper; done. Qed.

Ltac zips := split; [let H := fresh in intros ? ? H; repeat (apply elem_of_cons in H as [[= -> ->]|H]; [eexists; in_list|]); try (by apply elem_of_nil in H)
  |let H := fresh in intros ? ? H; simpl in H; repeat (apply elem_of_cons in H as [H|H]; [first [discriminate H|injection H as -> ->; eexists; split; [in_list|of_kind]]|]); try (by apply elem_of_nil in H)].
Section Parts.
  Context {F : Type} `{!Num F}.
  Implicit Types (h : heap F).
  Local Notation none_free := (∀ x : F, fstr x ≠ "None").

  Lemma header_valid name date : v_header F (header_element name date).
  Proof. split; [done|]. split; [|done]. attrs; [exists 1%Z|exists 5%Z]; vm_compute; reflexivity. Qed.

  (** *** links *)
  Lemma road_link_valid k tag : lk_type k = Some tag → tag ≠ "neighbor" → is_Some (lk_etype k) → v_road_link F tag (link_element k).
  Proof.
    intros Ht Hn [et He]. split; [done|]. split; [|done]. unfold link_attributes. rewrite He Ht.
    destruct (lk_contact k) as [c|]; [|destruct (lk_dir k) as [d|]; [rewrite bool_decide_false; [congruence|]|]]; simpl; attrs; destruct et; try destruct c; in_list.
  Qed.
  Lemma road_link_fits k tag : v_road_link F tag (link_element k) → lk_type k = Some tag ∧ is_Some (lk_etype k).
  Proof.
    intros (Ht & Ha & _). split; [done|]. destruct (lk_etype k) eqn:E; [by eexists|]. exfalso.
    assert (H : ("id", pystr (lk_id k)) ∈ link_attributes k) by (unfold link_attributes; rewrite E; apply elem_of_list_here).
    apply (known_key _ _ _ _ _ Ha) in H. revert H. apply (bool_decide_unpack (¬ _)). vm_compute. exact I.
  Qed.
  Lemma road_links_valid ks : road_links_fit ks ↔ v_road_links F (links_element ks).
  Proof.
    unfold road_links_fit, v_road_links, pre, suc. split.
    - intros [Hts Het]. split; [done|]. split; [attrs|]. rewrite next_optional.
      assert (Hs : ∀ k, k ∈ ks → lk_type k = Some "successor" → one (v_road_link F "successor") (map link_element [k])).
      { intros k Hk Ht. eexists. split; [done|]. by apply road_link_valid; auto. }
      assert (Hp : ∀ k, k ∈ ks → lk_type k = Some "predecessor" → v_road_link F "predecessor" (link_element k)).
      { intros k Hk Ht. by apply road_link_valid; auto. }
      rewrite !elem_of_cons in Hts. destruct Hts as [E|[E|[E|[E|E%elem_of_nil]]]]; [| | | |done].
      + destruct ks; [|done]. left. by left.
      + destruct ks as [|k [|??]]; try done. injection E as E. right. eexists _, []. split; [done|]. split; [apply Hp; [in_list|done]|by left].
      + destruct ks as [|k [|??]]; try done. injection E as E. left. right. apply Hs; [in_list|done].
      + destruct ks as [|k [|k' [|??]]]; try done. injection E as E E'. right. eexists _, _. split; [done|]. split; [apply Hp; [in_list|done]|right; apply Hs; [in_list|done]].
    - intros (_ & _ & C). cbv beta in C. rewrite next_optional in C. unfold optional, one in C.
      destruct C as [[E|(x & E & Hx)]|(x & l' & E & Hx & C)].
      + destruct ks; [|done]. split; [in_list|by intros k Hk%elem_of_nil].
      + destruct ks as [|k [|??]]; try done. injection E as <-. apply road_link_fits in Hx as [Ht He]. simpl. rewrite Ht. split; [in_list|]. by intros ? ->%elem_of_list_singleton.
      + destruct ks as [|k ks]; [done|]. injection E as <- <-. apply road_link_fits in Hx as [Ht He]. simpl. rewrite Ht. destruct C as [E|(y & E & Hy)].
        * destruct ks; [|done]. split; [in_list|]. by intros ? ->%elem_of_list_singleton.
        * destruct ks as [|k' [|??]]; try done. injection E as <-. apply road_link_fits in Hy as [Ht' He']. simpl. rewrite Ht'. split; [in_list|].
          intros ? [->| ->%elem_of_list_singleton]%elem_of_cons; done.
  Qed.
  (** the links that lanes get have nothing but an id *)
  Definition bare (k : link) : Prop := lk_etype k = None ∧ lk_contact k = None ∧ lk_dir k = None.
  Lemma lane_link_valid k tag : bare k → ((lk_type k = Some tag ∧ ∃ z : Z, pystr (lk_id k) = pretty z) ↔ v_lane_link F tag (link_element k)).
  Proof.
    intros (He & Hc & Hd). unfold v_lane_link, element, link_element, link_attributes. rewrite He Hc Hd. simpl. split.
    - intros (Ht & z & Hz). split; [done|]. split; [|done]. attrs. by exists z.
    - intros (Ht & Ha & _). split; [done|]. apply (kind_at _ _ _ "id" (pystr (lk_id k)) integer Ha); [nodup|in_list|in_list].
  Qed.
  Lemma lane_links_valid ks : (∀ k, k ∈ ks → bare k) → (lane_links_fit ks ↔ v_lane_links F (links_element ks)).
  Proof.
    intros B. unfold lane_links_fit, v_lane_links, pre, suc. split.
    - intros [(ps & ss & -> & Hp & Hs) Hz]. split; [done|]. split; [attrs|]. exists (map link_element ps), (map link_element ss). split; [apply map_app|].
      rewrite !any_map. split; intros k Hk; (apply lane_link_valid; [apply B; rewrite elem_of_app; auto|]); (split; [auto|apply Hz; rewrite elem_of_app; auto]).
    - intros (_ & _ & l1 & l2 & E & H1 & H2). apply map_eq_app in E as (ps & ss & -> & <- & <-). rewrite any_map in H1. rewrite any_map in H2.
      assert (K1 : ∀ k, k ∈ ps → lk_type k = Some "predecessor" ∧ ∃ z : Z, pystr (lk_id k) = pretty z).
      { intros k Hk. apply lane_link_valid; [apply B; rewrite elem_of_app; auto|auto]. }
      assert (K2 : ∀ k, k ∈ ss → lk_type k = Some "successor" ∧ ∃ z : Z, pystr (lk_id k) = pretty z).
      { intros k Hk. apply lane_link_valid; [apply B; rewrite elem_of_app; auto|auto]. }
      split; [exists ps, ss; split; [done|]; split; intros k Hk; [apply (K1 k Hk)|apply (K2 k Hk)]|].
      intros k [Hk|Hk]%elem_of_app; [apply (K1 k Hk)|apply (K2 k Hk)].
  Qed.

  (** *** geometries *)
  Lemma opt_number (x : option F) : is_Some x → of_kind F number (fstr_opt x).
  Proof. intros [y ->]. right. by eexists. Qed.
  Lemma number_opt (x : option F) : none_free → of_kind F number (fstr_opt x) → is_Some x.
  Proof. intros Hn H. destruct x; [by eexists|]. by apply not_number in H. Qed.
  Lemma shape_valid (g : geom F) : match g with GPoly _ _ _ _ _ _ _ _ range _ => range ∈ ["arcLength"; "normalized"] | _ => True end →
    either (v_shapes F) (geom_element g).
  Proof.
    intros Hp. destruct g; [exists (nth 0 (v_shapes F) (λ _, True))|exists (nth 1 (v_shapes F) (λ _, True))|exists (nth 2 (v_shapes F) (λ _, True))|exists (nth 3 (v_shapes F) (λ _, True))];
      (split; [simpl; in_list|]; split; [done|]; split; [attrs|done]). exact Hp.
  Qed.
  Lemma geometry_valid h p : geometry_fits h p → v_geometry F (pgeom_element h p).
  Proof.
    intros (Hs & Hl & Hp). split; [done|]. split; [attrs; by apply opt_number|]. eexists. split; [done|]. by apply shape_valid.
  Qed.
  Lemma geometry_fitting h p : none_free → v_geometry F (pgeom_element h p) → geometry_fits h p.
  Proof.
    intros Hn (_ & Ha & x & E & P & HP & Hx). injection E as <-. split; [|split].
    - apply number_opt; [done|]. apply (kind_at _ _ _ "s" _ _ Ha); [nodup|in_list|in_list].
    - apply number_opt; [done|]. apply (kind_at _ _ _ "length" _ _ Ha); [nodup|in_list|in_list].
    - destruct (h_geom h !!! pg_geom p); try exact I. unfold v_shapes in HP. rewrite !elem_of_cons in HP.
      destruct HP as [->|[->|[->|[->|HP]]]]; [by destruct Hx as [[=] _]|by destruct Hx as [[=] _]|by destruct Hx as [[=] _]| |by apply elem_of_nil in HP]. destruct Hx as (_ & Hx & _).
      apply (kind_at _ _ _ "pRange" prange (word ["arcLength"; "normalized"]) Hx); [nodup|in_list|in_list].
  Qed.
  Lemma planview_valid h pv : none_free → (pv_geoms (h_pv h !!! pv) ≠ [] ∧ (∀ p, p ∈ pv_geoms (h_pv h !!! pv) → geometry_fits h p) ↔ v_planView F (planview_element h pv)).
  Proof.
    intros Hn. unfold v_planView, planview_element, element, elem, some. rewrite any_map. split.
    - intros [H1 H2]. split; [done|]. split; [attrs|]. split; [by destruct (pv_geoms _)|]. intros p Hp. by apply geometry_valid, H2.
    - intros (_ & _ & H1 & H2). split; [by destruct (pv_geoms _)|]. intros p Hp. by apply geometry_fitting, H2.
  Qed.

  (** *** lanes *)
  Lemma line_valid (l : roadline F) : v_line F (roadline_element l).
  Proof. split; [done|]. split; [|done]. destruct (rl_rule l) as [r|]; simpl; attrs. destruct r; in_list. Qed.
  Lemma mark_valid (m : roadmark F) : mark_fits m → v_roadMark F (roadmark_element m).
  Proof.
    intros Hm. split; [done|]. split.
    - destruct (rm_width m), (rm_laneChange m) as [c|]; simpl; attrs;
        first [destruct (rm_type m); in_list|destruct (rm_weight m); in_list|destruct (rm_color m); in_list|destruct c; in_list].
    - destruct (rm_line m) as [l|] eqn:El; [|by left]. right. eexists. split; [done|]. split; [done|]. split.
      + attrs. apply opt_number, Hm. rewrite El. by eexists.
      + split; [done|]. intros x ->%elem_of_list_singleton. apply line_valid.
  Qed.
  Lemma mark_fitting (m : roadmark F) : none_free → v_roadMark F (roadmark_element m) → mark_fits m.
  Proof.
    intros Hn (_ & _ & C) [l El]. rewrite El in C. destruct C as [?|(x & E & Hx)]; [done|]. injection E as <-. destruct Hx as (_ & Ha & _).
    apply number_opt; [done|]. apply (kind_at _ _ _ "width" (fstr_opt (rm_width m)) number Ha); [nodup|in_list|in_list].
  Qed.
  Lemma lane_valid (o : lane F) e : (∀ k, k ∈ ln_links o → bare k) → lane_element o = Ok e → lane_fits o → v_lane F e.
  Proof.
    intros B. unfold lane_element. destruct (ln_id o) as [i|]; [|done]. intros [= <-] [Hk Hm]. split; [done|]. split.
    - attrs. destruct (ln_type o); in_list.
    - apply next_optional. right. eexists _, _. split; [done|]. split; [by apply lane_links_valid|].
      exists [elem "width" [("a", fstr (ln_a o)); ("b", fstr (ln_b o)); ("c", fstr (ln_c o)); ("d", fstr (ln_d o)); ("sOffset", fstr (ln_soffset o))] []], 
        (match ln_roadmark o with None => [] | Some m => [roadmark_element m] end).
      split; [done|]. split; [intros x ->%elem_of_list_singleton; split; [done|]; split; [attrs|done]|].
      destruct (ln_roadmark o) as [m|]; [|intros x Hx; by apply elem_of_nil in Hx]. intros x ->%elem_of_list_singleton. by apply mark_valid, Hm.
  Qed.
  Lemma lane_fitting (o : lane F) e : none_free → (∀ k, k ∈ ln_links o → bare k) → lane_element o = Ok e → v_lane F e → lane_fits o.
  Proof.
    intros Hn B. unfold lane_element. destruct (ln_id o) as [i|]; [|done]. intros [= <-] (_ & _ & C). cbv beta in C. rewrite next_optional in C. unfold next, any in C.
    destruct C as [(l1 & l2 & E & H1 & H3)|(x & l' & E & Hx & l1 & l2 & -> & H1 & H2)].
    - exfalso. destruct l1 as [|y l1].
      + destruct l2 as [|y l2]; [done|]. injection E as <- E. destruct (H3 _ (elem_of_list_here _ _)) as [[=] _].
      + injection E as <- E. destruct (H1 _ (elem_of_list_here _ _)) as [[=] _].
    - injection E as <- E. split; [by apply lane_links_valid|]. intros m Hm. rewrite Hm in E. apply mark_fitting; [done|]. apply H2.
      destruct l1 as [|y [|z l1]]; simpl in E.
      + exfalso. subst l2. destruct (H2 _ (elem_of_list_here _ _)) as [[=] _].
      + injection E as <- <-. apply elem_of_list_here.
      + exfalso. injection E as <- <- E. destruct (H1 _ (elem_of_list_further _ _ _ (elem_of_list_here _ _))) as [[=] _].
  Qed.
  Definition bare_lanes h : Prop := ∀ l k, k ∈ ln_links (h_lane h !!! l) → bare k.
  Lemma side_valid h tag (ls : list ref) es : bare_lanes h → ls ≠ [] → map_res (λ l, lane_element (h_lane h !!! l)) ls = Ok es →
    (∀ l, l ∈ ls → lane_fits (h_lane h !!! l)) → v_side F tag (elem tag [] es).
  Proof.
    intros B Hne E H. apply map_res_ok in E. split; [done|]. split; [attrs|]. split; [intros ->; by inversion E; subst|].
    intros e He. apply elem_of_list_lookup in He as [i Hi]. destruct (Forall2_lookup_r _ _ _ _ _ E Hi) as (l & Hl & Hle).
    eapply lane_valid; [|exact Hle|apply H; by apply elem_of_list_lookup_2 in Hl]. apply B.
  Qed.
  Lemma side_fitting h tag (ls : list ref) es : none_free → bare_lanes h → map_res (λ l, lane_element (h_lane h !!! l)) ls = Ok es →
    v_side F tag (elem tag [] es) → ∀ l, l ∈ ls → lane_fits (h_lane h !!! l).
  Proof.
    intros Hn B E (_ & _ & _ & H) l Hl. apply map_res_ok in E. apply elem_of_list_lookup in Hl as [i Hi]. destruct (Forall2_lookup_l _ _ _ _ _ E Hi) as (e & He & Hle).
    eapply lane_fitting; [done| |exact Hle|apply H; by apply elem_of_list_lookup_2 in He]. apply B.
  Qed.
  Definition side_of h (tag : string) (ls : list ref) : res (list xml) :=
    match ls with [] => Ok [] | _ => rbind (map_res (λ l, lane_element (h_lane h !!! l)) ls) (λ es, Ok [elem tag [] es]) end.
  Lemma section_form h sec : let o := h_sec h !!! sec in
    section_element h sec = rbind (side_of h "left" (ls_left o)) (λ l, rbind (lane_element (h_lane h !!! ls_center o)) (λ c, rbind (side_of h "right" (ls_right o)) (λ r,
      Ok (elem "laneSection" [("s", fstr (ls_s o))] (l ++ [elem "center" [] [c]] ++ r))))).
  Proof. reflexivity. Qed.
  Lemma section_valid h sec e : none_free → bare_lanes h → section_element h sec = Ok e → ((∀ l, l ∈ section_lanes h sec → lane_fits (h_lane h !!! l)) ↔ v_laneSection F e).
  Proof.
    intros Hn B. rewrite section_form. unfold section_lanes. set (o := h_sec h !!! sec). set (side := side_of h).
    assert (S1 : ∀ tag ls l, side tag ls = Ok l → (ls = [] ∧ l = []) ∨ ∃ es, ls ≠ [] ∧ map_res (λ l, lane_element (h_lane h !!! l)) ls = Ok es ∧ l = [elem tag [] es]).
    { intros tag ls l. unfold side, side_of. destruct ls as [|a ls]; [intros [= <-]; by left|]. destruct (map_res _ (a :: ls)) as [es|] eqn:E; [|done]. simpl. intros [= <-]. right. by exists es. }
    destruct (side "left" (ls_left o)) as [l|] eqn:El; [|done]. simpl.
    destruct (lane_element (h_lane h !!! ls_center o)) as [c|] eqn:Ec; [|done]. simpl.
    destruct (side "right" (ls_right o)) as [r|] eqn:Er; [|done]. simpl. intros [= <-].
    assert (Hc : lane_fits (h_lane h !!! ls_center o) ↔ element F "center" [] [] (one (v_lane F)) (elem "center" [] [c])).
    { split.
      - intros Hf. split; [done|]. split; [attrs|]. exists c. split; [done|]. eapply lane_valid; [apply B|exact Ec|done].
      - intros (_ & _ & x & E & Hx). injection E as <-. eapply lane_fitting; [done|apply B|exact Ec|done]. }
    assert (Hside : ∀ tag ls l, side tag ls = Ok l → ((∀ x, x ∈ ls → lane_fits (h_lane h !!! x)) ↔ optional (v_side F tag) l)).
    { intros tag ls l' E. destruct (S1 _ _ _ E) as [[-> ->]|(es & Hne & Ees & ->)].
      - split; [by left|]. intros _ x Hx. by apply elem_of_nil in Hx.
      - split; [intros H; right; eexists; split; [done|]; by eapply side_valid|].
        intros [?|(x & Ex & Hx)]; [done|]. injection Ex as <-. by eapply side_fitting. }
    pose proof (Hside _ _ _ El) as Hl. pose proof (Hside _ _ _ Er) as Hr.
    transitivity ((∀ x, x ∈ ls_left o → lane_fits (h_lane h !!! x)) ∧ lane_fits (h_lane h !!! ls_center o) ∧ (∀ x, x ∈ ls_right o → lane_fits (h_lane h !!! x))).
    { split.
      - intros H. split; [|split]; intros; apply H; rewrite elem_of_app elem_of_cons; auto.
      - intros (H1 & H2 & H3) x. rewrite elem_of_app elem_of_cons. intros [?|[->|?]]; auto. }
    rewrite Hl Hc Hr. split.
    - intros (H1 & H2 & H3). split; [done|]. split; [attrs|]. exists l, (elem "center" [] [c] :: r). split; [done|]. split; [done|]. apply next_one. by eexists _, _.
    - intros (_ & _ & l1 & l2 & E & H1 & H2). rewrite next_one in H2. destruct H2 as (x & l' & -> & Hx & H').
      assert (l = l1 ∧ elem "center" [] [c] = x ∧ r = l') as (-> & -> & ->); [|done].
      destruct (S1 _ _ _ El) as [[_ ->]|(es & _ & _ & ->)], H1 as [->|(y & -> & Hy)]; simpl in E.
      + by injection E as <- <-.
      + exfalso. injection E as <- E. destruct Hy as [[=] _].
      + exfalso. injection E as <- E. destruct Hx as [[=] _].
      + by injection E as <- <- <-.
  Qed.
  Lemma lanes_valid h ls e : none_free → bare_lanes h → lanes_element h ls = Ok e →
    (h_lanes h !!! ls ≠ [] ∧ (∀ sec l, sec ∈ h_lanes h !!! ls → l ∈ section_lanes h sec → lane_fits (h_lane h !!! l)) ↔ v_lanes F e).
  Proof.
    intros Hn B. unfold lanes_element. destruct (map_res _ _) as [es|] eqn:E; [|done]. simpl. intros [= <-]. apply map_res_ok in E.
    unfold v_lanes, element, elem, some, any. split.
    - intros [H1 H2]. split; [done|]. split; [attrs|]. split; [intros ->; by inversion E; subst|]. intros e He.
      apply elem_of_list_lookup in He as [i Hi]. destruct (Forall2_lookup_r _ _ _ _ _ E Hi) as (sec & Hs & Hse). apply (section_valid h sec e Hn B Hse).
      intros l. apply H2. by apply elem_of_list_lookup_2 in Hs.
    - intros (_ & _ & H1 & H2). split; [intros E'; rewrite E' in E; by inversion E; subst|]. intros sec l Hs Hl.
      apply elem_of_list_lookup in Hs as [i Hi]. destruct (Forall2_lookup_l _ _ _ _ _ E Hi) as (e & He & Hse).
      apply (section_valid h sec e Hn B Hse); [|done]. apply H2. by apply elem_of_list_lookup_2 in He.
  Qed.

  (** *** signals and objects *)
  Ltac unS H := first [injection H as ->|subst].
  Lemma signal_attrs (o : sobj F) : so_class o = CSignal → read_attrs signal_keys (sobj_element o) = Some (signal_content o).
  Proof. intros Hc. pose proof (signal_read o Hc) as H. unfold read_signal, leaf in H. unfold sobj_element in H. rewrite Hc in H. simpl in H. unfold sobj_element. by rewrite Hc. Qed.
  Lemma signal_kinds (o : sobj F) k v : code letter (so_country o) → (is_Some (so_value o) → ∃ u, so_unit o = Some u ∧ u ∈ units) →
    (k, Some v) ∈ zip signal_keys (signal_content o) → ∃ t, (k, t) ∈ [("s", number); ("t", number); ("id", text); ("dynamic", word ["yes"; "no"]); ("orientation", word ["+"; "-"; "none"]);
      ("zOffset", number); ("type", text); ("subtype", text)] ++
    [("name", text); ("country", country); ("countryRevision", text); ("value", number); ("unit", word units); ("height", number); ("width", number); ("text", text);
     ("hOffset", number); ("pitch", number); ("roll", number)] ∧ of_kind F t v.
  Proof.
    intros Hc Hu H. simpl in H.
    repeat (apply elem_of_cons in H as [H|H]; [injection H as -> H|]); [..|by apply elem_of_nil in H].
    all: try (eexists; split; [in_list|]; simpl; first [exact I|unS H; right; by eexists
      |destruct (fiszero _); [discriminate H|unS H; right; by eexists]
      |destruct (so_width o); [unS H; right; by eexists|discriminate H]|destruct (so_height o); [unS H; right; by eexists|discriminate H]
      |destruct (so_value o); [unS H; right; by eexists|discriminate H]
      |unS H; destruct (so_dynamic o); in_list|unS H; destruct (so_orientation o); in_list
      |unS H; rewrite -upper_capitals; by apply code_upper]).
    eexists; split; [in_list|]. simpl. destruct (so_value o); [|done]. destruct Hu as (u & Eu & Hu); [by eexists|]. rewrite Eu in H. by injection H as ->.
  Qed.
  Lemma signal_valid (o : sobj F) : signal_fits o → v_signal F (sobj_element o).
  Proof.
    intros (Hc & Hl & Hu). pose proof (signal_attrs o Hc) as R. unfold v_signal, element. destruct (sobj_element o) as [t a cs] eqn:E.
    assert (t = Some "signal" ∧ cs = []) as [-> ->]. { unfold sobj_element in E. rewrite Hc in E. by injection E as <- _ <-. }
    split; [done|]. split; [|done]. change a with (xattrs (Elem (Some "signal") a [])). eapply attributes_read; [exact R| |].
    - intros k t H. repeat (apply elem_of_cons in H as [[= -> ->]|H]; [eexists; simpl; in_list|]). by apply elem_of_nil in H.
    - intros k v. by apply signal_kinds.
  Qed.
  Lemma signal_fitting (o : sobj F) : v_signal F (sobj_element o) → signal_fits o.
  Proof.
    unfold v_signal, element. destruct (sobj_element o) as [t a cs] eqn:E. intros (Ht & Ha & _).
    assert (Hc : so_class o = CSignal). { unfold sobj_element in E. destruct (so_class o); [done|]. subst t. done. }
    pose proof (signal_attrs o Hc) as R. rewrite E in R. split; [done|].
    assert (K : ∀ k v t, (k, Some v) ∈ zip signal_keys (signal_content o) → (k, t) ∈ [("country", country); ("unit", word units)] → of_kind F t v).
    { intros k v t' H1 H2. apply (read_attrs_in _ _ _ _ _ R) in H1. apply (kind_at _ _ _ k v t' Ha); [nodup| |done].
      rewrite !elem_of_cons in H2. destruct H2 as [[= -> ->]|[[= -> ->]|H2]]; [in_list|in_list|by apply elem_of_nil in H2]. }
    split.
    - apply code_upper. rewrite upper_capitals. apply (K "country" _ country); [simpl; in_list|in_list].
    - intros [v Hv]. assert (Hu : of_kind F (word units) (default "None" (so_unit o))).
      { apply (K "unit"); [|in_list]. simpl. rewrite Hv. simpl. destruct (so_unit o); simpl; in_list. }
      destruct (so_unit o) as [u|]; [by exists u|]. exfalso. revert Hu. simpl. apply (bool_decide_unpack (¬ _)). vm_compute. exact I.
  Qed.
  Definition repeats_numbers (o : sobj F) : Prop := ∀ d k v, d ∈ so_repeats o → (k, v) ∈ d → (∃ x : F, v = fstr x) ∨ (k ∈ ["heightStart"; "heightEnd"] ∧ v = "None").
  Lemma repeat_valid (d : dict string) vs rest : length vs = 9 → sublist (map fst rest) optional_keys → d = zip repeat_keys vs ++ rest →
    (∀ k v, (k, v) ∈ d → (∃ x : F, v = fstr x) ∨ (k ∈ ["heightStart"; "heightEnd"] ∧ v = "None")) →
    dict_get d "heightStart" ≠ Some "None" → dict_get d "heightEnd" ≠ Some "None" → v_repeat F (elem "repeat" d []).
  Proof.
    intros Hl Hs Ed Hv H1 H2. assert (Ek : map fst d = repeat_keys ++ map fst rest).
    { rewrite Ed map_app. f_equal. apply (fst_zip repeat_keys vs). rewrite Hl. simpl. lia. }
    assert (Nd : NoDup (map fst d)). { rewrite Ek. apply (sublist_nodup _ (repeat_keys ++ optional_keys)); [by apply sublist_app|]. nodup. }
    split; [done|]. split; [|done]. split; [done|]. split.
    - intros k t Hk. assert (Hk' : k ∈ map fst d).
      { rewrite Ek elem_of_app. left. repeat (apply elem_of_cons in Hk as [[= -> ->]|Hk]; [unfold repeat_keys; in_list|]). by apply elem_of_nil in Hk. }
      apply elem_of_list_fmap in Hk' as ([k' v] & -> & Hin). by exists v.
    - intros k v Hin. assert (Hnum : of_kind F number v).
      { destruct (Hv k v Hin) as [[x ->]|[Hk ->]]; [right; by eexists|]. exfalso. apply (in_dict_get _ _ _ Nd) in Hin.
        rewrite !elem_of_cons in Hk. destruct Hk as [->|[->|Hk]]; [done|done|by apply elem_of_nil in Hk]. }
      assert (Hk : k ∈ repeat_keys ++ optional_keys).
      { assert (Hk : k ∈ map fst d) by apply (elem_of_list_fmap_1 fst _ _ Hin). rewrite Ek elem_of_app in Hk. rewrite elem_of_app. destruct Hk as [?|Hk]; [by left|right; by eapply sublist_in]. }
      exists number. split; [|done]. unfold repeat_keys, optional_keys in Hk. simpl in Hk. repeat (apply elem_of_cons in Hk as [->|Hk]; [in_list|]). by apply elem_of_nil in Hk.
  Qed.
  Lemma repeat_fitting (d : dict string) : none_free → v_repeat F (elem "repeat" d []) → dict_get d "heightStart" ≠ Some "None" ∧ dict_get d "heightEnd" ≠ Some "None".
  Proof.
    intros Hn (_ & Ha & _). split; intros H%dict_get_in; apply (not_number Hn); [apply (kind_at _ _ _ "heightStart" "None" number Ha)|apply (kind_at _ _ _ "heightEnd" "None" number Ha)];
      try done; first [nodup|in_list].
  Qed.
  Lemma object_attrs (o : sobj F) : so_class o = CObject → obj_wf o → read_attrs object_keys (sobj_element o) = Some (oc_attrs (object_content o)).
  Proof.
    intros Hc W. pose proof (object_read o Hc W) as H. unfold read_object in H. destruct (read_attrs object_keys (sobj_element o)) as [vs|] eqn:E; [|done]. simpl in H.
    destruct (each _ _ _) as [rs|]; [|done]. simpl in H. apply (inj Some) in H. by apply (f_equal (Some ∘ oc_attrs)) in H.
  Qed.
  Lemma object_kinds (o : sobj F) k v : (∀ s, so_type o = inr s → s ∈ object_types) →
    (k, Some v) ∈ zip object_keys (oc_attrs (object_content o)) → ∃ t, (k, t) ∈ [("id", text); ("s", number); ("t", number); ("zOffset", number)] ++
    [("type", word object_types); ("subtype", text); ("dynamic", word ["yes"; "no"]); ("name", text); ("validLength", number); ("orientation", word ["+"; "-"; "none"]);
     ("hdg", number); ("pitch", number); ("roll", number); ("height", number); ("length", number); ("width", number); ("radius", number)] ∧ of_kind F t v.
  Proof.
    intros Hty H. simpl in H.
    repeat (apply elem_of_cons in H as [H|H]; [injection H as -> H|]); [..|by apply elem_of_nil in H].
    all: eexists; split; [in_list|]; simpl; first [exact I|unS H; right; by eexists
      |destruct (fiszero _); [discriminate H|unS H; right; by eexists]
      |destruct (so_width o); [unS H; right; by eexists|discriminate H]|destruct (so_height o); [unS H; right; by eexists|discriminate H]
      |destruct (so_validLength o); [unS H; right; by eexists|discriminate H]
      |destruct (so_radius o); [unS H; right; by eexists|discriminate H]
      |destruct (so_radius o); [discriminate H|]; destruct (so_length o); [unS H; right; by eexists|discriminate H]
      |unS H; destruct (so_dynamic o); in_list|unS H; destruct (so_orientation o); in_list
      |unS H; destruct (so_type o) as [t|s]; [destruct t; unfold object_types; in_list|by apply Hty]].
  Qed.
  Lemma object_valid (o : sobj F) : obj_wf o → object_fits o → v_object F (sobj_element o).
  Proof.
    intros W (Hc & Hty & Hrep). pose proof (object_attrs o Hc W) as R. unfold v_object, element. destruct (sobj_element o) as [t a cs] eqn:E.
    assert (t = Some "object" ∧ cs = map (λ d, elem "repeat" d []) (so_repeats o)) as [-> ->]. { unfold sobj_element in E. rewrite Hc in E. by injection E as <- _ <-. }
    split; [done|]. split.
    - change a with (xattrs (Elem (Some "object") a (map (λ d, elem "repeat" d []) (so_repeats o)))). eapply attributes_read; [exact R| |].
      + intros k t H. repeat (apply elem_of_cons in H as [[= -> ->]|H]; [eexists; simpl; in_list|]). by apply elem_of_nil in H.
      + intros k v. by apply object_kinds.
    - apply any_map. intros d Hd. destruct (ow_repeats o W d Hd) as (vs & rest & H1 & H2 & H3). destruct (Hrep d Hd) as [H4 H5].
      eapply repeat_valid; [exact H1|exact H2|exact H3| |done|done]. intros k v. by apply (ow_numbers o W d k v).
  Qed.
  Lemma object_fitting (o : sobj F) : none_free → obj_wf o → v_object F (sobj_element o) → object_fits o.
  Proof.
    intros Hn W. unfold v_object, element. destruct (sobj_element o) as [t a cs] eqn:E. intros (Ht & Ha & Hcs).
    assert (Hc : so_class o = CObject). { unfold sobj_element in E. destruct (so_class o); [subst t; done|done]. }
    pose proof (object_attrs o Hc W) as R. rewrite E in R. split; [done|]. split.
    - intros s Hs. assert (H1 : ("type", s) ∈ a). { change a with (xattrs (Elem t a cs)). apply (read_attrs_in _ _ _ _ _ R). simpl. rewrite Hs. in_list. }
      apply (kind_at _ _ _ "type" s (word object_types) Ha); [nodup|in_list|done].
    - assert (cs = map (λ d, elem "repeat" d []) (so_repeats o)) as ->. { unfold sobj_element in E. rewrite Hc in E. by injection E as _ _ <-. }
      rewrite any_map in Hcs. intros d Hd. by apply repeat_fitting, Hcs.
  Qed.

  (** *** roads *)
  Definition rest_of h (o : road) : list xml :=
    match rd_signals o with [] => [] | ss => [elem "signals" [] (map (λ s, sobj_element (h_obj h !!! s)) ss)] end ++
    match rd_objects o with [] => [] | ss => [elem "objects" [] (map (λ s, sobj_element (h_obj h !!! s)) ss)] end.
  Lemma road_form h r : let o := h_road h !!! r in
    road_element h r = rbind (lanes_element h (rd_lanes o)) (λ ls, Ok (elem "road" (road_attributes h o) (links_element (rd_links o) :: planview_element h (rd_planview o) :: ls :: rest_of h o))).
  Proof. reflexivity. Qed.
  Lemma road_valid h r e : none_free → bare_lanes h → (∀ x, obj_wf (h_obj h !!! x)) → road_element h r = Ok e → (road_fits h r ↔ v_road F e).
  Proof.
    intros Hn B W. rewrite road_form. set (o := h_road h !!! r). destruct (lanes_element h (rd_lanes o)) as [ls|] eqn:El; [|done]. simpl. intros [= <-].
    pose proof (lanes_valid h _ ls Hn B El) as HL. pose proof (planview_valid h (rd_planview o) Hn) as HP. pose proof (road_links_valid (rd_links o)) as HK.
    assert (HA : (∀ rule, rd_rule o = Some rule → rule ∈ [""; "RHT"; "LHT"]) ↔
      attributes F [("length", number); ("id", text); ("junction", text)] [("name", text); ("rule", word ["RHT"; "LHT"])] (road_attributes h o)).
    { unfold road_attributes. split.
      - intros H. destruct (rd_name o) as [[|c n]|], (rd_rule o) as [[|c' n']|] eqn:Er; simpl; attrs.
        all: specialize (H _ eq_refl); rewrite !elem_of_cons in H; rewrite !elem_of_cons; destruct H as [?|H]; [done|exact H].
      - intros H rule Er. destruct rule as [|c n]; [in_list|]. apply elem_of_list_further.
        apply (kind_at _ _ _ "rule" (String c n) (word ["RHT"; "LHT"]) H); [nodup|in_list|]. rewrite Er. rewrite !elem_of_app. right. left. simpl. in_list. }
    assert (HS : rd_signals o ≠ [] → ((∀ x, x ∈ rd_signals o → signal_fits (h_obj h !!! x)) ↔ v_signals F (elem "signals" [] (map (λ s, sobj_element (h_obj h !!! s)) (rd_signals o))))).
    { intros _. unfold v_signals, element, elem. rewrite any_map. split.
      - intros H. split; [done|]. split; [attrs|]. intros x Hx. by apply signal_valid, H.
      - intros (_ & _ & H) x Hx. by apply signal_fitting, H. }
    assert (HO : rd_objects o ≠ [] → ((∀ x, x ∈ rd_objects o → object_fits (h_obj h !!! x)) ↔ v_objects F (elem "objects" [] (map (λ s, sobj_element (h_obj h !!! s)) (rd_objects o))))).
    { intros _. unfold v_objects, element, elem. rewrite any_map. split.
      - intros H. split; [done|]. split; [attrs|]. intros x Hx. by apply object_valid, H.
      - intros (_ & _ & H) x Hx. by apply object_fitting, H. }
    assert (HLr : (sections h o ≠ [] ∧ ∀ l, l ∈ road_lanes h r → lane_fits (h_lane h !!! l)) ↔ v_lanes F ls).
    { rewrite -HL. unfold road_lanes, sections. fold o. split; intros [H1 H2]; (split; [done|]).
      - intros sec l Hs Hl. apply H2. apply elem_concat. exists (section_lanes h sec). split; [done|]. by apply elem_of_list_fmap_1.
      - intros l (x & Hl & Hx)%elem_concat. apply elem_of_list_fmap in Hx as (sec & -> & Hs). by eapply H2. }
    set (rest := rest_of h o).
    assert (HR : ((∀ x, x ∈ rd_signals o → signal_fits (h_obj h !!! x)) ∧ (∀ x, x ∈ rd_objects o → object_fits (h_obj h !!! x)) ∧ (rd_signals o = [] ∨ rd_objects o = [])) ↔
      next (optional (v_objects F)) (optional (v_signals F)) rest).
    { rewrite next_optional. unfold rest, rest_of. clear rest. destruct (rd_signals o) as [|s ss], (rd_objects o) as [|x xs].
      - split; [intros _; left; by left|]. intros _. split; [intros y Hy; by apply elem_of_nil in Hy|]. split; [intros y Hy; by apply elem_of_nil in Hy|by left].
      - split.
        + intros (_ & H & _). right. eexists _, []. split; [done|]. split; [by apply HO|by left].
        + intros H. split; [intros y Hy; by apply elem_of_nil in Hy|]. split; [|by left]. apply HO; [done|].
          destruct H as [[?|(y & Ey & Hy)]|(y & l' & Ey & Hy & _)]; [done| |]; [injection Ey as <-; destruct Hy as [[=] _]|by injection Ey as <- _].
      - split.
        + intros (H & _ & _). left. right. eexists. split; [done|]. by apply HS.
        + intros H. split; [|split; [intros y Hy; by apply elem_of_nil in Hy|by right]]. apply HS; [done|].
          destruct H as [[?|(y & Ey & Hy)]|(y & l' & Ey & Hy & _)]; [done| |]; [by injection Ey as <-|injection Ey as <- _; destruct Hy as [[=] _]].
      - split; [by intros (_ & _ & [?|?])|]. intros [[?|(y & Ey & Hy)]|(y & l' & Ey & Hy & _)]; [done|done|]. injection Ey as <- _. destruct Hy as [[=] _]. }
    clearbody rest. unfold road_fits. fold o. split.
    - intros (H1 & H2 & H3 & H4 & H5 & H6 & H7 & H8 & H9). split; [done|]. split; [by apply HA|]. apply next_optional. right. eexists _, _. split; [done|]. split; [by apply HK|].
      apply next_one. eexists _, _. split; [done|]. split; [by apply HP|]. apply next_one. eexists _, _. split; [done|]. split; [by apply HLr|]. by apply HR.
    - intros (_ & Ha & C). pose proof (proj2 HA Ha) as Ha'. cbv beta in C. rewrite next_optional in C. destruct C as [C|(x & l' & E & Hx & C)].
      + exfalso. rewrite next_one in C. destruct C as (x & l' & E & Hx & _). injection E as <- _. destruct Hx as [[=] _].
      + injection E as <- <-. apply (proj2 HK) in Hx. rewrite next_one in C. destruct C as (x & l' & E & Hp & C). injection E as <- <-. pose proof (proj2 HP Hp) as [H3 H4].
        rewrite next_one in C. destruct C as (x & l' & E & Hl & C). injection E as <- <-. pose proof (proj2 HLr Hl) as [H5 H6]. pose proof (proj2 HR C) as (H7 & H8 & H9). done.
  Qed.

  (** *** junctions, networks *)
  Lemma connection_valid c : v_connection F (connection_element c).
  Proof. split; [done|]. split; [attrs; destruct (cn_contact c); in_list|]. apply any_map. intros l _. split; [done|]. split; [attrs|done]. Qed.
  Lemma junction_valid h j : jn_conns (h_junc h !!! j) ≠ [] ↔ v_junction F (junction_element h j).
  Proof.
    unfold v_junction, element, junction_element, elem, some. rewrite any_map. split.
    - intros H. split; [done|]. split; [attrs|]. split; [by destruct (jn_conns _)|]. intros c _. apply connection_valid.
    - intros (_ & _ & H & _). by destruct (jn_conns _).
  Qed.
  Lemma road_element_tag h r e : road_element h r = Ok e → xtag e = Some "road".
  Proof. unfold road_element. destruct (lanes_element _ _); [|done]. simpl. by intros [= <-]. Qed.
  Lemma network_valid date h d e : none_free → bare_lanes h → (∀ x, obj_wf (h_obj h !!! x)) → odr_element date h d = Ok e → (network_fits h d ↔ v_OpenDRIVE F e).
  Proof.
    intros Hn B W. unfold odr_element, network_fits. set (o := h_odr h !!! d). destruct (map_res _ _) as [rs|] eqn:E; [|done]. simpl. intros [= <-]. apply map_res_ok in E.
    assert (HR : (od_roads o ≠ [] ∧ ∀ k r, (k, r) ∈ od_roads o → road_fits h r) ↔ some (v_road F) rs).
    { unfold some, any. split.
      - intros [H1 H2]. split; [intros ->; by inversion E; subst|]. intros e He. apply elem_of_list_lookup in He as [i Hi]. destruct (Forall2_lookup_r _ _ _ _ _ E Hi) as ([k r] & Hs & Hse).
        apply (road_valid h r e Hn B W Hse). apply (H2 k). by apply elem_of_list_lookup_2 in Hs.
      - intros [H1 H2]. split; [intros E'; rewrite E' in E; by inversion E; subst|]. intros k r Hs. apply elem_of_list_lookup in Hs as [i Hi]. destruct (Forall2_lookup_l _ _ _ _ _ E Hi) as (e & He & Hse).
        apply (road_valid h r e Hn B W Hse). apply H2. by apply elem_of_list_lookup_2 in He. }
    assert (HJ : (∀ j, j ∈ od_junctions o → jn_conns (h_junc h !!! j) ≠ []) ↔ any (v_junction F) (map (junction_element h) (od_junctions o))).
    { rewrite any_map. split; intros H j Hj; by apply junction_valid, H. }
    transitivity (some (v_road F) rs ∧ any (v_junction F) (map (junction_element h) (od_junctions o))).
    { rewrite -HR -HJ. tauto. }
    split.
    - intros [H1 H2]. split; [done|]. split; [attrs|]. apply next_one. eexists _, _. split; [done|]. split; [apply header_valid|]. by exists rs, (map (junction_element h) (od_junctions o)).
    - intros (_ & _ & C). cbv beta in C. rewrite next_one in C. destruct C as (x & l' & Ex & _ & l1 & l2 & -> & [H1 H2] & H3). injection Ex as _ Ex.
      apply (split_tags (Some "road") (Some "junction")) in Ex as [<- <-]; [done|done| | | |].
      + intros y Hy. apply elem_of_list_lookup in Hy as [i Hi]. destruct (Forall2_lookup_r _ _ _ _ _ E Hi) as (kr & _ & Hse). by apply road_element_tag in Hse.
      + intros y (j & -> & _)%elem_of_list_fmap. done.
      + intros y Hy. by apply H2, element_tag in Hy.
      + intros y Hy. by apply H3, element_tag in Hy.
  Qed.

  (** *** the links of lanes in reachable states *)
  Lemma reachable_bare h : reachable h → bare_lanes h.
  Proof.
    revert h. apply (reachable_ind (λ h, bare_lanes h)).
    - intros l k. rewrite lookup_total_alt lookup_empty. intros Hk. by apply elem_of_nil in Hk.
    - intros h h' N IH A. assert (K : h_lane h' = h_lane h → bare_lanes h') by (intros E; unfold bare_lanes; rewrite E; exact IH).
      assert (U : ∀ l f, (∀ k, k ∈ ln_links (f (h_lane h !!! l)) → bare k) → ∀ l' k, k ∈ ln_links (<[l := f (h_lane h !!! l)]> (h_lane h) !!! l') → bare k).
      { intros l f Hf l' k. destruct (decide (l = l')) as [<-|Hne]; [rewrite ltm_insert; apply Hf|rewrite ltm_insert_ne //; apply IH]. }
      assert (Lk : ∀ l ty id (h1 : heap F), bare_lanes h1 → bare_lanes (lane_add_link l ty id h1).2).
      { intros l ty id h1 H1. unfold lane_add_link, mk_link. destruct (_ && _); [done|]. intros l' k. simpl.
        destruct (decide (l = l')) as [<-|Hne]; [rewrite ltm_insert|rewrite ltm_insert_ne //; apply H1]. simpl. intros [Hk| ->%elem_of_list_singleton]%elem_of_app; [by eapply H1|done]. }
      destruct A; try (apply K; reflexivity).
      + intros l k. simpl. destruct (decide (h_next h = l)) as [<-|Hne]; [rewrite ltm_insert; intros Hk; by apply elem_of_nil in Hk|rewrite ltm_insert_ne //; apply IH].
      + by apply Lk.
      + intros l' k. simpl. apply (U l (λ x, x <| ln_roadmark := Some m |>)). apply IH.
      + intros l' k. simpl. destruct (decide (c = l')) as [<-|Hne]; [rewrite ltm_insert; simpl; apply IH|rewrite ltm_insert_ne //; apply IH].
      + intros l' k. simpl. destruct (decide (l = l')) as [<-|Hne]; [rewrite ltm_insert; simpl; apply IH|rewrite ltm_insert_ne //; apply IH].
      + intros l' k. simpl. destruct (decide (l = l')) as [<-|Hne]; [rewrite ltm_insert; simpl; apply IH|rewrite ltm_insert_ne //; apply IH].
      + unfold use_lanelink, get_linker. rewrite bind_gets. destruct (_ !! i) as [ll|]; [|exact IH]. destruct (ll_used ll); [exact IH|].
        unfold get_lane. rewrite bind_gets. unfold bind.
        pose proof (Lk (ll_pred ll) (Some "successor") (lane_id_str (ln_id (h_lane h !!! ll_succ ll))) h IH) as L1.
        destruct (lane_add_link (ll_pred ll) _ _ h) as [[[]|e1] h1]; [|exact L1]. simpl in L1 |- *.
        pose proof (Lk (ll_succ ll) (Some "predecessor") (lane_id_str (ln_id (h_lane h1 !!! ll_pred ll))) h1 L1) as L2.
        exact L2.
      + apply K. unfold add_successor, get_road; rewrite bind_gets; destruct (rd_succ _) eqn:Es; done.
      + apply K. unfold add_predecessor, get_road; rewrite bind_gets; destruct (rd_pred _) eqn:Es; done.
      + apply K. unfold add_neighbor, get_road. rewrite bind_gets. destruct (decide _); [done|]. unfold mk_link. by destruct dir as [dir|].
      + apply K. unfold add_object. destruct (update_ids_form os h) as (m & m' & E). unfold bind.
        destruct (for_each update_id os h) as [[[]|e] h1]; simpl in E; subst; done.
      + apply K. unfold add_signal. destruct (update_ids_form os h) as (m & m' & E). unfold bind.
        destruct (for_each update_id os h) as [[[]|e] h1]; simpl in E; subst; done.
  Qed.
End Parts.
