(** Linking lanes adds links that do not depend on the links that are there *)
From Coq Require Import ssreflect.
From Verif.Model Require Import Api.
From Verif.Spec Require Import SpecLinkOrder SpecLanes.
From Verif.Proof Require Import Monad DictFacts PlanViewFacts NetFrame Network Again Reach Steps History LinkerFacts LaneLinks LinkAll.
Local Open Scope general_if_scope.

Section Static.
  Context {F : Type} `{!Num F}.
  Implicit Types (h : heap F) (o : road).

  (** heaps that look the same to lane linking *)
  Record alike h h' : Prop := {
    ak_road : h_road h' = h_road h; ak_lanes : h_lanes h' = h_lanes h; ak_sec : h_sec h' = h_sec h; ak_odr : h_odr h' = h_odr h;
    ak_ids : same_ids (h_lane h) (h_lane h') }.
  Lemma alike_refl h : alike h h.
  Proof. split; done. Qed.
  Lemma alike_add h h' us : alike h h' → alike h (h' <| h_lane := add_links us (h_lane h') |>).
  Proof. intros [A B C D E]. split; [done..|]. intros l. simpl. rewrite add_links_id. apply E. Qed.

  Definition static {A} h (f : H (F:=F) A) (r : res A) (us : list (ref * link)) : Prop :=
    ∀ h', alike h h' → f h' = (r, h' <| h_lane := add_links us (h_lane h') |>).
  Definition Static {A} h (f : H (F:=F) A) : Prop := ∃ r us, static h f r us.

  Lemma st_pure {A} h (f : H (F:=F) A) r : (∀ h', alike h h' → f h' = (r, h')) → Static h f.
  Proof. intros E. exists r, []. intros h' Ha. rewrite (E h' Ha). by destruct h'. Qed.
  Lemma st_ret {A} h (a : A) : Static h (ret a).
  Proof. by apply (st_pure h _ (Ok a)). Qed.
  Lemma st_raise {A} h e : Static h (raise (A:=A) e).
  Proof. by apply (st_pure h _ (Err e)). Qed.
  Lemma st_lift {A} h (r : res A) : Static h (lift r).
  Proof. by apply (st_pure h _ r). Qed.
  Lemma st_or_raise {A} h e (x : option A) : Static h (or_raise e x).
  Proof. destruct x; [apply st_ret|apply st_raise]. Qed.
  Lemma st_bind {A B} h (f : H (F:=F) A) (g : A → H (F:=F) B) : Static h f → (∀ a, Static h (g a)) → Static h (bind f g).
  Proof.
    intros (r & us & Ef) Hg. destruct r as [a|e].
    - destruct (Hg a) as (r & vs & Eg). exists r, (us ++ vs). intros h' Ha. rewrite (bind_run _ _ _ _ _ (Ef h' Ha)).
      rewrite (Eg _ (alike_add _ _ _ Ha)). by rewrite add_links_app.
    - exists (Err e), us. intros h' Ha. unfold bind. by rewrite (Ef h' Ha).
  Qed.
  Lemma st_for_each {A} h (f : A → H (F:=F) unit) l : (∀ x, Static h (f x)) → Static h (for_each f l).
  Proof. intros Hf. induction l as [|x l IH]; [apply st_ret|]. apply st_bind; [apply Hf|by intros _]. Qed.
  Lemma st_get_road h r : Static h (get_road r).
  Proof. apply (st_pure h _ (Ok (h_road h !!! r))). intros h' Ha. unfold get_road, gets. by rewrite (ak_road _ _ Ha). Qed.
  Lemma st_get_lanes h r : Static h (get_lanes r).
  Proof. apply (st_pure h _ (Ok (h_lanes h !!! r))). intros h' Ha. unfold get_lanes, gets. by rewrite (ak_lanes _ _ Ha). Qed.
  Lemma st_get_sec h r : Static h (get_sec r).
  Proof. apply (st_pure h _ (Ok (h_sec h !!! r))). intros h' Ha. unfold get_sec, gets. by rewrite (ak_sec _ _ Ha). Qed.
  Lemma st_get_odr h r : Static h (get_odr r).
  Proof. apply (st_pure h _ (Ok (h_odr h !!! r))). intros h' Ha. unfold get_odr, gets. by rewrite (ak_odr _ _ Ha). Qed.
  Lemma st_index {A} h (l : list A) i : Static h (py_index_opt l i).
  Proof. unfold py_index_opt. repeat case_match; first [apply st_ret|apply st_raise|apply st_or_raise]. Qed.
  (** reading the number of a lane *)
  Lemma st_get_lane {B} h l (g : lane F → H (F:=F) B) : (∀ x x', ln_id x = ln_id x' → g x = g x') → (∀ x, Static h (g x)) → Static h (bind (get_lane l) g).
  Proof.
    intros Hi Hg. destruct (Hg (h_lane h !!! l)) as (r & us & E). exists r, us. intros h' Ha. unfold get_lane. rewrite bind_gets.
    rewrite (Hi (h_lane h' !!! l) (h_lane h !!! l)); [apply (ak_ids _ _ Ha)|]. by apply E.
  Qed.
  Lemma st_id_times h l s : Static h (lane_id_times l s).
  Proof.
    unfold lane_id_times. apply st_get_lane; [by intros x x' ->|].
    intros i. apply st_bind; [apply st_or_raise|intros ?]. apply st_bind; [apply st_or_raise|intros ?]. apply st_ret.
  Qed.
  Lemma st_add_link h l ty id : Static h (lane_add_link l ty id).
  Proof.
    unfold lane_add_link. destruct (mk_link ty (PStr id) None None None) as [k|e] eqn:E.
    - exists (Ok tt), [(l, k)]. intros h' Ha. rewrite bind_lift_ok. done.
    - exists (Err e), []. intros h' Ha. unfold bind, lift. by destruct h'.
  Qed.
  Lemma st_section h o i : Static h (road_section o i).
  Proof. unfold road_section. apply st_bind; [apply st_get_lanes|intros ?]. apply st_bind; [apply st_index|intros ?]. apply st_get_sec. Qed.

  Ltac st := repeat first
    [ apply st_ret | apply st_raise | apply st_lift | apply st_or_raise | apply st_get_road | apply st_get_odr | apply st_section | apply st_id_times | apply st_add_link
    | apply st_for_each; intros ?
    | match goal with |- Static _ (bind (get_lane ?l) _) => apply st_get_lane; [intros ?? ->; reflexivity|intros ?] end
    | apply st_bind; [|intros ?]
    | match goal with |- Static _ (match ?x with _ => _ end) => destruct x end
    | match goal with |- Static _ (if ?x then _ else _) => destruct x end ].
  Lemma st_connecting h r1 r2 : Static h (create_links_connecting_road r1 r2).
  Proof. unfold create_links_connecting_road. st. Qed.
  Lemma st_roads h r1 r2 : Static h (create_links_roads r1 r2).
  Proof. unfold create_links_roads. st. Qed.
  Lemma st_create h r1 r2 : Static h (create_lane_links r1 r2).
  Proof.
    unfold create_lane_links. apply st_bind; [apply st_get_road|intros o1]. apply st_bind; [apply st_get_road|intros o2].
    repeat match goal with |- Static _ (if ?x then _ else _) => destruct x end; first [apply st_connecting|apply st_roads|apply st_ret].
  Qed.

  (** ** One pair of roads: whether it raises, and what it adds to a lane *)
  Definition fails h (r1 r2 : ref) : bool := negb (is_ok (create_lane_links r1 r2 h).1).
  Definition gets_links h (r1 r2 : ref) (l : ref) : list link :=
    drop (length (ln_links (h_lane h !!! l))) (ln_links (h_lane (create_lane_links r1 r2 h).2 !!! l)).
  Lemma create_runs h h' r1 r2 : alike h h' → ∃ us, create_lane_links r1 r2 h' = ((create_lane_links r1 r2 h).1, h' <| h_lane := add_links us (h_lane h') |>) ∧
    ∀ l, links_for l us = gets_links h r1 r2 l.
  Proof.
    intros Ha. destruct (st_create h r1 r2) as (r & us & E). exists us. rewrite (E h (alike_refl h)) (E h' Ha). split; [done|]. intros l.
    unfold gets_links. rewrite (E h (alike_refl h)). cbn [snd]. change (h_lane (h <| h_lane := add_links us (h_lane h) |>)) with (add_links us (h_lane h)).
    rewrite add_links_at. cbn [ln_links set]. by rewrite drop_app.
  Qed.

  (** ** All pairs *)
  Definition pair_of h (d : ref) (kk : string * string) : option (ref * ref) :=
    match dict_get (od_roads (h_odr h !!! d)) kk.1, dict_get (od_roads (h_odr h !!! d)) kk.2 with Some r1, Some r2 => Some (r1, r2) | _, _ => None end.
  Definition pair_fails h d kk : bool := match pair_of h d kk with Some (r1, r2) => fails h r1 r2 | None => true end.
  Definition pair_links h d l kk : list link := match pair_of h d kk with Some (r1, r2) => gets_links h r1 r2 l | None => [] end.

  Definition link_pair h (d : ref) (kk : string * string) : H (F:=F) unit :=
    let! r1 := road_at (od_roads (h_odr h !!! d)) kk.1 in let! r2 := road_at (od_roads (h_odr h !!! d)) kk.2 in create_lane_links r1 r2.
  Lemma link_pair_runs h h' d kk : alike h h' → if pair_fails h d kk then is_ok (link_pair h d kk h').1 = false else
    ∃ us, link_pair h d kk h' = (Ok tt, h' <| h_lane := add_links us (h_lane h') |>) ∧ ∀ l, links_for l us = pair_links h d l kk.
  Proof.
    intros Ha. unfold pair_fails, pair_links, link_pair, pair_of, road_at.
    destruct (dict_get (od_roads (h_odr h !!! d)) kk.1) as [r1|]; [|done].
    destruct (dict_get (od_roads (h_odr h !!! d)) kk.2) as [r2|]; [|done]. cbn [or_raise]. rewrite !bind_ret.
    unfold fails. destruct (create_runs h h' r1 r2 Ha) as (us & E & Hus). rewrite E. cbn [fst].
    destruct (create_lane_links r1 r2 h).1 as [[]|e]; simpl; [|done]. by exists us.
  Qed.
  Lemma link_all_static h h' d : alike h h' → if existsb (pair_fails h d) (combinations2 (net_keys h d)) then is_ok (link_all d h').1 = false else
    ∃ us, link_all d h' = (Ok tt, h' <| h_lane := add_links us (h_lane h') |>) ∧
      ∀ l, links_for l us = concat (map (pair_links h d l) (combinations2 (net_keys h d))).
  Proof.
    intros Ha. unfold link_all, get_odr. rewrite bind_gets. rewrite (ak_odr _ _ Ha). change (dict_keys (od_roads (h_odr h !!! d))) with (net_keys h d).
    generalize (combinations2 (net_keys h d)) as kks. fold (link_pair h d). intros kks. revert h' Ha.
    induction kks as [|kk kks IH]; intros h' Ha; cbn [existsb map concat for_each].
    { exists []. split; [by destruct h'|done]. }
    fold (link_pair h d kk). pose proof (link_pair_runs h h' d kk Ha) as Hk. destruct (pair_fails h d kk); cbn [orb].
    - unfold bind. by destruct (link_pair h d kk h') as [[]].
    - destruct Hk as (us & E & Hus). rewrite (bind_run _ _ _ _ _ E). specialize (IH _ (alike_add _ _ us Ha)).
      destruct (existsb _ _); [done|]. destruct IH as (vs & E' & Hvs). exists (us ++ vs). rewrite E'. split; [by rewrite add_links_app|].
      intros l. by rewrite links_for_app Hus Hvs.
  Qed.

  (** ** The order within a pair *)
  Lemma consecutive_iff o o' : are_roads_consecutive o o' = true ↔ before o o'.
  Proof.
    unfold are_roads_consecutive, before. split.
    - destruct (rd_succ o) as [s|]; [|done]. destruct (rd_pred o') as [p|]; [|done]. rewrite !andb_true_iff !bool_decide_eq_true.
      intros [[[A B] C] D]. exists s, p. done.
    - intros (s & p & -> & -> & A & B & C & D). by rewrite !bool_decide_true.
  Qed.
  Lemma related_none o o' : ¬ names o o' → related_base o o' = (None, None, None).
  Proof.
    intros Hn. unfold related_base. assert (Hp : ∀ p, rd_pred o = Some p → lk_id p ≠ rd_id o') by (intros p E Hid; apply Hn; exists p; eauto).
    assert (Hs : ∀ p, rd_succ o = Some p → lk_id p ≠ rd_id o') by (intros p E Hid; apply Hn; exists p; eauto).
    destruct (rd_succ o) as [s|]; [rewrite bool_decide_false; [by apply Hs|]|]; (destruct (rd_pred o) as [p|]; [rewrite bool_decide_false; [by apply Hp|done]|done]).
  Qed.
  Lemma related_unnamed o o' : ¬ ordinary o' → ¬ names o o' → ¬ names o' o →
    get_related_lanesection o o' = if bool_decide (is_Some (rd_pred o')) && bool_decide (is_Some (rd_succ o')) then Ok (None, None, None) else Err AttributeError.
  Proof.
    intros Ht Hn Hn'. unfold get_related_lanesection. rewrite (related_none _ _ Hn). rewrite (bool_decide_false (rd_type o' = (-1)%Z)); [done|].
    destruct (rd_pred o') as [p|] eqn:Ep.
    - rewrite bool_decide_false; [intros Hid; apply Hn'; exists p; eauto|]. rewrite bool_decide_true; [by eexists|].
      destruct (rd_succ o') as [s|] eqn:Es.
      + rewrite bool_decide_false; [intros Hid; apply Hn'; exists s; eauto|]. rewrite bool_decide_true; [by eexists|]. done.
      + rewrite bool_decide_false; [by intros [? ?]|]. done.
    - rewrite bool_decide_false; [by intros [? ?]|]. done.
  Qed.
  Lemma create_sym h r1 r2 : plain_pair (h_road h !!! r1) (h_road h !!! r2) → create_lane_links r1 r2 h = create_lane_links r2 r1 h.
  Proof.
    unfold create_lane_links, get_road. rewrite !bind_gets. set (o1 := h_road h !!! r1). set (o2 := h_road h !!! r2). intros [Hc Ho].
    unfold ordinary in *. destruct (decide (rd_type o1 = (-1)%Z)) as [T1|T1], (decide (rd_type o2 = (-1)%Z)) as [T2|T2].
    - rewrite (bool_decide_true _ T1) (bool_decide_true _ T2). cbn [andb].
      destruct (are_roads_consecutive o1 o2) eqn:E1, (are_roads_consecutive o2 o1) eqn:E2; [|reflexivity..].
      exfalso. apply (Ho T1 T2). rewrite -!consecutive_iff. by split.
    - rewrite (bool_decide_true _ T1) (bool_decide_false _ T2). cbn [andb negb]. reflexivity.
    - rewrite (bool_decide_true _ T2) (bool_decide_false _ T1). cbn [andb negb]. reflexivity.
    - rewrite (bool_decide_false _ T1) (bool_decide_false _ T2). cbn [andb negb].
      destruct (Hc T1 T2) as [Hn1 Hn2]. unfold create_links_connecting_road, get_road. rewrite !bind_gets. fold o1 o2.
      rewrite (related_unnamed o1 o2 T2 Hn1 Hn2) (related_unnamed o2 o1 T1 Hn2 Hn1).
      destruct (bool_decide (is_Some (rd_pred o1)) && bool_decide (is_Some (rd_succ o1))), (bool_decide (is_Some (rd_pred o2)) && bool_decide (is_Some (rd_succ o2))); reflexivity.
  Qed.

  Definition sym_pairs h d : Prop := ∀ k k' r r', dict_get (od_roads (h_odr h !!! d)) k = Some r → dict_get (od_roads (h_odr h !!! d)) k' = Some r' → k ≠ k' →
    plain_pair (h_road h !!! r) (h_road h !!! r').
  Lemma pair_fails_sym h d k k' : sym_pairs h d → pair_fails h d (k, k') = pair_fails h d (k', k).
  Proof.
    intros Hp. destruct (decide (k = k')) as [->|Hne]; [done|]. unfold pair_fails, pair_of. simpl.
    destruct (dict_get _ k) as [r|] eqn:E, (dict_get _ k') as [r'|] eqn:E'; [|reflexivity..]. unfold fails. rewrite (create_sym h r r'); [exact (Hp k k' r r' E E' Hne)|]. reflexivity.
  Qed.
  Lemma pair_links_sym h d l k k' : sym_pairs h d → pair_links h d l (k, k') = pair_links h d l (k', k).
  Proof.
    intros Hp. destruct (decide (k = k')) as [->|Hne]; [done|]. unfold pair_links, pair_of. simpl.
    destruct (dict_get _ k) as [r|] eqn:E, (dict_get _ k') as [r'|] eqn:E'; [|reflexivity..]. unfold gets_links. rewrite (create_sym h r r'); [exact (Hp k k' r r' E E' Hne)|]. reflexivity.
  Qed.
  Lemma existsb_total {A} (f : A * A → bool) l : existsb f (combinations2 l) = bool_decide (concat (map (λ x, if f x then [tt] else []) (combinations2 l)) ≠ []).
  Proof. generalize (combinations2 l) as xs. induction xs as [|x xs IH]; [done|]. simpl. rewrite IH. by destruct (f x). Qed.
  Lemma existsb_perm h d l l' : sym_pairs h d → l ≡ₚ l' → existsb (pair_fails h d) (combinations2 l) = existsb (pair_fails h d) (combinations2 l').
  Proof.
    intros Hs Hp. rewrite !existsb_total. apply bool_decide_ext.
    pose proof (total_perm (λ x, if pair_fails h d x then [tt] else []) (λ x y, eq_ind_r (λ b, (if b : bool then [tt] else []) ≡ₚ _) (reflexivity _) (pair_fails_sym h d x y Hs)) l l' Hp) as HP.
    split; intros Hn Hz; apply Hn; [rewrite Hz in HP; by apply Permutation_nil_r in HP|rewrite Hz in HP; by apply Permutation_nil in HP].
  Qed.
End Static.
