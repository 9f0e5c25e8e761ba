(** Intersections of the generators flow forwards *)
From Coq Require Import ssreflect.
From Verif.Model Require Import Api.
From Verif.Spec Require Import SpecNetwork SpecLinkOrder SpecJunctionRoads SpecXml SpecSchemaOrder SpecFlow.
From Verif.Proof Require Import Monad DictFacts JunctionRoads.
Local Unset SsrOldRewriteGoalsOrder.
Local Open Scope general_if_scope.
Local Open Scope list_scope.

Lemma pairs_first n m : 1 ≤ m < n → pairs n !! (m - 1) = Some (0, m).
Proof.
  intros Hm. destruct n as [|n]; [lia|]. unfold pairs. cbn [seq map concat]. apply lookup_app_l_Some.
  rewrite list_lookup_fmap. rewrite (lookup_seq_lt 1 _ (m - 1)); [lia|]. simpl. do 2 f_equal. lia.
Qed.
Lemma pairs_later n k i m : pairs n !! k = Some (i, m) → 1 ≤ i → n - 1 ≤ k.
Proof.
  intros Hk Hi. destruct (decide (n - 1 ≤ k)) as [?|Hlt]; [done|exfalso].
  rewrite (_ : k = S k - 1) in Hk; [lia|]. rewrite pairs_first in Hk; [lia|]. injection Hk as <- _. lia.
Qed.

Lemma dict_get_nodup {V} (D : dict V) k v : NoDup (map fst D) → (k, v) ∈ D → dict_get D k = Some v.
Proof.
  induction D as [|[k' v'] D IH]; intros Hn Hk; [by apply elem_of_nil in Hk|]. simpl in *. apply NoDup_cons in Hn as [Hni Hn].
  apply elem_of_cons in Hk as [Hk|Hk].
  - injection Hk as -> ->. by rewrite String.eqb_refl.
  - destruct (String.eqb k k') eqn:E; [|by apply IH]. apply String.eqb_eq in E as ->. exfalso. apply Hni.
    apply (elem_of_list_fmap_1 fst) in Hk. exact Hk.
Qed.
Lemma dict_get_elem {V} (D : dict V) k v : dict_get D k = Some v → (k, v) ∈ D.
Proof.
  induction D as [|[k' v'] D IH]; [done|]. simpl. destruct (String.eqb k k') eqn:E.
  - apply String.eqb_eq in E as ->. intros [= ->]. left.
  - intros H. right. by apply IH.
Qed.

Section Crossing.
  Context {F : Type} `{!Num F}.
  Context (h : heap F) (d : ref) (roads js : list ref) (junction : Z).
  Local Notation R y := (h_road h !!! y).
  Context (order : list ref) (Dict : od_roads (h_odr h !!! d) = map (λ y, (road_key h y, y)) order).
  Context (Keys : NoDup (map (road_key h) order)) (Hjn : junction ≠ (-1)%Z).
  Context (Same : ∀ y, y ∈ order ↔ y ∈ roads ++ js) (HeadO : head order = roads !! 0).
  Context (ArmsIn : ∀ a b y y', a < b → roads !! a = Some y → roads !! b = Some y' → ∃ i j, i < j ∧ order !! i = Some y ∧ order !! j = Some y').
  Context (InnerIn : ∀ a b y y', a < b → js !! a = Some y → js !! b = Some y' → ∃ i j, i < j ∧ order !! i = Some y ∧ order !! j = Some y').
  Context (Arms : ∀ i y, roads !! i = Some y → rd_type (R y) = (-1)%Z ∧
    if bool_decide (i = 0) then rd_pred (R y) = None ∧ rd_succ (R y) = Some (junction_link "successor" junction)
    else rd_pred (R y) = Some (junction_link "predecessor" junction) ∧ rd_succ (R y) = None).
  Context (Ljs : length js = length (pairs (length roads))) (L2 : 2 ≤ length roads).
  Context (Joins : ∀ k z, js !! k = Some z → ∃ i m ri rm p s, pairs (length roads) !! k = Some (i, m) ∧ roads !! i = Some ri ∧ roads !! m = Some rm ∧
    rd_type (R z) = junction ∧ rd_pred (R z) = Some p ∧ rd_succ (R z) = Some s ∧ lk_id p = rd_id (R ri) ∧ lk_id s = rd_id (R rm) ∧
    lk_etype p = Some et_road ∧ lk_etype s = Some et_road ∧ lk_contact s = Some cp_start).
  Context (Fresh : ∀ y, y ∈ roads ++ js → pv_adjusted (view h (R y)) = false ∧ pv_geoms (view h (R y)) = [] ∧ pv_s (view h (R y)) = fofZ 0).
  Context (Apart : ∀ y y', y ∈ roads ++ js → y' ∈ roads ++ js → y ≠ y' → rd_planview (R y) ≠ rd_planview (R y')).
  Context (Moving : ∀ z, z ∈ js → pv_fixed (view h (R z)) = false).
  Context (First : ∀ y, roads !! 0 = Some y → pv_fixed (view h (R y)) = true ∨ ∀ y', y' ∈ roads → pv_fixed (view h (R y')) = false).

  Lemma keys_are : net_keys h d = map (road_key h) order.
  Proof. unfold net_keys. by rewrite Dict map_map. Qed.
  Lemma key_at i y : order !! i = Some y → net_keys h d !! i = Some (road_key h y).
  Proof. intros Hi. rewrite keys_are list_lookup_fmap Hi. done. Qed.
  Lemma named_are k o : road_named h d k = Some o ↔ ∃ y, y ∈ roads ++ js ∧ k = road_key h y ∧ o = R y.
  Proof.
    unfold road_named. split.
    - intros Hk. destruct (dict_get _ k) as [y|] eqn:E; [|done]. injection Hk as <-. apply dict_get_elem in E. rewrite Dict in E.
      apply elem_of_list_fmap in E as (y' & [= -> ->] & Hy). exists y'. split; [by apply Same|done].
    - intros (y & Hy & -> & ->). apply Same in Hy. rewrite (dict_get_nodup _ _ y); [| |done].
      + pose proof keys_are as E. unfold net_keys in E. by rewrite E.
      + rewrite Dict. by apply (elem_of_list_fmap_1 (λ y, (road_key h y, y))).
  Qed.
  Lemma place_inj i j y : order !! i = Some y → order !! j = Some y → i = j.
  Proof. intros Hi Hj. eapply (NoDup_lookup (map (road_key h) order)); [done|by rewrite list_lookup_fmap Hi|by rewrite list_lookup_fmap Hj]. Qed.
  Lemma key_inj y y' : y ∈ roads ++ js → y' ∈ roads ++ js → road_key h y = road_key h y' → y = y'.
  Proof.
    intros [i Hi]%Same%elem_of_list_lookup [j Hj]%Same%elem_of_list_lookup E. assert (i = j) as ->; [|congruence].
    eapply (NoDup_lookup (map (road_key h) order)); [done|by rewrite list_lookup_fmap Hi|by rewrite list_lookup_fmap Hj /= E].
  Qed.
  Lemma arm y : y ∈ roads → y ∈ roads ++ js. Proof. intros Hy. apply elem_of_app. by left. Qed.
  Lemma inner y : y ∈ js → y ∈ roads ++ js. Proof. intros Hy. apply elem_of_app. by right. Qed.
  Lemma arm_type y : y ∈ roads → rd_type (R y) = (-1)%Z.
  Proof. intros [i Hi]%elem_of_list_lookup. by apply (Arms i). Qed.
  Lemma inner_type y : y ∈ js → rd_type (R y) ≠ (-1)%Z.
  Proof. intros [i Hi]%elem_of_list_lookup. destruct (Joins i y Hi) as (a & m & ra & rm & p & s & _ & _ & _ & E & _). by rewrite E. Qed.
  Lemma two_kinds y : y ∈ roads → y ∈ js → False.
  Proof. intros H1 H2. by apply (inner_type y H2), arm_type. Qed.
  Lemma arm_link y L : y ∈ roads → rd_pred (R y) = Some L ∨ rd_succ (R y) = Some L → lk_etype L = Some et_junction.
  Proof. intros [i Hi]%elem_of_list_lookup HL. destruct (Arms i y Hi) as [_ H]. destruct (bool_decide (i = 0)); destruct H as [H1 H2]; rewrite H1 H2 in HL; destruct HL as [HL|HL]; try done; by injection HL as <-. Qed.
  Lemma inner_link y L : y ∈ js → rd_pred (R y) = Some L ∨ rd_succ (R y) = Some L → ∃ x, x ∈ roads ∧ lk_id L = rd_id (R x).
  Proof.
    intros [i Hi]%elem_of_list_lookup HL. destruct (Joins i y Hi) as (a & m & ra & rm & p & s & _ & Ha & Hm & _ & Hp & Hs & Ip & Is & _).
    rewrite Hp Hs in HL. destruct HL as [[= <-]|[= <-]]; [exists ra|exists rm]; (split; [by eapply elem_of_list_lookup_2|done]).
  Qed.

  Lemma crossing_fresh : fresh_network h d.
  Proof.
    split.
    - by rewrite keys_are.
    - intros k1 k2 o1 o2 (y & Hy & -> & ->)%named_are (y' & Hy' & -> & ->)%named_are E. destruct (decide (y = y')) as [->|Hne]; [done|]. by destruct (Apart y y' Hy Hy' Hne).
    - intros k o (y & Hy & -> & ->)%named_are. by apply Fresh.
  Qed.
  Lemma crossing_ordinary : connects_ordinary h d.
  Proof.
    intros c oc L o (y & Hy & -> & ->)%named_are Ht HL (x & Hx & Ek & ->)%named_are.
    apply elem_of_app in Hy as [Hy|Hy]; [by destruct Ht; apply arm_type|].
    destruct (inner_link y L Hy HL) as (x' & Hx' & E). rewrite E in Ek. assert (x' = x) as ->; [|by apply arm_type].
    apply key_inj; [by apply arm|done|exact Ek].
  Qed.

  Lemma first_root y : roads !! 0 = Some y → root h d (road_key h y).
  Proof.
    intros Hy. pose proof (elem_of_list_lookup_2 _ _ _ Hy) as Hin. destruct (First y Hy) as [Hf|Hno].
    - left. exists (R y). split; [|done]. apply named_are. exists y. split; [by apply arm|done].
    - right. split.
      + intros k (o & (x & Hx & -> & ->)%named_are & Hf). apply elem_of_app in Hx as [Hx|Hx]; [rewrite (Hno x Hx) in Hf|rewrite (Moving x Hx) in Hf]; done.
      + rewrite head_lookup. apply key_at. by rewrite -head_lookup HeadO.
  Qed.
  Lemma inner_no_root z : z ∈ js → ¬ root h d (road_key h z).
  Proof.
    intros Hz [(o & (x & Hx & Ek & ->)%named_are & Hf)|[_ Hh]].
    - assert (z = x) as <- by (apply key_inj; [by apply inner|done|done]). by rewrite (Moving z Hz) in Hf.
    - destruct (lookup_lt_is_Some_2 roads 0) as [y Hy]; [lia|]. rewrite head_lookup in Hh.
      rewrite (key_at 0 y) in Hh; [by rewrite -head_lookup HeadO|]. injection Hh as Hh.
      assert (y = z) as -> by (apply key_inj; [apply arm; by eapply elem_of_list_lookup_2|by apply inner|done]).
      apply (two_kinds z); [by eapply elem_of_list_lookup_2|done].
  Qed.
  Lemma named_at y : y ∈ roads ++ js → road_named h d (road_key h y) = Some (R y).
  Proof. intros Hy. apply named_are. by exists y. Qed.

  (** the first road is there before the others, and then the roads that the connecting roads from it lead to *)
  Lemma arm_in_time a y k m x n : pairs (length roads) !! k = Some (a, m) → roads !! a = Some y → js !! k = Some x → order !! n = Some x → in_time h d (road_key h y) n.
  Proof.
    intros Hk Hy Hx Hn. destruct a as [|a].
    { apply it_root; [by apply first_root|]. eexists. apply named_at, arm. by eapply elem_of_list_lookup_2. }
    pose proof (lookup_lt_Some _ _ _ Hy) as La. pose proof (pairs_later _ _ _ _ Hk ltac:(lia)) as Lk.
    assert (Hf : pairs (length roads) !! a = Some (0, S a)). { pose proof (pairs_first (length roads) (S a) ltac:(lia)) as H. by replace (S a - 1) with a in H by lia. }
    destruct (lookup_lt_is_Some_2 js a) as [z Hz]; [rewrite Ljs; by eapply lookup_lt_Some|].
    destruct (Joins a z Hz) as (i & m' & ri & rm & p & s & Hpair & Hi & Hm & Ty & Hp & Hs & Ip & Is & Ep & Es & _).
    rewrite Hf in Hpair. injection Hpair as <- <-. rewrite Hy in Hm. injection Hm as <-.
    assert (Zin : z ∈ js) by (by eapply elem_of_list_lookup_2).
    destruct (InnerIn a k z x ltac:(lia) Hz Hx) as (i0 & j0 & Hij & Hi0 & Hj0). pose proof (place_inj _ _ _ Hj0 Hn) as ->.
    eapply (it_other _ _ (road_key h z) n (R z) s).
    - eapply (it_own _ _ _ _ i0 (R z) p).
      + by apply key_at.
      + lia.
      + by apply named_at, inner.
      + done.
      + by rewrite Ep.
      + rewrite Ip. apply it_root; [by apply first_root|]. eexists. apply named_at, arm. by eapply elem_of_list_lookup_2.
    - by apply inner_no_root.
    - by apply named_at, inner.
    - by apply inner_type.
    - by right.
    - by rewrite Is.
  Qed.
  Lemma crossing_flows : flows_forward h d.
  Proof.
    split.
    - intros i k o S Hi Ho Hr HS Het. rewrite keys_are in Hi. apply list_lookup_fmap_Some in Hi as (y & Hi & ->).
      pose proof (proj1 (Same y) (elem_of_list_lookup_2 _ _ _ Hi)) as Hy. rewrite (named_at y Hy) in Ho. injection Ho as <-.
      apply elem_of_app in Hy as [Hy|Hy].
      { destruct Het. eapply arm_link; [done|by right]. }
      apply elem_of_list_lookup in Hy as [k Hk].
      destruct (Joins k y Hk) as (a & m & ra & rm & p & s & Hpair & Ha & Hm & Ty & Hp & Hs & Ip & Is & Ep & Es & _).
      right. exists p. split; [done|]. split; [by rewrite Ep|]. rewrite Ip. by eapply (arm_in_time a).
    - intros k o S Ho Hr Ht HS. apply named_are in Ho as (y & Hy & -> & ->). apply elem_of_app in Hy as [Hy|Hy]; [by destruct Ht; apply arm_type|].
      apply elem_of_list_lookup in Hy as [i Hi]. destruct (Joins i y Hi) as (a & m & ra & rm & p & s & _ & _ & _ & _ & _ & Hs & _ & _ & _ & _ & Hc). congruence.
  Qed.

  (** road number [m] is added after the connecting road from the first road to it *)
  Definition waits : Prop := ∀ m y x, 1 ≤ m → roads !! m = Some y → pv_fixed (view h (R y)) = false → js !! (m - 1) = Some x →
    ∃ a b, a < b ∧ order !! a = Some x ∧ order !! b = Some y.

  (** the connecting road from the first road to road [m] is there in time when it comes before place [n] *)
  Lemma arm_after_inner m y x a n : 1 ≤ m → roads !! m = Some y → js !! (m - 1) = Some x → order !! a = Some x → a < n → in_time h d (road_key h y) n.
  Proof.
    intros Hm Hy Hx Ha Hlt. pose proof (lookup_lt_Some _ _ _ Hy) as La.
    destruct (Joins (m - 1) x Hx) as (i & m' & ri & rm & p & s & Hpair & Hi & Hm' & Ty & Hp & Hs & Ip & Is & Ep & Es & _).
    rewrite pairs_first in Hpair; [lia|]. injection Hpair as <- <-. assert (rm = y) as -> by congruence.
    assert (Xin : x ∈ js) by (by eapply elem_of_list_lookup_2).
    eapply (it_other _ _ (road_key h x) n (R x) s).
    - eapply (it_own _ _ _ _ a (R x) p); [by apply key_at|done|by apply named_at, inner|done|by rewrite Ep|].
      rewrite Ip. apply it_root; [by apply first_root|]. eexists. apply named_at, arm. by eapply elem_of_list_lookup_2.
    - by apply inner_no_root.
    - by apply named_at, inner.
    - by apply inner_type.
    - by right.
    - by rewrite Is.
  Qed.
  Lemma arm_sooner y : y ∈ roads → ∀ n, length order ≤ n → in_time h d (road_key h y) n.
  Proof.
    intros [m Hm]%elem_of_list_lookup n Hn. destruct m as [|m].
    { apply it_root; [by apply first_root|]. eexists. apply named_at, arm. by eapply elem_of_list_lookup_2. }
    pose proof (lookup_lt_Some _ _ _ Hm) as La. pose proof (pairs_first (length roads) (S m) ltac:(lia)) as Hf.
    destruct (lookup_lt_is_Some_2 js (S m - 1)) as [x Hx]; [rewrite Ljs; by eapply lookup_lt_Some|].
    assert (Xo : x ∈ order) by (apply Same, inner; by eapply elem_of_list_lookup_2). apply elem_of_list_lookup in Xo as [a Ha].
    apply (arm_after_inner (S m) y x a n); [lia|done..|]. pose proof (lookup_lt_Some _ _ _ Ha). lia.
  Qed.

  Lemma crossing_sweep : (∀ z P, z ∈ js → rd_pred (R z) = Some P → lk_contact P ≠ None) → pretty junction ∈ net_keys h d ∨ waits → one_sweep h d.
  Proof.
    intros Contact Way. assert (Len : length (net_keys h d) = length order) by (by rewrite keys_are map_length). split.
    - intros k Hk. rewrite Len. rewrite keys_are in Hk. apply elem_of_list_fmap in Hk as (y & -> & Hy). pose proof (proj1 (Same y) Hy) as [Hin|Hin]%elem_of_app; [by apply arm_sooner|].
      apply elem_of_list_lookup in Hy as [n Hn]. apply elem_of_list_lookup in Hin as [k Hk]. pose proof (elem_of_list_lookup_2 _ _ _ Hk) as Hin.
      destruct (Joins k y Hk) as (a & m & ra & rm & p & s & Hpair & Ha & Hm & Ty & Hp & Hs & Ip & Is & Ep & Es & _).
      eapply (it_own _ _ _ _ n (R y) p); [by apply key_at|by eapply lookup_lt_Some|by apply named_at, inner|done|by rewrite Ep|]. rewrite Ip. by eapply (arm_in_time a).
    - intros i k o Hi Ho. rewrite keys_are in Hi. apply list_lookup_fmap_Some in Hi as (y & Hi & ->).
      pose proof (proj1 (Same y) (elem_of_list_lookup_2 _ _ _ Hi)) as Hy. rewrite (named_at y Hy) in Ho. injection Ho as <-. apply elem_of_app in Hy as [Hy|Hy].
      + pose proof Hy as Hin. apply elem_of_list_lookup in Hy as [m Hm]. destruct Way as [Hid|Hw].
        * right. right. intros L HL. pose proof (arm_link y L Hin HL) as Et. split; [|by left]. destruct (Arms m y Hm) as [_ A].
          assert (EL : pystr (lk_id L) = pretty junction).
          { destruct (bool_decide (m = 0)), A as [A1 A2], HL as [HL|HL]; rewrite ?A1 ?A2 in HL; try done; by injection HL as <-. }
          rewrite EL. rewrite keys_are in Hid. apply elem_of_list_fmap in Hid as (z & -> & Hz). eexists. apply named_at. by apply Same.
        * left. destruct m as [|m]; [apply it_root; [by apply first_root|eexists; by apply named_at, arm]|].
          destruct (pv_fixed (view h (R y))) eqn:Hf; [apply it_root; [left; exists (R y); split; [by apply named_at, arm|done]|eexists; by apply named_at, arm]|].
          pose proof (lookup_lt_Some _ _ _ Hm) as La. pose proof (pairs_first (length roads) (S m) ltac:(lia)) as Hp.
          destruct (lookup_lt_is_Some_2 js (S m - 1)) as [x Hx]; [rewrite Ljs; by eapply lookup_lt_Some|].
          destruct (Hw (S m) y x ltac:(lia) Hm Hf Hx) as (a & b & Hab & Ha & Hb). pose proof (place_inj _ _ _ Hb Hi) as ->. by apply (arm_after_inner (S m) y x a i); [lia|..].
      + right. left. pose proof Hy as Hin. apply elem_of_list_lookup in Hy as [k Hk].
        destruct (Joins k y Hk) as (a & m & ra & rm & p & s & Hpair & Ha & Hm & Ty & Hp & Hs & Ip & Is & Ep & Es & _).
        exists p. split; [done|]. split; [by rewrite Ep|]. split; [by apply (Contact y)|]. split; [rewrite Ip; by eapply (arm_in_time a)|].
        intros _ S HS. assert (S = s) as -> by congruence. rewrite Is. eexists. apply named_at, arm. by eapply elem_of_list_lookup_2.
  Qed.

  (** otherwise there is a road that has to be attached to the junction *)
  Lemma crossing_stuck m y x : 1 ≤ m → roads !! m = Some y → pv_fixed (view h (R y)) = false → js !! (m - 1) = Some x →
    (∀ a b, order !! a = Some x → order !! b = Some y → b ≤ a) →
    ∃ i, net_keys h d !! i = Some (road_key h y) ∧ ¬ root h d (road_key h y) ∧
      ∀ k, k ∈ take i (net_keys h d) → root h d k ∨ ¬ ∃ o L, road_named h d k = Some o ∧ rd_type o ≠ (-1)%Z ∧ (rd_pred o = Some L ∨ rd_succ o = Some L) ∧ pystr (lk_id L) = road_key h y.
  Proof.
    intros Hm Hy Hf Hx Hbefore. pose proof (lookup_lt_Some _ _ _ Hy) as La. pose proof (elem_of_list_lookup_2 _ _ _ Hy) as Yin.
    pose proof (proj2 (Same y) (arm y Yin)) as Yo. apply elem_of_list_lookup in Yo as [i Hi]. exists i. split; [by apply key_at|]. split.
    - intros [(o & Ho & Ho')|[_ Hh]].
      + rewrite (named_at y (arm y Yin)) in Ho. injection Ho as <-. congruence.
      + destruct (lookup_lt_is_Some_2 roads 0) as [y0 Hy0]; [lia|]. rewrite head_lookup (key_at 0 y0) in Hh; [by rewrite -head_lookup HeadO|]. injection Hh as Hh.
        assert (y0 = y) as -> by (apply key_inj; [apply arm; by eapply elem_of_list_lookup_2|by apply arm|done]).
        destruct (ArmsIn 0 m y y) as (a & b & Hab & Ha & Hb); [lia|done..|]. pose proof (place_inj _ _ _ Ha Hb). lia.
    - intros k Hk. right. intros (o & L & Ho & Ht & HL & EL). apply elem_of_list_lookup in Hk as [j Hj]. apply lookup_take_Some in Hj as [Hj Hji].
      rewrite keys_are in Hj. apply list_lookup_fmap_Some in Hj as (z & Hj & ->). pose proof (proj1 (Same z) (elem_of_list_lookup_2 _ _ _ Hj)) as Hz. rewrite (named_at z Hz) in Ho. injection Ho as <-.
      apply elem_of_app in Hz as [Hz|Hz]; [by apply Ht, arm_type|]. apply elem_of_list_lookup in Hz as [k Hk].
      destruct (Joins k z Hk) as (a & b & ra & rb & p & s & Hpair & Ha & Hb & Ty & Hp & Hs & Ip & Is & Ep & Es & _).
      assert (Place : ∀ r r' n n', roads !! n = Some r → roads !! n' = Some r' → r = r' → n = n').
      { intros r r' n n' Hr Hr' <-. destruct (decide (n = n')) as [?|Hne]; [done|]. exfalso.
        destruct (Nat.lt_total n n') as [Hl|[Hl|Hl]]; [|lia|].
        - destruct (ArmsIn n n' r r Hl Hr Hr') as (u & v & Huv & Hu & Hv). pose proof (place_inj _ _ _ Hu Hv). lia.
        - destruct (ArmsIn n' n r r Hl Hr' Hr) as (u & v & Huv & Hu & Hv). pose proof (place_inj _ _ _ Hu Hv). lia. }
      assert (Hab : a = m ∨ b = m).
      { destruct HL as [HL|HL].
        - assert (L = p) as -> by congruence. left. rewrite Ip in EL. apply (Place ra y a m Ha Hy). apply key_inj; [apply arm; by eapply elem_of_list_lookup_2|by apply arm|done].
        - assert (L = s) as -> by congruence. right. rewrite Is in EL. apply (Place rb y b m Hb Hy). apply key_inj; [apply arm; by eapply elem_of_list_lookup_2|by apply arm|done]. }
      assert (Hkm : m - 1 ≤ k).
      { destruct a as [|a].
        - assert (b = m) as -> by (destruct Hab; lia). pose proof (pairs_first (length roads) m ltac:(lia)) as Hf0. by rewrite (NoDup_lookup _ _ _ _ (NoDup_pairs _) Hf0 Hpair).
        - pose proof (pairs_later _ _ _ _ Hpair ltac:(lia)). lia. }
      destruct (decide (m - 1 = k)) as [Heq|Hne].
      + subst k. assert (z = x) as -> by congruence. specialize (Hbefore j i Hj Hi). lia.
      + destruct (InnerIn (m - 1) k x z ltac:(lia) Hx Hk) as (u & v & Huv & Hu & Hv). pose proof (place_inj _ _ _ Hv Hj) as ->. specialize (Hbefore u i Hu Hi). lia.
  Qed.

  Lemma crossing_plain : plain_pairs h d.
  Proof.
    intros k k' o o' (y & Hy & -> & ->)%named_are (y' & Hy' & -> & ->)%named_are Hne.
    assert (Hn : ∀ y y', y ∈ roads ++ js → y' ∈ roads ++ js → ¬ ordinary (R y) → ¬ ordinary (R y') → ¬ names (R y) (R y')).
    { clear y y' Hy Hy' Hne. intros y y' [Hy|Hy]%elem_of_app [Hy'|Hy']%elem_of_app N N' (L & HL & E); try (by apply N, arm_type); try (by apply N', arm_type).
      destruct (inner_link y L Hy HL) as (x & Hx & Ex). rewrite Ex in E. apply (two_kinds y'); [|done].
      assert (x = y') as <-; [|done]. apply key_inj; [by apply arm|by apply inner|]. unfold road_key. by rewrite E. }
    split.
    - intros N N'. split; by apply Hn.
    - intros O O' [(s & p & Hs & _ & Es & _) _]. apply elem_of_app in Hy as [Hy|Hy]; [|by destruct (inner_type y Hy)].
      rewrite (arm_link y s Hy (or_intror Hs)) in Es. done.
  Qed.
  Lemma crossing_first : predecessors_first h d.
  Proof.
    intros k kp ks o op os p s (y & Hy & -> & ->)%named_are (yp & Hyp & -> & ->)%named_are (ys & Hys & -> & ->)%named_are Hp Ip Hs Is.
    apply elem_of_app in Hy as [Hy|Hy]; apply elem_of_list_lookup in Hy as [i Hi].
    { destruct (Arms i y Hi) as [_ H]. destruct (bool_decide (i = 0)); destruct H as [H1 H2]; congruence. }
    destruct (Joins i y Hi) as (a & m & ra & rm & p' & s' & Hpair & Ha & Hm & Ty & Hp' & Hs' & Ip' & Is' & _).
    rewrite Hp in Hp'. injection Hp' as <-. rewrite Hs in Hs'. injection Hs' as <-.
    pose proof (elem_of_list_lookup_2 _ _ _ Hpair) as B. apply elem_of_pairs in B.
    assert (ra = yp) as ->. { apply key_inj; [apply arm; by eapply elem_of_list_lookup_2|done|]. unfold road_key. congruence. }
    assert (rm = ys) as ->. { apply key_inj; [apply arm; by eapply elem_of_list_lookup_2|done|]. unfold road_key. congruence. }
    destruct (ArmsIn a m yp ys) as (i0 & j0 & Hij & Hi0 & Hj0); [lia|done|done|].
    exists i0, j0. split; [done|]. split; by apply key_at.
  Qed.
End Crossing.
