(** What [Lanes.add_lanesection] does with its LaneLinkers *)
From Coq Require Import ssreflect.
From Verif.Model Require Import Api.
From Verif.Spec Require Import SpecChain SpecState SpecHistory.
From Verif.Proof Require Import Monad DictFacts PlanViewFacts NetFrame Reach Steps History.
Local Open Scope general_if_scope.

Section Linker.
  Context {F : Type} `{!Num F}.
  Implicit Types (h : heap F).

  Definition mark (ll : lanelink) : lanelink := ll <| ll_used := true |>.
  Definition unused (lls : list lanelink) : list lanelink := filter (λ ll, ll_used ll = false) lls.
  Definition given h (lls : list lanelink) h' : Prop :=
    ∀ l, h_lane h' !!! l = (h_lane h !!! l) <| ln_links := ln_links (h_lane h !!! l) ++ links_given h l lls |>.

  Lemma given_id h lls h' l : given h lls h' → ln_id (h_lane h' !!! l) = ln_id (h_lane h !!! l).
  Proof. intros G. by rewrite G. Qed.
  Lemma links_given_ids h h' l lls : (∀ l, ln_id (h_lane h' !!! l) = ln_id (h_lane h !!! l)) → links_given h' l lls = links_given h l lls.
  Proof. intros E. unfold links_given. f_equal. apply map_ext. intros ll. by rewrite !E. Qed.
  Lemma links_given_app h l a b : links_given h l (a ++ b) = links_given h l a ++ links_given h l b.
  Proof. unfold links_given. by rewrite map_app concat_app. Qed.
  Lemma given_nil h h' : h_lane h' = h_lane h → given h [] h'.
  Proof. intros E l. rewrite E. unfold links_given. simpl. rewrite app_nil_r. by destruct (h_lane h !!! l). Qed.
  Lemma given_trans h1 h2 h3 a b : given h1 a h2 → given h2 b h3 → given h1 (a ++ b) h3.
  Proof.
    intros G1 G2 l. rewrite G2 G1. simpl. rewrite (links_given_ids h1 h2); [intros l'; by apply (given_id _ a)|].
    by rewrite links_given_app app_assoc.
  Qed.

  Lemma lane_add_link_run l ty id h : ty ≠ Some "neighbor" →
    lane_add_link l ty id h = (Ok tt, h <| h_lane := <[l := (h_lane h !!! l) <| ln_links := ln_links (h_lane h !!! l) ++ [mkLink ty (PStr id) None None None] |>]> (h_lane h) |>).
  Proof. intros Hty. unfold lane_add_link. rewrite mk_link_ok //. Qed.

  Lemma use_spec k h pre ll post : h_linker h !!! k = pre ++ ll :: post →
    ∃ m, use_lanelink k (length pre) h = (Ok tt, h <| h_lane := m |> <| h_linker := (if ll_used ll then h_linker h else <[k := pre ++ mark ll :: post]> (h_linker h)) |>) ∧
      given h (unused [ll]) (h <| h_lane := m |>).
  Proof.
    intros E. unfold use_lanelink, get_linker. rewrite bind_gets E list_lookup_middle //.
    unfold unused. rewrite filter_cons filter_nil. destruct (ll_used ll) eqn:Eu; simpl.
    - exists (h_lane h). split; [by destruct h|]. by apply given_nil.
    -
      unfold get_lane. rewrite bind_gets. rewrite (bind_run _ _ _ _ _ (lane_add_link_run _ (Some "successor") _ _ ltac:(done))).
      rewrite bind_gets. rewrite (bind_run _ _ _ _ _ (lane_add_link_run _ (Some "predecessor") _ _ ltac:(done))).
      unfold upd_linker, modify. simpl. rewrite E. rewrite (_ : alter _ (length pre) (pre ++ ll :: post) = pre ++ mark ll :: post).
      { by rewrite -{1}(Nat.add_0_r (length pre)) alter_app_r. }
      eexists. split; [reflexivity|]. intros l. simpl. unfold links_given. simpl. rewrite app_nil_r.
      assert (Eid : ln_id (<[ll_pred ll := (h_lane h !!! ll_pred ll) <| ln_links := ln_links (h_lane h !!! ll_pred ll) ++
         [mkLink (Some "successor") (PStr (lane_id_str (ln_id (h_lane h !!! ll_succ ll)))) None None None] |>]> (h_lane h) !!! ll_pred ll) = ln_id (h_lane h !!! ll_pred ll))
        by by rewrite ltm_insert.
      rewrite Eid. destruct (decide (ll_succ ll = l)) as [<-|H2].
      + rewrite ltm_insert. destruct (decide (ll_pred ll = ll_succ ll)) as [->|H1].
        * rewrite ltm_insert. simpl. by rewrite -app_assoc.
        * rewrite ltm_insert_ne //.
      + rewrite ltm_insert_ne //. destruct (decide (ll_pred ll = l)) as [<-|H1].
        * rewrite ltm_insert. simpl. by rewrite ?app_nil_r.
        * rewrite ltm_insert_ne // app_nil_r. rewrite app_nil_r. by destruct (h_lane h !!! l).
  Qed.

  Lemma insert_total_id {V} `{!Inhabited V} (m : gmap nat V) k v : is_Some (m !! k) → m !!! k = v → <[k:=v]> m = m.
  Proof. intros [x Hx] E. apply insert_id. rewrite Hx. f_equal. by rewrite -E (lookup_total_correct _ _ _ Hx). Qed.

  Lemma use_all k h pre post : exists_in h_linker h k → h_linker h !!! k = pre ++ post →
    ∃ m, for_each (use_lanelink k) (seq (length pre) (length post)) h =
      (Ok tt, h <| h_lane := m |> <| h_linker := <[k := pre ++ map mark post]> (h_linker h) |>) ∧ given h (unused post) (h <| h_lane := m |>).
  Proof.
    revert pre h. induction post as [|ll post IH]; intros pre h Hk E.
    - exists (h_lane h). simpl. rewrite insert_total_id //. split; [by destruct h|by apply given_nil].
    - destruct (use_spec k h pre ll post E) as (m & E1 & G1). cbn [length seq for_each]. rewrite (bind_run _ _ _ _ _ E1).
      set (h1 := h <| h_lane := m |> <| h_linker := _ |>).
      assert (h_linker h1 !!! k = (pre ++ [mark ll]) ++ post ∧ exists_in h_linker h1 k) as [El Hk1].
      { unfold exists_in, h1. simpl. destruct (ll_used ll) eqn:Eu.
        - split; [|done]. rewrite E -app_assoc. simpl. repeat f_equal. by destruct ll; simpl in *; subst.
        - rewrite ltm_insert lookup_insert -app_assoc. eauto. }
      destruct (IH (pre ++ [mark ll]) h1 Hk1 El) as (m2 & E2 & G2).
      rewrite app_length /= Nat.add_1_r in E2. rewrite E2. exists m2. split.
      + f_equal. unfold h1. simpl. rewrite -app_assoc. simpl. destruct (ll_used ll); [done|]. by rewrite insert_insert.
      + change (ll :: post) with ([ll] ++ post). unfold unused. rewrite filter_app. eapply given_trans; [exact G1|].
        intros l. apply G2.
  Qed.

  (** what is pending, once the LaneLinkers in [seen] have been used up *)
  Definition pend h ks seen : list lanelink := concat (map (λ k, unused (h_linker h !!! k)) (distinct ks seen)).
  Lemma unused_mark lls : unused (map mark lls) = [].
  Proof. induction lls as [|ll lls IH]; [done|]. done. Qed.
  Lemma unused_nil_mark lls : unused lls = [] → map mark lls = lls.
  Proof.
    induction lls as [|ll lls IH]; [done|]. unfold unused. rewrite filter_cons. destruct (ll_used ll) eqn:Eu; simpl.
    - intros Hf. rewrite IH //. f_equal. by destruct ll; simpl in *; subst.
    - done.
  Qed.

  Lemma use_linkers ks : ∀ seen h, (∀ k, k ∈ seen → unused (h_linker h !!! k) = []) → Forall (exists_in h_linker h) ks →
    ∃ m m', for_each (λ k, let! o := get_linker k in for_each (use_lanelink k) (seq 0 (length o))) ks h =
        (Ok tt, h <| h_lane := m |> <| h_linker := m' |>) ∧ given h (pend h ks seen) (h <| h_lane := m |>) ∧
      (∀ k, m' !!! k = if decide (k ∈ ks) then map mark (h_linker h !!! k) else h_linker h !!! k) ∧
      (∀ k, is_Some (m' !! k) ↔ is_Some (h_linker h !! k)).
  Proof.
    induction ks as [|k ks IH]; intros seen h Hs Hex.
    - exists (h_lane h), (h_linker h). split; [by destruct h|]. split; [by apply given_nil|]. split; [|done].
      intros k. destruct (decide (k ∈ @nil nat)) as [Hd|]; [by apply elem_of_nil in Hd|done].
    - apply Forall_cons in Hex as [Hk Hex]. 
      destruct (use_all k h [] (h_linker h !!! k) Hk eq_refl) as (m1 & E1 & G1).
      assert (Eone : (let! o := get_linker k in for_each (use_lanelink k) (seq 0 (length o))) h =
        (Ok tt, h <| h_lane := m1 |> <| h_linker := <[k := map mark (h_linker h !!! k)]> (h_linker h) |>)).
      { unfold get_linker. rewrite bind_gets. exact E1. }
      cbn [for_each]. rewrite (bind_run _ _ _ _ _ Eone). clear Eone.
      set (h1 := h <| h_lane := m1 |> <| h_linker := _ |>).
      assert (El : ∀ k', h_linker h1 !!! k' = if decide (k' = k) then map mark (h_linker h !!! k) else h_linker h !!! k').
      { intros k'. unfold h1. simpl. destruct (decide (k' = k)) as [->|Hne]; [by rewrite ltm_insert|by rewrite ltm_insert_ne]. }
      destruct (IH (k :: seen) h1) as (m2 & m2' & E2 & G2 & L2 & D2).
      { intros k'. rewrite elem_of_cons El. intros Hk'. destruct (decide (k' = k)) as [->|Hne]; [apply unused_mark|]. destruct Hk' as [?|?]; [done|by apply Hs]. }
      { eapply Forall_impl; [exact Hex|]. intros k' Hk'. unfold exists_in, h1. simpl. by apply insert_exists. }
      rewrite E2. exists m2, m2'. split; [done|]. 
      assert (Hp : pend h1 ks (k :: seen) = pend h ks (k :: seen)).
      { unfold pend. f_equal. apply map_ext_in. intros k' Hk'. f_equal. rewrite El. destruct (decide (k' = k)) as [->|]; [|done]. exfalso.
        apply elem_of_list_In in Hk'. clear -Hk'. revert Hk'. assert (Hin : k ∈ k :: seen) by by left.
        revert Hin. generalize (k :: seen). clear seen. induction ks as [|k2 ks IH]; intros seen Hin; simpl; [by intros ?%elem_of_nil|].
        destruct (decide (k2 ∈ seen)); [by apply IH|]. rewrite elem_of_cons. intros [->|Hk']; [done|]. eapply IH; [|exact Hk']. by right. }
      split; [|split].
      + rewrite Hp in G2. assert (Hg : given h (unused (h_linker h !!! k) ++ pend h ks (k :: seen)) (h <| h_lane := m2 |>)) by (eapply given_trans; [exact G1|exact G2]).
        unfold pend. simpl. destruct (decide (k ∈ seen)) as [Hin|Hin]; [|exact Hg].
        rewrite (Hs k Hin) /= in Hg. intros l. rewrite Hg. f_equal. f_equal. clear -Hin Hs.
        unfold pend. 
        assert (Hd : ∀ s1 s2, (∀ x, x ∈ s1 ↔ x ∈ s2) → distinct ks s1 = distinct ks s2).
        { induction ks as [|k2 ks IH]; intros s1 s2 Hss; simpl; [done|].
          destruct (decide (k2 ∈ s1)) as [H1|H1]; destruct (decide (k2 ∈ s2)) as [H2|H2]; try (by apply Hss in H1); try (by apply Hss in H2); [by apply IH|].
          f_equal. apply IH. intros x. rewrite !elem_of_cons Hss. done. }
        rewrite (Hd (k :: seen) seen) //. intros x. rewrite elem_of_cons. naive_solver.
      + intros k'. rewrite L2 !El. destruct (decide (k' = k)) as [->|Hne].
        * destruct (decide (k ∈ k :: ks)) as [_|Hn]; [|by destruct Hn; left]. destruct (decide (k ∈ ks)); [|done].
          rewrite map_map. done.
        * destruct (decide (k' ∈ ks)) as [Hi|Hi]; destruct (decide (k' ∈ k :: ks)) as [Hc|Hc]; rewrite elem_of_cons in Hc; tauto.
      + intros k'. rewrite D2. unfold h1. simpl. destruct (decide (k = k')) as [<-|Hne]; [rewrite lookup_insert; split; eauto|by rewrite lookup_insert_ne].
  Qed.
End Linker.
