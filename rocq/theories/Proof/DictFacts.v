(** Facts about dictionaries and list indexing *)
From Coq Require Import ssreflect.
From Verif.Model Require Import Py.
Local Open Scope general_if_scope.

Lemma dict_get_keys {V} (d : dict V) k : k ∈ map fst d ↔ is_Some (dict_get d k).
Proof.
  induction d as [|[k' v] d IH]; simpl; [rewrite elem_of_nil; split; [done|intros [? ?]; done]|].
  rewrite elem_of_cons. destruct (String.eqb_spec k k') as [->|Hne]; [split; [by eexists|by left]|].
  rewrite IH. split; [intros [?|?]; done|by right].
Qed.
Lemma dict_get_set {V} (d : dict V) k v : dict_get (dict_set d k v) k = Some v.
Proof.
  induction d as [|[k' v'] d IH]; simpl; [by rewrite String.eqb_refl|].
  destruct (String.eqb_spec k k') as [->|Hne]; simpl; [by rewrite String.eqb_refl|].
  by destruct (String.eqb_spec k k').
Qed.
Lemma dict_get_set_ne {V} (d : dict V) k k' v : k ≠ k' → dict_get (dict_set d k v) k' = dict_get d k'.
Proof.
  intros Hne. induction d as [|[k2 v'] d IH]; simpl; [by destruct (String.eqb_spec k' k); subst|].
  destruct (String.eqb_spec k k2) as [->|Hne2]; simpl; [by destruct (String.eqb_spec k' k2); subst|].
  by rewrite IH.
Qed.
Lemma dict_set_old {V} (d : dict V) k v : k ∈ map fst d → map fst (dict_set d k v) = map fst d.
Proof.
  induction d as [|[k' v'] d IH]; simpl; intros H; [by apply elem_of_nil in H|].
  destruct (String.eqb_spec k k') as [->|Hne]; simpl; [done|].
  apply elem_of_cons in H as [?|?]; [done|]. by rewrite IH.
Qed.
Lemma dict_set_new {V} (d : dict V) k v : k ∉ map fst d → map fst (dict_set d k v) = map fst d ++ [k].
Proof.
  induction d as [|[k' v'] d IH]; simpl; intros H; [done|].
  destruct (String.eqb_spec k k') as [->|Hne]; simpl; [destruct H; by left|].
  rewrite IH //. intros Hin. apply H. by right.
Qed.
Lemma dict_set_nodup {V} (d : dict V) k v : NoDup (map fst d) → NoDup (map fst (dict_set d k v)).
Proof.
  intros H. destruct (decide (k ∈ map fst d)) as [Hk|Hk]; [by rewrite dict_set_old|].
  rewrite dict_set_new //. apply NoDup_app. split; [done|]. split; [|apply NoDup_singleton].
  intros x Hx Hy. apply elem_of_list_singleton in Hy. by subst.
Qed.
Lemma dict_set_elem {V} (d : dict V) k v k' : k' ∈ map fst (dict_set d k v) ↔ k' = k ∨ k' ∈ map fst d.
Proof.
  destruct (decide (k ∈ map fst d)) as [Hk|Hk].
  - rewrite dict_set_old //. naive_solver.
  - rewrite dict_set_new // elem_of_app elem_of_list_singleton. naive_solver.
Qed.
