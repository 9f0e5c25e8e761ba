(** The reader of Model/Write reads back what the two writers write. *)
From Coq Require Import ssreflect.
From Verif.Model Require Import Write.
From Verif.Spec Require Import SpecWrite.
Local Open Scope general_if_scope.
Local Open Scope nat_scope.

(** ** Characters *)
Lemma code_ascii n : n < 256 → code (ascii_of_nat n) = n.
Proof. apply nat_ascii_embedding. Qed.
Lemma code_inj c d : code c = code d → c = d.
Proof. intros E. rewrite -(ascii_nat_embedding c) -(ascii_nat_embedding d). by unfold code in E; rewrite E. Qed.
Lemma chars_str t : chars (str t) = t.
Proof. apply list_ascii_of_string_of_list_ascii. Qed.
Lemma str_chars s : str (chars s) = s.
Proof. apply string_of_list_ascii_of_string. Qed.
Lemma chars_inj s s' : chars s = chars s' → s = s'.
Proof. intros E. by rewrite -(str_chars s) -(str_chars s') E. Qed.
(** a boolean property of characters holds if it holds of the 256 characters *)
Lemma ascii_all (P : ascii → bool) : forallb (λ n, P (ascii_of_nat n)) (seq 0 256) = true → ∀ c, P c = true.
Proof.
  intros H c. rewrite forallb_forall in H. rewrite -(ascii_nat_embedding c). apply H. apply in_seq. pose proof (nat_ascii_bounded c). lia.
Qed.

(** ** Reading values *)
Lemma read_value_entity e c r : (∀ x, x ∈ e → x ≠ ";"%char) → entity e = Some c →
  read_value false (Some []) (e ++ ";"%char :: r) = ('(v, r') ← read_value false None r; Some (c :: v, r')).
Proof.
  intros He Hc. assert (G : ∀ e1 e2, e = e1 ++ e2 → read_value false (Some e1) (e2 ++ ";"%char :: r) = ('(v, r') ← read_value false None r; Some (c :: v, r'))).
  { intros e1 e2. revert e1. induction e2 as [|x e2 IH]; intros e1 E.
    - rewrite app_nil_r in E. subst e1. simpl. rewrite Hc. done.
    - simpl. assert (Hx : x ≠ ";"%char) by (apply He; rewrite E; apply elem_of_app; right; apply elem_of_list_here).
      rewrite (proj2 (Ascii.eqb_neq _ _) Hx). apply IH. rewrite E -app_assoc //. }
  by apply (G [] e).
Qed.
(** one character written as itself *)
Definition raw_ok (c : ascii) : bool := legal_char c && negb (is_space c && negb (Ascii.eqb c " ")) && negb (Ascii.eqb c quote) && negb (Ascii.eqb c "&") && negb (Ascii.eqb c "<").
Lemma read_value_raw cr c r : raw_ok c = true → read_value cr None (c :: r) = ('(v, r') ← read_value false None r; Some (c :: v, r')).
Proof.
  unfold raw_ok. intros H. repeat (apply andb_prop in H as [H ?]). simpl.
  repeat match goal with E : negb _ = true |- _ => apply negb_true_iff in E end.
  match goal with E : Ascii.eqb c quote = false |- _ => rewrite E end.
  match goal with E : Ascii.eqb c "&" = false |- _ => rewrite E end.
  match goal with E : Ascii.eqb c "<" = false |- _ => rewrite E end.
  rewrite H.
  match goal with E : is_space c && _ = false |- _ => destruct (is_space c) eqn:Es; simpl in E end.
  - match goal with E : negb _ = false |- _ => apply negb_false_iff, Ascii.eqb_eq in E; subst c end. reflexivity.
  - destruct (Ascii.eqb c newline) eqn:En; [|done]. apply Ascii.eqb_eq in En. subst c. done.
Qed.
(** what a written form [w] of one character gives *)
Definition written_as (w : ascii → text) (c : ascii) : bool :=
  match w c with
  | [d] => Ascii.eqb c d && raw_ok c
  | d :: e => Ascii.eqb d "&" && match reverse e with x :: e' => Ascii.eqb x ";" && forallb (λ y, negb (Ascii.eqb y ";")) e' && bool_decide (entity (reverse e') = Some c) | [] => false end
  | [] => false
  end.
Lemma read_value_written w c r cr : written_as w c = true → read_value cr None (w c ++ r) = ('(v, r') ← read_value false None r; Some (c :: v, r')).
Proof.
  unfold written_as. destruct (w c) as [|d [|d' e]] eqn:E; [done| |].
  - intros [H1 H2]%andb_prop. apply Ascii.eqb_eq in H1. subst d. by apply read_value_raw.
  - intros [H1 H2]%andb_prop. apply Ascii.eqb_eq in H1. subst d. destruct (reverse (d' :: e)) as [|x e'] eqn:Er; [done|].
    apply andb_prop in H2 as [[Hx Hf]%andb_prop H3]. apply Ascii.eqb_eq in Hx. subst x. apply bool_decide_eq_true in H3.
    assert (Ee : d' :: e = reverse e' ++ [";"%char]) by (rewrite -(reverse_involutive (d' :: e)) Er reverse_cons //).
    rewrite Ee. change (("&"%char :: reverse e' ++ [";"%char]) ++ r) with ("&"%char :: ((reverse e' ++ [";"%char]) ++ r)). rewrite -app_assoc.
    transitivity (read_value false (Some []) (reverse e' ++ ";"%char :: r)); [reflexivity|]. apply read_value_entity; [|done].
    intros x Hx. rewrite elem_of_reverse elem_of_list_In in Hx. rewrite forallb_forall in Hf. apply Hf in Hx. apply negb_true_iff, Ascii.eqb_neq in Hx. done.
Qed.
Lemma read_value_end cr r : read_value cr None (quote :: r) = Some ([], r).
Proof. reflexivity. Qed.
Lemma read_value_all w v r cr : (∀ c, c ∈ v → written_as w c = true) → read_value cr None (flat_map w v ++ quote :: r) = Some (v, r).
Proof.
  revert cr. induction v as [|c v IH]; intros cr H; [apply read_value_end|]. simpl. rewrite -app_assoc. rewrite read_value_written.
  { apply H, elem_of_list_here. }
  rewrite IH; [|done]. intros c' Hc'. apply H. by apply elem_of_list_further.
Qed.
Lemma xml_char_legal c : xml_char c → legal_char c = true.
Proof.
  unfold xml_char, legal_char. intros [H|[->|[->| ->]]]; [|done..]. apply orb_true_intro. left. by apply Nat.leb_le.
Qed.
Lemma escape_written c : legal_char c = true → written_as escape_char c = true.
Proof.
  intros H. assert (G : implb (legal_char c) (written_as escape_char c) = true).
  { revert c H. intros c _. revert c. apply ascii_all. vm_compute. reflexivity. }
  rewrite H in G. exact G.
Qed.
Lemma escape_ref_written c : legal_char c = true → written_as (λ c, flat_map charref (escape_char c)) c = true.
Proof.
  intros H. assert (G : implb (legal_char c) (written_as (λ c, flat_map charref (escape_char c)) c) = true).
  { revert c H. intros c _. revert c. apply ascii_all. vm_compute. reflexivity. }
  rewrite H in G. exact G.
Qed.
Lemma data_written c : 32 ≤ code c → written_as write_data_char c = true.
Proof.
  intros H. assert (G : implb (32 <=? code c) (written_as write_data_char c) = true).
  { revert c H. intros c _. revert c. apply ascii_all. vm_compute. reflexivity. }
  apply Nat.leb_le in H. rewrite H in G. exact G.
Qed.
(** minidom writes tab, newline and return as they are; they are read as spaces *)
Lemma read_value_spaced v r : (∀ c, c ∈ v → xml_char c) → 
  read_value false None (flat_map write_data_char v ++ quote :: r) = Some (spaced v, r) ∧
  ∀ c v', v = c :: v' → c ≠ newline → read_value true None (flat_map write_data_char v ++ quote :: r) = Some (spaced v, r).
Proof.
  remember (length v) as n eqn:En. revert v En. induction (lt_wf n) as [n _ IH]. intros v -> Hv.
  destruct v as [|c v]; [split; [apply read_value_end|done]|].
  assert (Hv' : ∀ c', c' ∈ v → xml_char c') by (intros c' Hc'; apply Hv; by apply elem_of_list_further).
  assert (IHv := IH (length v) (Nat.lt_succ_diag_r _) v eq_refl Hv').
  assert (Hc : xml_char c) by (apply Hv, elem_of_list_here).
  destruct (decide (32 ≤ code c)) as [Hp|Hn].
  - assert (G : ∀ cr, read_value cr None (flat_map write_data_char (c :: v) ++ quote :: r) = Some (spaced (c :: v), r)).
    { intros cr. simpl. rewrite -app_assoc read_value_written; [by apply data_written|]. rewrite (proj1 IHv) /=.
      destruct (decide (c = return_)) as [->|]; [exfalso; vm_compute in Hp; lia|]. destruct (decide (c = newline ∨ c = tab)) as [[->| ->]|]; [exfalso; vm_compute in Hp; lia..|]. done. }
    split; [apply G|]. intros. apply G.
  - destruct Hc as [?|Hc]; [done|]. 
    destruct Hc as [->|[->| ->]].
    + assert (G : ∀ cr, read_value cr None (flat_map write_data_char (tab :: v) ++ quote :: r) = Some (spaced (tab :: v), r)).
      { intros cr. change (flat_map write_data_char (tab :: v) ++ quote :: r) with (tab :: (flat_map write_data_char v ++ quote :: r)).
        change (read_value cr None (tab :: (flat_map write_data_char v ++ quote :: r))) with ('(w, r') ← read_value false None (flat_map write_data_char v ++ quote :: r); Some (" "%char :: w, r')).
        rewrite (proj1 IHv). done. }
      split; [apply G|]. intros. apply G.
    + split; [|by intros c v' [= <- <-]]. change (flat_map write_data_char (newline :: v) ++ quote :: r) with (newline :: (flat_map write_data_char v ++ quote :: r)).
      change (read_value false None (newline :: (flat_map write_data_char v ++ quote :: r))) with ('(w, r') ← read_value false None (flat_map write_data_char v ++ quote :: r); Some (" "%char :: w, r')).
      rewrite (proj1 IHv). done.
    + assert (G : ∀ cr, read_value cr None (flat_map write_data_char (return_ :: v) ++ quote :: r) = Some (spaced (return_ :: v), r)).
      { intros cr. change (flat_map write_data_char (return_ :: v) ++ quote :: r) with (return_ :: (flat_map write_data_char v ++ quote :: r)).
        change (read_value cr None (return_ :: (flat_map write_data_char v ++ quote :: r))) with ('(w, r') ← read_value true None (flat_map write_data_char v ++ quote :: r); Some (" "%char :: w, r')).
        destruct v as [|d v]; [reflexivity|]. simpl spaced. destruct (decide (return_ = return_)) as [_|]; [|done].
        destruct (decide (d = newline)) as [->|Hd].
        - change (read_value true None (flat_map write_data_char (newline :: v) ++ quote :: r)) with (read_value false None (flat_map write_data_char v ++ quote :: r)).
          assert (Hv2 : ∀ c', c' ∈ v → xml_char c') by (intros c' Hc'; apply Hv'; by apply elem_of_list_further).
          rewrite (proj1 (IH (length v) ltac:(simpl; lia) v eq_refl Hv2)). done.
        - rewrite (proj2 IHv d v eq_refl Hd). done. }
      split; [apply G|]. intros. apply G.
Qed.

(** ** Reading names and attributes *)
Definition starts_name (s : text) : bool := match s with c :: _ => name_char c | [] => false end.
Lemma read_name_app n s : forallb name_char n = true → starts_name s = false → read_name (n ++ s) = (n, s).
Proof.
  intros Hn Hs. induction n as [|c n IH]; simpl.
  - destruct s as [|c s]; [done|]. simpl in *. by rewrite Hs.
  - simpl in Hn. apply andb_prop in Hn as [-> Hn]. by rewrite IH.
Qed.
Lemma strip_app p s : strip p (p ++ s) = Some s.
Proof. induction p as [|c p IH]; simpl; [done|]. by rewrite Ascii.eqb_refl. Qed.
Definition good_name (n : text) : Prop := forallb name_char n = true ∧ match n with c :: _ => name_start c = true | [] => False end.
Lemma simple_name_good n : simple_name n → good_name (chars n).
Proof.
  unfold simple_name, good_name. destruct (chars n) as [|c r]; [done|]. intros [Hc Hr]. assert (Hs : name_start c = true) by (unfold name_start; by rewrite Hc).
  split; [|done]. simpl. apply andb_true_intro. split; [unfold name_char; by rewrite Hs|]. apply forallb_forall. intros c' Hc'. apply elem_of_list_In, Hr in Hc'.
  unfold name_char, name_start. by destruct Hc' as [-> | ->]; rewrite ?orb_true_r.
Qed.
Lemma start_not_space c : name_start c = true → is_space c = false.
Proof.
  intros H. assert (G : implb (name_start c) (negb (is_space c)) = true) by (revert c H; intros c _; revert c; apply ascii_all; vm_compute; reflexivity).
  rewrite H in G. by apply negb_true_iff in G.
Qed.

Lemma read_attributes_step fuel c s : name_start c = true → read_attributes (S fuel) (" "%char :: c :: s) =
  (let '(n, s1) := read_name (c :: s) in
   s2 ← strip (chars "=" ++ [quote]) s1; '(v, s3) ← read_value false None s2; '(a, s4) ← read_attributes fuel s3;
   if bool_decide (str n ∈ map fst a) then None else Some ((str n, str v) :: a, s4)).
Proof.
  intros H. cbn [read_attributes]. change (is_space " "%char) with true. cbv iota.
  rewrite (_ : skip_space (" "%char :: c :: s) = c :: s). { simpl. by rewrite start_not_space. }
  by rewrite H.
Qed.
Section Attributes.
  Context (esc : string → text) (val : string → string) (okv : string → Prop).
  Context (Hval : ∀ v r, okv v → read_value false None (esc v ++ quote :: r) = Some (chars (val v), r)).
  Definition good_attributes (a : dict string) : Prop := NoDup (map fst a) ∧ ∀ k v, (k, v) ∈ a → good_name (chars k) ∧ okv v.
  Definition read_back (a : dict string) : dict string := map (λ kv : string * string, (kv.1, val kv.2)) a.
  Lemma read_back_keys a : map fst (read_back a) = map fst a.
  Proof. unfold read_back. rewrite map_map. done. Qed.
  (** the text after the attributes *)
  Definition tag_end (t t' : text) : Prop := starts_name t = false ∧ ∀ f, read_attributes (S f) t = Some ([], t').
  Lemma attributes_start a t t' : tag_end t t' → starts_name (attributes_text esc a ++ t) = false.
  Proof. intros [H _]. destruct a as [|[k v] a]; [done|]. reflexivity. Qed.
  Lemma attributes_read a t t' fuel : good_attributes a → tag_end t t' → length a < fuel →
    read_attributes fuel (attributes_text esc a ++ t) = Some (read_back a, t').
  Proof.
    revert fuel. induction a as [|[k v] a IH]; intros fuel [Hn Ha] Ht Hf.
    { destruct fuel; [lia|]. apply Ht. }
    destruct fuel as [|fuel]; [simpl in Hf; lia|]. simpl in Hf.
    assert (Ha' : good_attributes a). { simpl in Hn. apply NoDup_cons in Hn as [_ Hn]. split; [done|]. intros k' v' H. apply Ha. by apply elem_of_list_further. }
    destruct (Ha k v (elem_of_list_here _ _)) as [[Hk1 Hk2] Hv].
    change (attributes_text esc ((k, v) :: a)) with ((chars " " ++ chars k ++ chars "=" ++ [quote] ++ esc v ++ [quote]) ++ attributes_text esc a).
    rewrite -!app_assoc. destruct (chars k) as [|c k'] eqn:Ek; [done|].
    assert (E : read_name ((c :: k') ++ chars "=" ++ [quote] ++ esc v ++ [quote] ++ attributes_text esc a ++ t) =
                (c :: k', (chars "=" ++ [quote]) ++ esc v ++ quote :: (attributes_text esc a ++ t))).
    { rewrite read_name_app; [done|done|]. done. }
    change (chars " " ++ (c :: k') ++ ?x) with (" "%char :: c :: (k' ++ x)). rewrite read_attributes_step //. cbn [app] in E. rewrite E. rewrite strip_app. cbn [option_bind mbind].
    rewrite (Hval v _ Hv). cbn [option_bind mbind]. rewrite (IH fuel Ha' Ht ltac:(lia)). cbn [option_bind mbind].
    rewrite -Ek str_chars str_chars. rewrite read_back_keys. case_bool_decide as Hin; [|done].
    simpl in Hn. apply NoDup_cons in Hn as [Hn _]. done.
  Qed.
End Attributes.

(** ** Reading elements *)
Definition all_space (w : text) : Prop := forallb is_space w = true.
Lemma skip_space_app w s : all_space w → skip_space (w ++ s) = skip_space s.
Proof. intros H. induction w as [|c w IH]; [done|]. apply andb_prop in H as [H1 H2]. simpl. rewrite H1. by apply IH. Qed.
Lemma skip_space_id c s : is_space c = false → skip_space (c :: s) = c :: s.
Proof. simpl. by intros ->. Qed.
Lemma strip_second b d p c s : d ≠ c → strip (b :: d :: p) (b :: c :: s) = None.
Proof. intros H. cbn [strip]. rewrite Ascii.eqb_refl (proj2 (Ascii.eqb_neq _ _) H) //. Qed.
Section Shows.
  Context (esc : string → text) (val : string → string) (okv : string → Prop).
  Context (Hval : ∀ v r, okv v → read_value false None (esc v ++ quote :: r) = Some (chars (val v), r)).
  Inductive shows : xml → text → Prop :=
  | shows_empty n a w : good_name (chars n) → good_attributes okv a → all_space w →
      shows (Elem (Some n) (read_back val a) []) (chars "<" ++ chars n ++ attributes_text esc a ++ w ++ chars "/>")
  | shows_full n a cs body : good_name (chars n) → good_attributes okv a → shows_all cs body →
      shows (Elem (Some n) (read_back val a) cs) (chars "<" ++ chars n ++ attributes_text esc a ++ chars ">" ++ body ++ chars "</" ++ chars n ++ chars ">")
  with shows_all : list xml → text → Prop :=
  | shows_nil w : all_space w → shows_all [] w
  | shows_cons w e s es s' : all_space w → shows e s → shows_all es s' → shows_all (e :: es) (w ++ s ++ s').
  Scheme shows_mut := Induction for shows Sort Prop with shows_all_mut := Induction for shows_all Sort Prop.
  Combined Scheme shows_both from shows_mut, shows_all_mut.

  Lemma shows_all_space w es s : all_space w → shows_all es s → shows_all es (w ++ s).
  Proof.
    intros Hw H. destruct H as [w' Hw'|w' e s es s' Hw' He Hes].
    - constructor. unfold all_space in *. rewrite forallb_app Hw Hw' //.
    - rewrite app_assoc. constructor; [|done..]. unfold all_space in *. rewrite forallb_app Hw Hw' //.
  Qed.
  Lemma shows_all_app es s es' s' : shows_all es s → shows_all es' s' → shows_all (es ++ es') (s ++ s').
  Proof.
    intros H H'. induction H as [w Hw|w e s es s1 Hw He Hes IH]; [by apply shows_all_space|]. rewrite -!app_assoc. constructor; [done..|]. exact IH.
  Qed.
  Lemma shows_all_one e s : shows e s → shows_all [e] s.
  Proof. intros H. rewrite -(app_nil_r s) -(app_nil_l (s ++ [])). constructor; [done|done|]. by constructor. Qed.

  Lemma shows_starts e s : shows e s → ∃ c r, s = "<"%char :: c :: r ∧ name_start c = true.
  Proof.
    destruct 1 as [n a w [_ Hn] _ _|n a cs body [_ Hn] _ _]; destruct (chars n) as [|c n'] eqn:E; try done; eexists c, _; (split; [reflexivity|done]).
  Qed.
  Lemma tag_end_empty w r : all_space w → tag_end (w ++ chars "/>" ++ r) (chars "/>" ++ r).
  Proof.
    intros Hw. split.
    - destruct w as [|c w]; [done|]. apply andb_prop in Hw as [Hc _]. simpl.
      destruct (name_char c) eqn:E; [|done]. assert (G : implb (name_char c) (negb (is_space c)) = true) by (clear; revert c; apply ascii_all; vm_compute; reflexivity).
      rewrite E Hc in G. done.
    - intros f. destruct w as [|c w]; [done|]. pose proof Hw as Hw0. apply andb_prop in Hw0 as [Hc _].
      cbn [read_attributes app]. rewrite Hc. rewrite (skip_space_app (c :: w) (chars "/>" ++ r) Hw). done.
  Qed.
  Lemma tag_end_full r : tag_end (chars ">" ++ r) (chars ">" ++ r).
  Proof. split; done. Qed.

  Lemma shows_length e s : shows e s → 2 < length s.
  Proof.
    destruct 1; rewrite !app_length; [|]; simpl; lia.
  Qed.
  Lemma attributes_length a : length a ≤ length (attributes_text esc a).
  Proof.
    induction a as [|[k v] a IH]; [done|].
    change (attributes_text esc ((k, v) :: a)) with ((chars " " ++ chars k ++ chars "=" ++ [quote] ++ esc v ++ [quote]) ++ attributes_text esc a).
    rewrite !app_length. simpl. lia.
  Qed.
  Lemma shows_read : (∀ e s, shows e s → ∀ fuel r, length s ≤ fuel → read_element fuel (s ++ r) = Some (e, r)) ∧
    (∀ es s, shows_all es s → ∀ fuel r, length s < fuel → read_elements fuel (s ++ chars "</" ++ r) = Some (es, chars "</" ++ r)).
  Proof.
    apply shows_both.
    - intros n a w [Hn1 Hn2] Ha Hw fuel r Hf. rewrite !app_length in Hf. destruct fuel as [|fuel]; [simpl in Hf; lia|]. cbn [read_element].
      rewrite -!app_assoc strip_app. cbn [option_bind mbind]. destruct (chars n) as [|c n'] eqn:En; [done|]. cbn [app]. rewrite Hn2.
      assert (E : read_name ((c :: n') ++ attributes_text esc a ++ w ++ chars "/>" ++ r) = (c :: n', attributes_text esc a ++ w ++ chars "/>" ++ r)).
      { apply read_name_app; [done|]. eapply attributes_start. by apply tag_end_empty. }
      cbn [app] in E. rewrite E. pose proof (attributes_length a) as Hl.
      rewrite (attributes_read esc val okv Hval a _ _ fuel Ha (tag_end_empty w r Hw)); [simpl in Hf; lia|]. cbn [option_bind mbind].
      rewrite strip_app. rewrite -En str_chars. done.
    - intros n a cs body [Hn1 Hn2] Ha Hcs IH fuel r Hf. rewrite !app_length in Hf. destruct fuel as [|fuel]; [simpl in Hf; lia|]. cbn [read_element].
      rewrite -!app_assoc strip_app. cbn [option_bind mbind]. destruct (chars n) as [|c n'] eqn:En; [done|]. cbn [app]. rewrite Hn2.
      assert (E : read_name ((c :: n') ++ attributes_text esc a ++ chars ">" ++ body ++ chars "</" ++ (c :: n') ++ chars ">" ++ r) =
                  (c :: n', attributes_text esc a ++ chars ">" ++ body ++ chars "</" ++ (c :: n') ++ chars ">" ++ r)).
      { apply read_name_app; [done|]. eapply attributes_start. by apply tag_end_full. }
      cbn [app] in E. rewrite E. pose proof (attributes_length a) as Hl.
      rewrite (attributes_read esc val okv Hval a _ _ fuel Ha (tag_end_full _)); [simpl in Hf; lia|]. cbn [option_bind mbind].
      change (strip (chars "/>") (chars ">" ++ ?x)) with (@None (list ascii)). cbv iota. rewrite strip_app. cbn [option_bind mbind].
      rewrite IH; [simpl in Hf; lia|]. cbn [option_bind mbind].
      change (chars "</" ++ c :: n' ++ chars ">" ++ r) with (chars "</" ++ (c :: n') ++ (chars ">" ++ r)). rewrite app_assoc strip_app. cbn [option_bind mbind].
      change (skip_space (chars ">" ++ r)) with (chars ">" ++ r). rewrite strip_app. cbn [option_bind mbind]. rewrite -En str_chars. done.
    - intros w Hw fuel r Hf. destruct fuel as [|fuel]; [lia|]. cbn [read_elements]. rewrite skip_space_app //.
    - intros w e s es s' Hw He IHe Hes IHes fuel r Hf. destruct fuel as [|fuel]; [lia|]. cbn [read_elements]. rewrite -!app_assoc skip_space_app //.
      rewrite !app_length in Hf. pose proof (shows_length e s He) as Hl. destruct (shows_starts e s He) as (c & s0 & Es & Hc).
      assert (E : skip_space (s ++ s' ++ chars "</" ++ r) = s ++ s' ++ chars "</" ++ r) by (rewrite Es; apply skip_space_id; reflexivity).
      rewrite E. assert (E2 : strip (chars "</") (s ++ s' ++ chars "</" ++ r) = None).
      { rewrite Es. apply strip_second. by intros <-. }
      rewrite E2. rewrite IHe; [lia|]. cbn [option_bind mbind]. rewrite IHes; [lia|]. done.
  Qed.
  Lemma shows_document e s w : shows e s → all_space w → read_document (s ++ w) = Some e.
  Proof.
    intros H Hw. unfold read_document. destruct (shows_starts e s H) as (c & r & Es & Hc).
    assert (E : strip declaration (s ++ w) = None).
    { rewrite Es. apply strip_second. by intros <-. }
    rewrite E. simpl default. assert (E2 : skip_space (s ++ w) = s ++ w) by (rewrite Es; apply skip_space_id; reflexivity). rewrite E2.
    rewrite (proj1 shows_read e s H); [rewrite app_length; lia|]. cbn [option_bind mbind]. rewrite -(app_nil_r w) (skip_space_app w [] Hw). done.
  Qed.
  Lemma shows_document_decl e s w w' : shows e s → all_space w → all_space w' → read_document (declaration ++ w ++ s ++ w') = Some e.
  Proof.
    intros H Hw Hw'. unfold read_document. rewrite strip_app. simpl default. rewrite skip_space_app //. destruct (shows_starts e s H) as (c & r & Es & Hc).
    assert (E2 : skip_space (s ++ w') = s ++ w') by (rewrite Es; apply skip_space_id; reflexivity). rewrite E2.
    rewrite (proj1 shows_read e s H); [rewrite !app_length; lia|]. cbn [option_bind mbind]. rewrite -(app_nil_r w') (skip_space_app w' [] Hw'). done.
  Qed.
End Shows.

(** ** Trees *)
Lemma xml_induction (P : xml → Prop) : (∀ t a cs, Forall P cs → P (Elem t a cs)) → ∀ e, P e.
Proof.
  intros H. fix IH 1. intros [t a cs]. apply H. induction cs as [|c cs IHcs]; constructor; [apply IH|exact IHcs].
Qed.
Lemma every_children (P : option string → dict string → Prop) t a cs : every P (Elem t a cs) ↔ P t a ∧ Forall (every P) cs.
Proof.
  simpl. split; intros [H1 H2]; (split; [done|]).
  - induction cs as [|c cs IH]; [done|]. destruct H2 as [? H2]. constructor; [done|]. by apply IH.
  - induction H2; [done|]. split; done.
Qed.
Lemma every_and (P Q : option string → dict string → Prop) e : every P e → every Q e → every (λ t a, P t a ∧ Q t a) e.
Proof.
  induction e as [t a cs IH] using xml_induction. rewrite !every_children. intros [H1 H2] [H3 H4]. split; [done|].
  rewrite !Forall_forall in IH H2 H4 |- *. intros c Hc. apply IH; auto.
Qed.
Lemma every_impl (P Q : option string → dict string → Prop) e : (∀ t a, P t a → Q t a) → every P e → every Q e.
Proof.
  intros H. induction e as [t a cs IH] using xml_induction. rewrite !every_children. intros [H1 H2]. split; [auto|].
  rewrite !Forall_forall in IH H2 |- *. intros c Hc. apply IH; auto.
Qed.
Lemma flat_map_id {A} (l : list A) : flat_map (λ c, [c]) l = l.
Proof. induction l as [|x l IH]; simpl; [done|]. by rewrite IH. Qed.
Lemma flat_map_app' {A B} (f : A → list B) l k : flat_map f (l ++ k) = flat_map f l ++ flat_map f k.
Proof. apply flat_map_app. Qed.
Lemma flat_map_flat_map {A B C} (g : B → list C) (f : A → list B) l : flat_map g (flat_map f l) = flat_map (λ x, flat_map g (f x)) l.
Proof. induction l as [|x l IH]; simpl; [done|]. by rewrite flat_map_app' IH. Qed.
Lemma filter_flat_map {A} (P : A → Prop) `{∀ x, Decision (P x)} l : filter P l = flat_map (λ c, if decide (P c) then [c] else []) l.
Proof. induction l as [|x l IH]; simpl; [done|]. rewrite filter_cons. destruct (decide (P x)); simpl; by rewrite IH. Qed.
Lemma read_back_id (a : dict string) : read_back (λ v, v) a = a.
Proof. unfold read_back. induction a as [|[k v] a IH]; simpl; [done|]. by rewrite IH. Qed.

(** what [serialize] writes, up to a change [g] of characters that does not touch the markup *)
Section Serialized.
  Context (g : ascii → text) (Hg : ∀ c, 32 ≤ code c → code c < 128 → g c = [c]).
  Context (Hw : ∀ c, legal_char c = true → written_as (λ c, flat_map g (escape_char c)) c = true).
  Local Notation esc := (λ v, flat_map g (escape_attrib v)).
  Local Notation okv := (λ v, ∀ c, c ∈ chars v → legal_char c = true).
  Lemma g_value v r : okv v → read_value false None (esc v ++ quote :: r) = Some (chars v, r).
  Proof. intros H. unfold escape_attrib. rewrite flat_map_flat_map. apply (read_value_all (λ c, flat_map g (escape_char c))). intros c Hc. apply Hw, H, Hc. Qed.
  Lemma g_markup s : forallb (λ c, (32 <=? code c) && (code c <? 128)) s = true → flat_map g s = s.
  Proof.
    induction s as [|c s IH]; [done|]. cbn [forallb flat_map]. intros [[H1 H2]%andb_prop H3]%andb_prop. apply Nat.leb_le in H1. apply Nat.ltb_lt in H2.
    rewrite Hg // IH //.
  Qed.
  Lemma name_markup n : good_name n → flat_map g n = n.
  Proof.
    intros [H _]. apply g_markup. apply forallb_forall. intros c Hc. rewrite forallb_forall in H. apply H in Hc.
    assert (G : implb (name_char c) ((32 <=? code c) && (code c <? 128)) = true) by (clear; revert c; apply ascii_all; vm_compute; reflexivity).
    rewrite Hc in G. exact G.
  Qed.
  Lemma attributes_g a : good_attributes okv a → flat_map g (attributes_text escape_attrib a) = attributes_text esc a.
  Proof.
    induction a as [|[k v] a IH]; intros [Hn Ha]; [done|].
    assert (Ha' : good_attributes okv a). { simpl in Hn. apply NoDup_cons in Hn as [_ Hn]. split; [done|]. intros k' v' H. apply Ha. by apply elem_of_list_further. }
    destruct (Ha k v (elem_of_list_here _ _)) as [Hk Hv].
    change (attributes_text ?e ((k, v) :: a)) with ((chars " " ++ chars k ++ chars "=" ++ [quote] ++ e v ++ [quote]) ++ attributes_text e a).
    rewrite !flat_map_app' (IH Ha') (name_markup _ Hk). rewrite (g_markup (chars " ")) // (g_markup (chars "=")) // (g_markup [quote]) //.
  Qed.
  Lemma serialize_shows e : well_named e → all_values (λ c, legal_char c = true) e →
    shows_all esc (λ v, v) okv (dissolve e) (flat_map g (serialize e)) ∧
    ∀ t a cs, e = Elem (Some t) a cs → shows esc (λ v, v) okv (Elem (Some t) a (flat_map dissolve cs)) (flat_map g (serialize e)).
  Proof.
    induction e as [t a cs IH] using xml_induction. unfold well_named, all_values. rewrite !every_children. intros [(Ht & Hn & Ha) HW] [Hv HV].
    assert (B : shows_all esc (λ v, v) okv (flat_map dissolve cs) (flat_map g (flat_map serialize cs))).
    { clear Ht Hn Ha Hv. induction cs as [|c cs IHcs]; simpl; [by constructor|]. rewrite flat_map_app'.
      apply Forall_cons in HW as [HW1 HW2]. apply Forall_cons in HV as [HV1 HV2]. apply Forall_cons in IH as [IH1 IH2].
      apply shows_all_app; [by apply IH1|by apply IHcs]. }
    assert (G : ∀ n, t = Some n → shows esc (λ v, v) okv (Elem (Some n) a (flat_map dissolve cs)) (flat_map g (serialize (Elem (Some n) a cs)))).
    { intros n ->. specialize (Ht n eq_refl). apply simple_name_good in Ht.
      assert (Hga : good_attributes okv a). { split; [done|]. intros k v Hkv. split; [by eapply simple_name_good, Ha|]. intros c Hc. by apply (Hv k v Hkv). }
      rewrite -{1}(read_back_id a). destruct cs as [|c cs].
      - change (serialize (Elem (Some n) a [])) with (chars "<" ++ chars n ++ attributes_text escape_attrib a ++ chars " />").
        rewrite !flat_map_app' (name_markup _ Ht) (attributes_g a Hga) (g_markup (chars "<")) // (g_markup (chars " />")) //.
        change (chars " />") with (chars " " ++ chars "/>"). by constructor.
      - change (serialize (Elem (Some n) a (c :: cs))) with
          (chars "<" ++ chars n ++ attributes_text escape_attrib a ++ chars ">" ++ flat_map serialize (c :: cs) ++ chars "</" ++ chars n ++ chars ">").
        set (body := flat_map serialize (c :: cs)) in *. clearbody body. rewrite !flat_map_app' (name_markup _ Ht) (attributes_g a Hga) (g_markup (chars "<")) // (g_markup (chars ">")) // (g_markup (chars "</")) //.
        by constructor. }
    split.
    - destruct t as [n|]; [|exact B]. apply shows_all_one. by apply G.
    - intros n a' cs' [= -> -> ->]. by apply G.
  Qed.
  Lemma serialize_document t a cs : let e := Elem (Some t) a cs in well_named e → all_values (λ c, legal_char c = true) e →
    read_document (flat_map g (serialize e)) = Some (Elem (Some t) a (flat_map dissolve cs)).
  Proof.
    intros e H1 H2. rewrite -(app_nil_r (flat_map g _)).
    apply (shows_document esc (λ v, v) okv); [|by apply (serialize_shows e H1 H2)|done]. intros v r Hv. by apply g_value.
  Qed.
End Serialized.
Lemma legal_of_xml e : all_values xml_char e → all_values (λ c, legal_char c = true) e.
Proof. apply every_impl. intros _ a H k v Hkv c Hc. apply xml_char_legal. by apply (H k v). Qed.

Lemma tree_write_read t a cs : let e := Elem (Some t) a cs in well_named e → all_values xml_char e →
  read_document (tree_write e) = Some (Elem (Some t) a (flat_map dissolve cs)).
Proof.
  intros e H1 H2. apply serialize_document; [|apply escape_ref_written|done|by apply legal_of_xml].
  intros c _ H. unfold charref. rewrite (proj2 (Nat.leb_gt 128 (code c))) //.
Qed.
Lemma serialize_read t a cs : let e := Elem (Some t) a cs in well_named e → all_values xml_char e →
  read_document (serialize e) = Some (Elem (Some t) a (flat_map dissolve cs)).
Proof.
  intros e H1 H2. rewrite -(flat_map_id (serialize e)). apply serialize_document; [done| |done|by apply legal_of_xml].
  intros c Hc. unfold written_as. rewrite flat_map_id. by apply escape_written.
Qed.
Lemma rough_written c : legal_char c = true → written_as (λ c, flat_map (λ c, if decide (c ≠ newline ∧ c ≠ tab) then [c] else []) (escape_char c)) c = true.
Proof.
  intros H. assert (G : implb (legal_char c) (written_as (λ c, flat_map (λ c, if decide (c ≠ newline ∧ c ≠ tab) then [c] else []) (escape_char c)) c) = true).
  { revert c H. intros c _. revert c. apply ascii_all. vm_compute. reflexivity. }
  rewrite H in G. exact G.
Qed.
Lemma rough_read t a cs : let e := Elem (Some t) a cs in well_named e → all_values xml_char e →
  read_document (rough e) = Some (Elem (Some t) a (flat_map dissolve cs)).
Proof.
  intros e H1 H2. unfold rough. rewrite filter_flat_map. apply serialize_document; [|apply rough_written|done|by apply legal_of_xml].
  intros c Hc _. destruct (decide _) as [|n]; [done|]. exfalso. apply n. split; intros ->; vm_compute in Hc; lia.
Qed.

(** ** The pretty form *)
Section Pretty.
  Local Notation val := (λ v, str (spaced (chars v))).
  Local Notation okv := (λ v, ∀ c, c ∈ chars v → xml_char c).
  Lemma data_value v r : okv v → read_value false None (write_data v ++ quote :: r) = Some (chars (val v), r).
  Proof. intros H. rewrite chars_str. apply (read_value_spaced (chars v) r H). Qed.
  Lemma pretty_shows e : well_named e → all_tagged e → all_values xml_char e → ∀ ind, all_space ind → shows_all write_data val okv [spaced_values e] (write_pretty ind e).
  Proof.
    induction e as [t a cs IH] using xml_induction. unfold well_named, all_values, all_tagged. rewrite !every_children. intros [(Ht & Hn & Ha) HW] [[n Et] HT] [Hv HV] ind Hi.
    subst t. specialize (Ht n eq_refl). apply simple_name_good in Ht.
    assert (Hga : good_attributes okv a). { split; [done|]. intros k v Hkv. split; [by eapply simple_name_good, Ha|]. intros c Hc. by apply (Hv k v Hkv). }
    assert (Ht' : all_space (ind ++ [tab])) by (unfold all_space in *; rewrite forallb_app Hi //).
    assert (B : shows_all write_data val okv (map spaced_values cs) (flat_map (write_pretty (ind ++ [tab])) cs)).
    { clear Hn Ha Hv Hga. induction cs as [|c cs IHcs]; simpl; [by constructor|].
      apply Forall_cons in HW as [HW1 HW2]. apply Forall_cons in HV as [HV1 HV2]. apply Forall_cons in IH as [IH1 IH2]. apply Forall_cons in HT as [HT1 HT2].
      apply (shows_all_app _ _ _ [_]); [by apply IH1|by apply IHcs]. }
    assert (N : shows_all write_data val okv [] [newline]) by by constructor.
    destruct cs as [|c cs].
    - change (write_pretty ind (Elem (Some n) a [])) with (ind ++ chars "<" ++ chars n ++ attributes_text write_data a ++ chars "/>" ++ [newline]).
      rewrite (_ : ind ++ _ = ind ++ (chars "<" ++ chars n ++ attributes_text write_data a ++ [] ++ chars "/>") ++ [newline]); [by rewrite -!app_assoc|].
      constructor; [done| |done]. by apply (shows_empty write_data val okv n a []).
    - change (write_pretty ind (Elem (Some n) a (c :: cs))) with
        (ind ++ chars "<" ++ chars n ++ attributes_text write_data a ++ chars ">" ++ [newline] ++ flat_map (write_pretty (ind ++ [tab])) (c :: cs) ++ ind ++ chars "</" ++ chars n ++ chars ">" ++ [newline]).
      set (body := flat_map (write_pretty (ind ++ [tab])) (c :: cs)) in *. clearbody body.
      rewrite (_ : ind ++ _ = ind ++ (chars "<" ++ chars n ++ attributes_text write_data a ++ chars ">" ++ (([newline] ++ body) ++ ind) ++ chars "</" ++ chars n ++ chars ">") ++ [newline]); [by rewrite -!app_assoc|].
      constructor; [done| |done]. apply (shows_full write_data val okv n a); [done|done|].
      rewrite -(app_nil_r (map _ (c :: cs))). apply shows_all_app; [|by constructor]. by apply shows_all_space.
  Qed.
  Lemma to_pretty_read e : well_named e → all_tagged e → all_values xml_char e → read_document (to_pretty e) = Some (spaced_values e).
  Proof.
    intros H1 H2 H3. unfold to_pretty. pose proof (pretty_shows e H1 H2 H3 [] eq_refl) as G.
    inversion G as [|w e' s es s' Hw He Hes]; subst. inversion Hes; subst.
    rewrite (app_assoc [newline] w). rewrite (app_assoc declaration) -(app_assoc declaration). apply (shows_document_decl write_data val okv); [|done| |done].
    - intros. by apply data_value.
    - unfold all_space in *. simpl. done.
  Qed.
End Pretty.

(** ** Characters that XML does not allow: the text cannot be read *)
Fixpoint legalb (e : xml) : bool :=
  match e with Elem _ a cs => forallb (λ kv : string * string, forallb legal_char (chars kv.2)) a && forallb legalb cs end.
Lemma legalb_spec e : legalb e = true ↔ all_values (λ c, legal_char c = true) e.
Proof.
  induction e as [t a cs IH] using xml_induction. unfold all_values. rewrite every_children. cbn [legalb]. rewrite andb_true_iff !forallb_forall. split; intros [H1 H2].
  - split.
    + intros k v Hkv c Hc. apply elem_of_list_In in Hkv. specialize (H1 _ Hkv). simpl in H1. rewrite forallb_forall in H1. by apply H1, elem_of_list_In.
    + apply Forall_forall. rewrite Forall_forall in IH. intros c Hc. apply IH; [done|]. by apply H2, elem_of_list_In.
  - split.
    + intros [k v] Hkv. apply elem_of_list_In in Hkv. simpl. apply forallb_forall. intros c Hc. apply (H1 k v Hkv). by apply elem_of_list_In.
    + rewrite !Forall_forall in IH H2. intros c Hc. apply elem_of_list_In in Hc. apply IH; [done|]. by apply H2.
Qed.
Lemma forallb_split {A} (f : A → bool) l : forallb f l = false → ∃ x, x ∈ l ∧ f x = false.
Proof.
  induction l as [|x l IH]; [done|]. simpl. destruct (f x) eqn:E; simpl.
  - intros H. destruct (IH H) as (y & Hy & Hf). exists y. split; [by apply elem_of_list_further|done].
  - intros _. exists x. split; [apply elem_of_list_here|done].
Qed.
Section Illegal.
  Context (g : ascii → text) (Hg : ∀ c, 32 ≤ code c → code c < 128 → g c = [c]).
  Context (Hw : ∀ c, legal_char c = true → written_as (λ c, flat_map g (escape_char c)) c = true).
  Context (Hb : ∀ c, legal_char c = false → flat_map g (escape_char c) = [c]).
  Local Notation esc := (λ v, flat_map g (escape_attrib v)).
  Local Notation okv := (λ v, ∀ c, c ∈ chars v → legal_char c = true).
  Lemma illegal_char cr c r : legal_char c = false → read_value cr None (c :: r) = None.
  Proof.
    intros H. assert (G : implb (negb (legal_char c)) (negb (Ascii.eqb c quote) && negb (Ascii.eqb c "&") && negb (Ascii.eqb c "<") && negb (Ascii.eqb c newline) && negb (is_space c)) = true)
      by (clear; revert c; apply ascii_all; vm_compute; reflexivity).
    rewrite H in G. cbn [negb implb] in G. repeat (apply andb_prop in G as [G ?]). repeat match goal with E : negb _ = true |- _ => apply negb_true_iff in E end.
    cbn [read_value]. repeat match goal with E : _ = false |- _ => rewrite E; clear E end. done.
  Qed.
  Lemma illegal_value v r : forallb legal_char (chars v) = false → read_value false None (esc v ++ quote :: r) = None.
  Proof.
    unfold escape_attrib. rewrite flat_map_flat_map. generalize (chars v). intros s. induction s as [|c s IH]; [done|]. cbn [forallb flat_map]. rewrite -app_assoc.
    destruct (legal_char c) eqn:E; cbn [andb].
    - intros H. rewrite (read_value_written (λ c, flat_map g (escape_char c))); [by apply Hw|]. rewrite IH //.
    - intros _. rewrite Hb //. by apply illegal_char.
  Qed.
  Lemma illegal_attributes a t fuel : (∀ k v, (k, v) ∈ a → good_name (chars k)) → forallb (λ kv : string * string, forallb legal_char (chars kv.2)) a = false →
    read_attributes fuel (attributes_text esc a ++ t) = None.
  Proof.
    revert fuel. induction a as [|[k v] a IH]; intros fuel Ha; [done|]. cbn [forallb snd]. destruct fuel as [|fuel]; [done|]. 
    destruct (Ha k v (elem_of_list_here _ _)) as [Hk1 Hk2].
    change (attributes_text esc ((k, v) :: a)) with ((chars " " ++ chars k ++ chars "=" ++ [quote] ++ esc v ++ [quote]) ++ attributes_text esc a).
    rewrite -!app_assoc. destruct (chars k) as [|c k'] eqn:Ek; [done|].
    assert (E : read_name ((c :: k') ++ chars "=" ++ [quote] ++ esc v ++ [quote] ++ attributes_text esc a ++ t) =
                (c :: k', (chars "=" ++ [quote]) ++ esc v ++ quote :: (attributes_text esc a ++ t))).
    { rewrite read_name_app; [done|done|]. done. }
    change (chars " " ++ (c :: k') ++ ?x) with (" "%char :: c :: (k' ++ x)). rewrite read_attributes_step //. cbn [app] in E. rewrite E. rewrite strip_app. cbn [option_bind mbind].
    destruct (forallb legal_char (chars v)) eqn:Ev; cbn [andb]; intros H.
    - rewrite (g_value g Hw v); [|by cbn [option_bind mbind]; rewrite IH //; intros k0 v0 Hkv; apply (Ha k0 v0); by apply elem_of_list_further].
      intros c0 Hc0. rewrite forallb_forall in Ev. by apply Ev, elem_of_list_In.
    - by rewrite illegal_value.
  Qed.
  Lemma attributes_g' a : (∀ k v, (k, v) ∈ a → good_name (chars k)) → flat_map g (attributes_text escape_attrib a) = attributes_text esc a.
  Proof.
    induction a as [|[k v] a IH]; intros Ha; [done|].
    pose proof (Ha k v (elem_of_list_here _ _)) as Hk.
    change (attributes_text ?e ((k, v) :: a)) with ((chars " " ++ chars k ++ chars "=" ++ [quote] ++ e v ++ [quote]) ++ attributes_text e a).
    rewrite !flat_map_app' IH; [intros k0 v0 Hkv; apply (Ha k0 v0); by apply elem_of_list_further|]. rewrite (name_markup g Hg _ Hk) (g_markup g Hg (chars " ")) // (g_markup g Hg (chars "=")) // (g_markup g Hg [quote]) //.
  Qed.
  (** the shape of the text of an element *)
  Lemma serialize_text n a cs : good_name (chars n) → (∀ k v, (k, v) ∈ a → good_name (chars k)) →
    flat_map g (serialize (Elem (Some n) a cs)) = chars "<" ++ chars n ++ attributes_text esc a ++
      match cs with [] => chars " />" | _ => chars ">" ++ flat_map g (flat_map serialize cs) ++ chars "</" ++ chars n ++ chars ">" end.
  Proof.
    intros Hn Ha. destruct cs as [|c cs].
    - change (serialize (Elem (Some n) a [])) with (chars "<" ++ chars n ++ attributes_text escape_attrib a ++ chars " />").
      rewrite !flat_map_app' (name_markup g Hg _ Hn) (attributes_g' a Ha) (g_markup g Hg (chars "<")) // (g_markup g Hg (chars " />")) //.
    - change (serialize (Elem (Some n) a (c :: cs))) with
        (chars "<" ++ chars n ++ attributes_text escape_attrib a ++ chars ">" ++ flat_map serialize (c :: cs) ++ chars "</" ++ chars n ++ chars ">").
      set (body := flat_map serialize (c :: cs)) in *. clearbody body. rewrite !flat_map_app' (name_markup g Hg _ Hn) (attributes_g' a Ha) (g_markup g Hg (chars "<")) // (g_markup g Hg (chars ">")) // (g_markup g Hg (chars "</")) //.
  Qed.
  Lemma dissolve_tagged e : all_tagged e → dissolve e = [e].
  Proof.
    induction e as [t a cs IH] using xml_induction. unfold all_tagged. rewrite every_children. intros [[n ->] HT]. simpl. do 2 f_equal.
    induction cs as [|c cs IHcs]; [done|]. apply Forall_cons in HT as [HT1 HT2]. apply Forall_cons in IH as [IH1 IH2]. simpl. rewrite IH1 // IHcs //.
  Qed.
  Lemma dissolve_all cs : Forall all_tagged cs → flat_map dissolve cs = cs.
  Proof. induction 1 as [|c cs H _ IH]; simpl; [done|]. rewrite dissolve_tagged // IH //. Qed.
  Lemma illegal_element e : well_named e → all_tagged e → legalb e = false → ∀ fuel r, length (flat_map g (serialize e)) ≤ fuel → read_element fuel (flat_map g (serialize e) ++ r) = None.
  Proof.
    induction e as [t a cs IH] using xml_induction. unfold well_named, all_tagged. rewrite !every_children. intros [(Ht & Hnd & Ha) HW] [[n ->] HT] Hl fuel r Hf.
    specialize (Ht n eq_refl). apply simple_name_good in Ht. assert (Ha' : ∀ k v, (k, v) ∈ a → good_name (chars k)) by (intros k v Hkv; by eapply simple_name_good, Ha).
    rewrite (serialize_text n a cs Ht Ha') in Hf |- *. destruct fuel as [|fuel]; [done|]. cbn [read_element]. rewrite -!app_assoc strip_app. cbn [option_bind mbind].
    destruct Ht as [Hn1 Hn2]. destruct (chars n) as [|c n'] eqn:En; [done|]. cbn [app]. rewrite Hn2.
    set (rest := match cs with [] => chars " />" | _ => _ end) in *.
    assert (Er : ∃ x, rest = chars " />" ∨ rest = chars ">" ++ x).
    { unfold rest. destruct cs as [|c1 cs]; [exists []; by left|]. eexists. right. reflexivity. }
    assert (E : read_name ((c :: n') ++ attributes_text esc a ++ rest ++ r) = (c :: n', attributes_text esc a ++ rest ++ r)).
    { apply read_name_app; [done|]. destruct a as [|[k v] a']; [|done]. destruct Er as [x [-> | ->]]; done. }
    cbn [app] in E. rewrite E. cbn [legalb] in Hl. destruct (forallb (λ kv : string * string, forallb legal_char (chars kv.2)) a) eqn:Eatt.
    2: { by rewrite (illegal_attributes a (rest ++ r) fuel Ha' Eatt). }
    cbn [andb] in Hl. destruct cs as [|c1 cs]; [done|]. set (cs' := c1 :: cs) in *. assert (E2 : rest = chars ">" ++ flat_map g (flat_map serialize cs') ++ chars "</" ++ (c :: n') ++ chars ">") by reflexivity.
    clearbody rest cs'. subst rest. rewrite !app_length in Hf.
    assert (Hga : good_attributes okv a).
    { split; [done|]. intros k v Hkv. split; [by eapply Ha'|]. intros c0 Hc0. rewrite forallb_forall in Eatt. apply elem_of_list_In in Hkv. specialize (Eatt _ Hkv). simpl in Eatt. rewrite forallb_forall in Eatt. by apply Eatt, elem_of_list_In. }
    pose proof (attributes_length esc a) as Hla. rewrite -!app_assoc.
    rewrite (attributes_read esc (λ v, v) okv (λ v r0 Hv, g_value g Hw v r0 Hv) a _ _ fuel Hga (tag_end_full _)); [simpl in Hf; lia|]. cbn [option_bind mbind].
    change (strip (chars "/>") (chars ">" ++ ?x)) with (@None (list ascii)). cbv iota. rewrite strip_app. cbn [option_bind mbind].
    match goal with |- context [read_elements fuel (?s ++ ?q)] => set (tl := q) end.
    assert (Hf' : length (flat_map g (flat_map serialize cs')) < fuel) by (simpl in Hf; lia).
    assert (G : read_elements fuel (flat_map g (flat_map serialize cs') ++ tl) = None); [|by rewrite G].
    clear Hf Hla. clearbody tl. clear E Er. revert fuel Hf'. induction cs' as [|d ds IHds]; [done|]. intros fuel Hf.
    cbn [flat_map] in Hf |- *. rewrite flat_map_app' in Hf |- *. rewrite app_length in Hf. rewrite -app_assoc.
    apply Forall_cons in HW as [HW1 HW2]. apply Forall_cons in HT as [HT1 HT2]. apply Forall_cons in IH as [IH1 IH2].
    destruct fuel as [|fuel]; [done|]. cbn [read_elements].
    assert (St : ∃ c0 r0, flat_map g (serialize d) = "<"%char :: c0 :: r0 ∧ name_start c0 = true).
    { destruct d as [td ad cd]. pose proof HW1 as HW0. pose proof HT1 as HT0. rewrite every_children in HW0. rewrite every_children in HT0. destruct HT0 as [[nd ->] _]. destruct HW0 as [(Htd & _ & Had) _].
      specialize (Htd nd eq_refl). apply simple_name_good in Htd. rewrite serialize_text; [done|intros k v Hkv; by eapply simple_name_good, Had|]. destruct Htd as [_ Hst]. destruct (chars nd) as [|c0 n0]; [done|].
      eexists c0, _. split; [reflexivity|done]. }
    destruct St as (c0 & r0 & Es & Hc0).
    assert (E1 : skip_space (flat_map g (serialize d) ++ flat_map g (flat_map serialize ds) ++ tl) = flat_map g (serialize d) ++ flat_map g (flat_map serialize ds) ++ tl) by (rewrite Es; reflexivity).
    rewrite E1. assert (E2 : strip (chars "</") (flat_map g (serialize d) ++ flat_map g (flat_map serialize ds) ++ tl) = None).
    { rewrite Es. apply strip_second. by intros <-. }
    rewrite E2. cbn [forallb] in Hl. destruct (legalb d) eqn:Ed; cbn [andb] in Hl.
    2: { rewrite IH1 //. rewrite Es in Hf |- *. simpl in Hf |- *. lia. }
    apply legalb_spec in Ed.
    assert (Sd : shows esc (λ v, v) okv d (flat_map g (serialize d))).
    { destruct d as [td ad cd]. pose proof HT1 as HT0. rewrite every_children in HT0. destruct HT0 as [[nd ->] HT0]. 
      pose proof (proj2 (serialize_shows g Hg _ HW1 Ed) nd ad cd eq_refl) as S0. rewrite dissolve_all in S0; done. }
    rewrite (proj1 (shows_read esc (λ v, v) okv (λ v r1 Hv, g_value g Hw v r1 Hv)) d _ Sd); [rewrite Es in Hf |- *; simpl in Hf |- *; lia|]. cbn [option_bind mbind].
    rewrite IHds //. rewrite Es in Hf. simpl in Hf. lia.
  Qed.
  Lemma illegal_document e : well_named e → all_tagged e → legalb e = false → read_document (flat_map g (serialize e)) = None.
  Proof.
    intros HW HT Hl. unfold read_document.
    assert (St : ∃ c0 r0, flat_map g (serialize e) = "<"%char :: c0 :: r0 ∧ name_start c0 = true).
    { destruct e as [td ad cd]. pose proof HW as HW0. pose proof HT as HT0. unfold well_named in HW0. unfold all_tagged in HT0. rewrite every_children in HW0. rewrite every_children in HT0. destruct HT0 as [[nd ->] _]. destruct HW0 as [(Htd & _ & Had) _].
      specialize (Htd nd eq_refl). apply simple_name_good in Htd. rewrite serialize_text; [done|intros k v Hkv; by eapply simple_name_good, Had|]. destruct Htd as [_ Hst]. destruct (chars nd) as [|c0 n0]; [done|].
      eexists c0, _. split; [reflexivity|done]. }
    destruct St as (c0 & r0 & Es & Hc0). assert (E : strip declaration (flat_map g (serialize e)) = None).
    { rewrite Es. apply strip_second. by intros <-. }
    rewrite E. cbn [default]. assert (E2 : skip_space (flat_map g (serialize e)) = flat_map g (serialize e)) by (rewrite Es; reflexivity). rewrite E2.
    pose proof (illegal_element e HW HT Hl (S (length (flat_map g (serialize e)))) [] ltac:(lia)) as G. rewrite app_nil_r in G. by rewrite G.
  Qed.
End Illegal.
Lemma xml_char_of_legal c : legal_char c = true → xml_char c.
Proof.
  unfold legal_char, xml_char, is_space. rewrite !orb_true_iff !Nat.eqb_eq Nat.leb_le. intros [H|[[[H|H]|H]|H]]; [by left|left; lia| | |]; right.
  - left. by apply code_inj.
  - right. left. by apply code_inj.
  - right. right. by apply code_inj.
Qed.
Lemma legalb_xml e : legalb e = true ↔ all_values xml_char e.
Proof.
  rewrite legalb_spec. split; [|apply legal_of_xml]. apply every_impl. intros _ a H k v Hkv c Hc. apply xml_char_of_legal. by apply (H k v).
Qed.
Definition in_markup_range (g : ascii → text) : bool := forallb (λ n, let c := ascii_of_nat n in implb ((32 <=? code c) && (code c <? 128)) (bool_decide (g c = [c]))) (seq 0 256).
Lemma rough_illegal e : well_named e → all_tagged e → ¬ all_values xml_char e → read_document (rough e) = None.
Proof.
  intros H1 H2 H3. unfold rough. rewrite filter_flat_map. apply illegal_document; [|apply rough_written| |done|done|].
  - intros c Hc _. destruct (decide _) as [|n]; [done|]. exfalso. apply n. split; intros ->; vm_compute in Hc; lia.
  - intros c Hc. assert (G : implb (negb (legal_char c)) (bool_decide (flat_map (λ c, if decide (c ≠ newline ∧ c ≠ tab) then [c] else []) (escape_char c) = [c])) = true)
      by (clear; revert c; apply ascii_all; vm_compute; reflexivity).
    rewrite Hc in G. by apply bool_decide_eq_true in G.
  - destruct (legalb e) eqn:E; [|done]. apply legalb_xml in E. done.
Qed.
Lemma tree_write_illegal e : well_named e → all_tagged e → ¬ all_values xml_char e → read_document (tree_write e) = None.
Proof.
  intros H1 H2 H3. apply illegal_document; [|apply escape_ref_written| |done|done|].
  - intros c _ H. unfold charref. rewrite (proj2 (Nat.leb_gt 128 (code c))) //.
  - intros c Hc. assert (G : implb (negb (legal_char c)) (bool_decide (flat_map charref (escape_char c) = [c])) = true)
      by (clear; revert c; apply ascii_all; vm_compute; reflexivity).
    rewrite Hc in G. by apply bool_decide_eq_true in G.
  - destruct (legalb e) eqn:E; [|done]. apply legalb_xml in E. done.
Qed.
