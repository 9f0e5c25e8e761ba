(** * C69: run_road *)
From Coq Require Import ssreflect.
From Verif.Model Require Import Api Write Run.
From Verif.Inst Require Import Quarter.
From Verif.Spec Require Import SpecState SpecHistory SpecLanes SpecXml SpecWrite SpecRun.
From Verif.Proof Require Import Monad DictFacts NetFrame Reach Steps History Invariants ReadXml WriteXml WriteNames.
From Verif.Properties Require Import PHistory PLaneLinks PXml PWrite.
Local Open Scope general_if_scope.
Local Open Scope nat_scope.

(** ** paths *)
Lemma chars_app a b : chars (a +:+ b) = chars a ++ chars b.
Proof. induction a as [|c a IH]; simpl; [done|]. by rewrite -IH. Qed.
Lemma last_slash a : ends_in_slash a = match last (chars a) with Some c => bool_decide (c = "/"%char) | None => false end.
Proof. unfold ends_in_slash. destruct (last _) as [c|]; [|done]. destruct (Ascii.eqb_spec c "/"); by case_bool_decide. Qed.
Lemma no_chars a : chars a = [] → a = "".
Proof. by destruct a. Qed.
Lemma chars_inj a b : chars a = chars b → a = b.
Proof. revert b. induction a as [|c a IH]; intros [|c' b]; simpl; try done. intros [= -> E]. f_equal. by apply IH. Qed.
Lemma last_none {A} (l : list A) : last l = None → l = [].
Proof. by destruct l as [|x l] using rev_ind; [|rewrite last_snoc]. Qed.
Lemma path_join_within a b : (∀ c, head (chars b) = Some c → c ≠ "/"%char) → path_join a b = within a b.
Proof.
  intros Hb. unfold path_join, within. rewrite last_slash.
  assert (E : (bool_decide (a = "") || match last (chars a) with Some c => bool_decide (c = "/"%char) | None => false end) =
    match last (chars a) with Some c => bool_decide (c = "/"%char) | None => true end).
  { destruct a as [|c a]; [done|]. rewrite bool_decide_eq_false_2 //. destruct (last _) eqn:E; [done|]. by apply last_none in E. }
  rewrite E. clear E. destruct (chars b) as [|c bs] eqn:Eb.
  - apply no_chars in Eb as ->. destruct (last (chars a)) as [x|] eqn:Ea; [by case_bool_decide; case_decide|]. apply last_none, no_chars in Ea as ->. done.
  - destruct (Ascii.eqb_spec c "/") as [->|_]; [by destruct (Hb "/"%char)|]. destruct (last (chars a)) as [x|] eqn:Ea; [by case_bool_decide; case_decide|].
    apply last_none, no_chars in Ea as ->. done.
Qed.
Lemma app_assoc_s a b c : (a +:+ b) +:+ c = a +:+ (b +:+ c).
Proof. apply chars_inj. rewrite !chars_app. by rewrite -app_assoc. Qed.
Lemma within_within p a b x l : chars a = l ++ [x] → x ≠ "/"%char → within (within p a) b = within p (a +:+ "/" +:+ b).
Proof.
  intros Ea Hx. unfold within at 1. 
  assert (El : last (chars (within p a)) = Some x).
  { unfold within. destruct (last (chars p)) as [c|]; [case_decide|]; rewrite ?chars_app Ea ?app_assoc last_snoc //. }
  rewrite El decide_False //. unfold within. destruct (last (chars p)) as [c|]; [case_decide|]; rewrite ?app_assoc_s //.
Qed.
(** ** words *)
Lemma words_word w a s : (∀ c, c ∈ a → c ≠ " "%char) → words_from w (a ++ s) = words_from (rev a ++ w) s.
Proof.
  revert w. induction a as [|c a IH]; intros w H; [done|]. simpl. destruct (Ascii.eqb_spec c " ") as [->|_]; [by destruct (H " "%char (elem_of_list_here _ _))|].
  rewrite IH; [by intros c' ?; apply H, elem_of_list_further|]. by rewrite -app_assoc.
Qed.
Definition unspaced (a : string) : Prop := a ≠ "" ∧ ∀ c, c ∈ chars a → c ≠ " "%char.
Lemma str_of_chars a : str (chars a) = a.
Proof. induction a as [|c a IH]; [done|]. unfold str, chars in *. simpl. by f_equal. Qed.
Lemma rev_not_nil (a : string) : a ≠ "" → ∃ c r, rev (chars a) = c :: r.
Proof. intros Ha. destruct (rev (chars a)) as [|c r] eqn:E; [|by eexists _, _]. apply (f_equal (@rev _)) in E. rewrite rev_involutive in E. by apply no_chars in E. Qed.
Lemma words_cons a b : unspaced a → words_from [] (chars (a +:+ " " +:+ b)) = a :: words_from [] (chars b).
Proof.
  intros [Ha Hs]. rewrite !chars_app words_word //. simpl. rewrite app_nil_r. destruct (rev_not_nil a Ha) as (c & r & E). rewrite E -E rev_involutive. simpl. by rewrite str_of_chars.
Qed.
Lemma words_one a : unspaced a → words_from [] (chars a) = [a].
Proof.
  intros [Ha Hs]. rewrite -{1}(app_nil_r (chars a)) words_word //. simpl. rewrite app_nil_r. destruct (rev_not_nil a Ha) as (c & r & E). rewrite E -E rev_involutive. by rewrite str_of_chars.
Qed.
Lemma words_no_space w s v : (∀ c, c ∈ w → c ≠ " "%char) → v ∈ words_from w s → ∀ c, c ∈ chars v → c ≠ " "%char.
Proof.
  assert (O : ∀ w : list ascii, (∀ c, c ∈ w → c ≠ " "%char) → v ∈ match w with [] => [] | _ => [str (rev w)] end → ∀ c, c ∈ chars v → c ≠ " "%char).
  { intros w' H Hv c. destruct w' as [|y w']; [by apply elem_of_nil in Hv|]. apply elem_of_list_singleton in Hv as ->. 
    unfold chars, str. rewrite String.list_ascii_of_string_of_list_ascii. intros Hc. apply H. apply elem_of_list_In. apply in_rev. by apply elem_of_list_In. }
  revert w. induction s as [|x s IH]; intros w H; simpl; [by apply O|]. destruct (Ascii.eqb_spec x " ") as [->|Hx].
  - rewrite elem_of_app. intros [Hv|Hv]; [by apply (O w)|]. apply (IH []); [by intros ? ?%elem_of_nil|done].
  - apply IH. intros c [->|Hc]%elem_of_cons; [done|by apply H].
Qed.
Lemma harmless_unspaced a : a ≠ "" → harmless_name a → unspaced a.
Proof. intros Ha H. split; [done|]. intros c Hc ->. specialize (H _ Hc). by vm_compute in H. Qed.
Lemma harmless_app a b : harmless_name a → harmless_name b → harmless_name (a +:+ b).
Proof. intros Ha Hb c. rewrite chars_app elem_of_app. intros [?|?]; [by apply Ha|by apply Hb]. Qed.
Lemma harmless_lit a : forallb harmless (chars a) = true → harmless_name a.
Proof. intros H c Hc. rewrite forallb_forall in H. apply H. by apply elem_of_list_In. Qed.
Lemma harmless_within p f : harmless_name p → harmless_name f → harmless_name (within p f).
Proof.
  intros Hp Hf. unfold within. destruct (last _) as [c|]; [case_decide|done]; [by apply harmless_app|]. apply harmless_app; [done|]. apply harmless_app; [|done].
  by apply harmless_lit.
Qed.
Lemma within_not_empty p f : f ≠ "" → within p f ≠ "".
Proof.
  intros Hf E. apply (f_equal chars) in E. revert E. unfold within. destruct (last _) as [c|]; [case_decide|]; rewrite ?chars_app; intros E.
  - apply app_eq_nil in E as [_ E]. by apply no_chars in E.
  - apply app_eq_nil in E as [_ E]. by apply app_eq_nil in E as [E _].
  - by apply no_chars in E.
Qed.
Lemma harmless_viewer p : harmless_name p → harmless_name (viewer p) ∧ viewer p ≠ "".
Proof.
  intros Hp. assert (W : harmless_name (within p "bin/odrviewer")) by (apply harmless_within; [done|by apply harmless_lit]).
  assert (W' : harmless_name ("./" +:+ within p "bin/odrviewer")) by (apply harmless_app; [by apply harmless_lit|done]).
  unfold viewer. destruct (head _) as [c|]; [case_decide|]; (split; [done|]); [by apply within_not_empty|done..].
Qed.
Lemma road_file_path p : path_joins p ["resources"; "xodr"; "pythonroad.xodr"] = road_file p.
Proof.
  unfold path_joins, road_file. simpl. rewrite !path_join_within; [by intros ? [= <-]..|].
  rewrite (within_within p "resources" "xodr" "s" (chars "resource")) //. by rewrite (within_within p _ _ "r" (chars "resources/xod")).
Qed.
Lemma viewer_path p : path_joins "." [p; "bin"; "odrviewer"] = viewer p.
Proof.
  unfold path_joins, viewer. simpl. rewrite (path_join_within _ "bin"); [by intros ? [= <-]|]. rewrite (path_join_within _ "odrviewer"); [by intros ? [= <-]|].
  assert (E : ∀ q, within (within q "bin") "odrviewer" = within q "bin/odrviewer") by (intros q; by rewrite (within_within q "bin" _ "n" (chars "bi"))).
  rewrite E. clear E. destruct p as [|c p]; [done|]. cbn [chars String.list_ascii_of_string head]. unfold path_join. cbn [chars String.list_ascii_of_string].
  destruct (Ascii.eqb_spec c "/") as [->|Hc]; [done|]. rewrite decide_False //. unfold within.
  cbn -[chars last]. assert (E : last (chars (String "." (String "/" (String c p)))) = last (chars (String c p))) by done. rewrite E.
  destruct (last (chars (String c p))) eqn:El; [case_decide; done|]. by apply last_none in El.
Qed.
Lemma command_words p x s : harmless_name p → x ≠ "" → harmless_name x → s = viewer p +:+ " --odr " +:+ road_file p +:+
    " --osi_features on --clear-color 0.2,0.2,0.2 --window 60 60 800 400 --density " +:+ x →
  shell_words s = Some [viewer p; "--odr"; road_file p; "--osi_features"; "on"; "--clear-color"; "0.2,0.2,0.2"; "--window"; "60"; "60"; "800"; "400"; "--density"; x].
Proof.
  intros Hp Hx Hx' ->. destruct (harmless_viewer p Hp) as [V1 V2]. assert (R1 : harmless_name (road_file p)) by (apply harmless_within; [done|by apply harmless_lit]).
  assert (R2 : road_file p ≠ "") by (by apply within_not_empty).
  unfold shell_words. rewrite (_ : forallb _ _ = true).
  - apply forallb_forall. intros c Hc%elem_of_list_In. rewrite !chars_app !elem_of_app in Hc. apply orb_true_iff.
    assert (L : ∀ a, forallb (λ c, Ascii.eqb c " " || harmless c) (chars a) = true → c ∈ chars a → Ascii.eqb c " " = true ∨ harmless c = true).
    { intros a Ha Hca. rewrite forallb_forall in Ha. apply orb_true_iff, Ha. by apply elem_of_list_In. }
    destruct Hc as [Hc|[Hc|[Hc|[Hc|Hc]]]]; [right; by apply V1|eapply L; [|exact Hc]; vm_compute; reflexivity|right; by apply R1|eapply L; [|exact Hc]; vm_compute; reflexivity|right; by apply Hx'].
  - f_equal. change (" --odr " +:+ ?y) with (" " +:+ "--odr" +:+ " " +:+ y). rewrite words_cons; [by apply harmless_unspaced|]. f_equal.
    assert (U : ∀ a, a ≠ "" → forallb harmless (chars a) = true → unspaced a) by (intros a ? ?; apply harmless_unspaced; [done|by apply harmless_lit]).
    rewrite words_cons; [by apply U|]. f_equal.
    change (" --osi_features on --clear-color 0.2,0.2,0.2 --window 60 60 800 400 --density " +:+ x) with
      (" " +:+ "--osi_features" +:+ " " +:+ "on" +:+ " " +:+ "--clear-color" +:+ " " +:+ "0.2,0.2,0.2" +:+ " " +:+ "--window" +:+ " " +:+ "60" +:+ " " +:+ "60" +:+ " " +:+ "800" +:+ " " +:+ "400" +:+ " " +:+ "--density" +:+ " " +:+ x).
    rewrite words_cons; [by apply harmless_unspaced|]. f_equal.
    do 10 (rewrite words_cons; [by apply U|]; f_equal). by apply words_one, harmless_unspaced.
Qed.

Section Run.
  Context {F : Type} `{!Num F}.
  Implicit Types (h : heap F).

  (** The directory is printed, the file is written, and then - in this order - the viewer is run on the file, which reads back as the network.
      This for paths and densities that the shell takes as they are. *)
  Theorem C69_runs date h d esmini density fs e : reachable h → exists_in h_odr h d → (∀ k r, (k, r) ∈ od_roads (h_odr h !!! d) → well_classed h r) →
    directed_links h d → odr_element date h d = Ok e → all_values plain_char e →
    harmless_name esmini → fstr density ≠ "" → harmless_name (fstr density) →
    ∃ fs' t cmd, run_road date h d esmini density fs = ([Printed (within esmini "resources/xodr"); Wrote fs'; Ran cmd], Returned) ∧
      dict_get fs' (road_file esmini) = Some t ∧ (∀ n, n ≠ road_file esmini → dict_get fs' n = dict_get fs n) ∧
      (read_document t ≫= read_network) = Some (network_content date h d) ∧
      shell_words cmd = Some [viewer esmini; "--odr"; road_file esmini; "--osi_features"; "on"; "--clear-color"; "0.2,0.2,0.2"; "--window"; "60"; "60"; "800"; "400"; "--density"; fstr density].
  Proof.
    intros Hr Hd Hw Hk He Hp Hs Hx Hx'. destruct (C53_file date h d (Some (road_file esmini)) true fs e Hr Hd Hw Hk He Hp) as (t & (fs' & Ew & G1 & G2) & Hread).
    exists fs', t. eexists. unfold run_road.
    change (path_join (path_joins esmini ["resources"; "xodr"]) "pythonroad.xodr") with (path_joins esmini ["resources"; "xodr"; "pythonroad.xodr"]). rewrite road_file_path Ew.
    split_and!; [|done|done|done|by apply (command_words esmini (fstr density))]. rewrite viewer_path. do 3 f_equal.
    unfold path_joins. simpl. rewrite !path_join_within; [by intros ? [= <-]..|]. by rewrite (within_within esmini "resources" "xodr" "s" (chars "resource")).
  Qed.
  (** if the file cannot be written, nothing is run and no file changes *)
  Theorem C69_not_run date h d esmini density fs e : reachable h → exists_in h_odr h d → directed_links h d → odr_element date h d = Ok e → ¬ all_values xml_char e →
    run_road date h d esmini density fs = ([Printed (within esmini "resources/xodr")], FailedExpatError).
  Proof.
    intros Hr Hd Hk He H. unfold run_road. rewrite (proj2 (C54_pretty date h d _ fs e Hr Hd Hk He) H). do 3 f_equal.
    unfold path_joins. simpl. rewrite !path_join_within; [by intros ? [= <-]..|]. by rewrite (within_within esmini "resources" "xodr" "s" (chars "resource")).
  Qed.
  (** the path is not quoted: if it has a space, the network is written and a command run, but the viewer at the path is not started and the file
      is not given to it *)
  Theorem C69_refuted_spaces date h d esmini density fs e : reachable h → exists_in h_odr h d → (∀ k r, (k, r) ∈ od_roads (h_odr h !!! d) → well_classed h r) →
    directed_links h d → odr_element date h d = Ok e → all_values plain_char e →
    (∀ c, c ∈ chars esmini → c = " "%char ∨ harmless c = true) → harmless_name (fstr density) → " "%char ∈ chars esmini →
    ∃ fs' cmd ws, run_road date h d esmini density fs = ([Printed (within esmini "resources/xodr"); Wrote fs'; Ran cmd], Returned) ∧
      shell_words cmd = Some ws ∧ road_file esmini ∉ ws ∧ viewer esmini ∉ ws.
  Proof.
    intros Hr Hd Hw Hk He Hp Hs Hx Hsp. destruct (C53_file date h d (Some (road_file esmini)) true fs e Hr Hd Hw Hk He Hp) as (t & (fs' & Ew & G1 & G2) & Hread).
    unfold run_road.
    change (path_join (path_joins esmini ["resources"; "xodr"]) "pythonroad.xodr") with (path_joins esmini ["resources"; "xodr"; "pythonroad.xodr"]). rewrite road_file_path Ew.
    assert (W : ∀ f, " "%char ∈ chars (within esmini f)).
    { intros f. unfold within. destruct (last _) as [c|] eqn:El; [case_decide; rewrite chars_app elem_of_app; tauto|]. apply last_none in El. rewrite El in Hsp. by apply elem_of_nil in Hsp. }
    assert (S : ∀ f, (∀ c, c ∈ chars f → c = " "%char ∨ harmless c = true) → ∀ c, c ∈ chars (within esmini f) → c = " "%char ∨ harmless c = true).
    { intros f Hf c. unfold within. destruct (last _) as [x|]; [case_decide|by apply Hf]; rewrite !chars_app !elem_of_app; [intros [?|?]; auto|].
      intros [?|[?|?]]; [by auto| |by auto]. right. by apply (harmless_lit "/"). }
    assert (L : ∀ a c, forallb (λ c, Ascii.eqb c " " || harmless c) (chars a) = true → c ∈ chars a → c = " "%char ∨ harmless c = true).
    { intros a c Ha Hca. rewrite forallb_forall in Ha. apply elem_of_list_In, Ha, orb_true_iff in Hca as [?|?]; [left|by right]. by apply Ascii.eqb_eq. }
    assert (H1 : ∀ c, c ∈ chars (road_file esmini) → c = " "%char ∨ harmless c = true) by (apply S; intros c; by apply L).
    assert (H2 : ∀ c, c ∈ chars (viewer esmini) → c = " "%char ∨ harmless c = true).
    { assert (V : ∀ c, c ∈ chars (within esmini "bin/odrviewer") → c = " "%char ∨ harmless c = true) by (apply S; intros c; by apply L).
      assert (V' : ∀ c, c ∈ chars ("./" +:+ within esmini "bin/odrviewer") → c = " "%char ∨ harmless c = true).
      { intros c. rewrite chars_app elem_of_app. intros [Hc|Hc]; [by apply (L "./")|by apply V]. }
      unfold viewer. destruct (head _) as [c|]; [case_decide|]; done. }
    assert (H3 : " "%char ∈ chars (viewer esmini)).
    { unfold viewer. destruct (head _) as [c|]; [case_decide|]; [apply W|rewrite chars_app elem_of_app; right; apply W..]. }
    set (cmd := viewer esmini +:+ " --odr " +:+ road_file esmini +:+ " --osi_features on --clear-color 0.2,0.2,0.2 --window 60 60 800 400 --density " +:+ fstr density).
    assert (N : ∀ v, " "%char ∈ chars v → v ∉ words_from [] (chars cmd)).
    { intros v Hv Hin. by apply (words_no_space [] _ v ltac:(by intros ? ?%elem_of_nil) Hin _ Hv). }
    exists fs', cmd, (words_from [] (chars cmd)). split_and!; [| |apply N; apply W|by apply N].
    - rewrite viewer_path. do 3 f_equal.
      unfold path_joins. simpl. rewrite !path_join_within; [by intros ? [= <-]..|]. by rewrite (within_within esmini "resources" "xodr" "s" (chars "resource")).
    - unfold shell_words. rewrite (_ : forallb _ _ = true) //. apply forallb_forall. intros c Hc%elem_of_list_In. subst cmd. rewrite !chars_app !elem_of_app in Hc.
      apply orb_true_iff. rewrite Ascii.eqb_eq.
      destruct Hc as [Hc|[Hc|[Hc|[Hc|Hc]]]]; [by apply H2|eapply L; [|exact Hc]; vm_compute; reflexivity|by apply H1|eapply L; [|exact Hc]; vm_compute; reflexivity|right; by apply Hx].
  Qed.
End Run.

Section Examples.
  Local Existing Instance QNum.
  (** the hypotheses of C69_runs are those of C53_example_hypotheses and these *)
  Example C69_example_paths : harmless_name "esmini" ∧ harmless_name "/opt/esmini-2.3/" ∧ fstr 15%Z ≠ "" ∧ harmless_name (fstr 15%Z) ∧
    (road_file "esmini", viewer "esmini") = ("esmini/resources/xodr/pythonroad.xodr", "./esmini/bin/odrviewer") ∧
    (road_file "/opt/esmini-2.3/", viewer "/opt/esmini-2.3/") = ("/opt/esmini-2.3/resources/xodr/pythonroad.xodr", "/opt/esmini-2.3/bin/odrviewer").
  Proof. split_and!; [by apply harmless_lit|by apply harmless_lit|vm_compute; discriminate|apply harmless_lit; vm_compute; reflexivity|vm_compute; reflexivity|vm_compute; reflexivity]. Qed.
  Example C69_example : let h := run heap_init (named_network "net") in
    match run_road "today" h 20 "esmini" 15%Z [("other", chars "x")] with
    | ([Printed p; Wrote [o; (n, t)]; Ran cmd], Returned) => p = "esmini/resources/xodr" ∧ o = ("other", chars "x") ∧ n = "esmini/resources/xodr/pythonroad.xodr" ∧
        (read_document t ≫= read_network) = Some (network_content "today" h 20) ∧
        cmd = "./esmini/bin/odrviewer --odr esmini/resources/xodr/pythonroad.xodr --osi_features on --clear-color 0.2,0.2,0.2 --window 60 60 800 400 --density 15"
    | _ => False end.
  Proof. vm_compute. split_and!; reflexivity. Qed.
  (** a path with a space: the shell looks for a program "./my" *)
  Example C69_space_example : let h := run heap_init (named_network "net") in
    match run_road "today" h 20 "my esmini" 15%Z [] with
    | ([Printed _; Wrote [(n, _)]; Ran cmd], Returned) => n = road_file "my esmini" ∧ (take 4 <$> shell_words cmd) = Some ["./my"; "esmini/bin/odrviewer"; "--odr"; "my"]
    | _ => False end.
  Proof. vm_compute. split_and!; reflexivity. Qed.
  (** a name with a control character *)
  Example C69_not_run_example : let h := run heap_init (named_network control_name) in run_road "today" h 20 "esmini" 15%Z [] = ([Printed "esmini/resources/xodr"], FailedExpatError).
  Proof. vm_compute. reflexivity. Qed.
End Examples.

Print Assumptions C69_runs.
Print Assumptions C69_not_run.
Print Assumptions C69_refuted_spaces.
