(** * What a file should give back *)
From Coq Require Import ssreflect.
From Verif.Model Require Import Api Write.
From Verif.Spec Require Import SpecState SpecHistory SpecLanes SpecXml.
Local Open Scope general_if_scope.

(** a property of all elements of a tree *)
Fixpoint every (P : option string → dict string → Prop) (e : xml) : Prop :=
  match e with Elem t a cs => P t a ∧ foldr (λ c, and (every P c)) True cs end.
(** every element has a tag *)
Definition all_tagged (e : xml) : Prop := every (λ t _, is_Some t) e.
(** the values of the attributes consist of characters satisfying [P] *)
Definition all_values (P : ascii → Prop) (e : xml) : Prop := every (λ _ a, ∀ k v, (k, v) ∈ a → ∀ c, c ∈ chars v → P c) e.
(** characters that may occur in an XML document: no control characters except tab, newline and return *)
Definition xml_char (c : ascii) : Prop := 32 ≤ code c ∨ c = tab ∨ c = newline ∨ c = return_.
(** no control characters at all *)
Definition plain_char (c : ascii) : Prop := 32 ≤ code c.
(** a name: a letter, followed by letters and digits *)
Definition simple_name (s : string) : Prop :=
  match chars s with [] => False | c :: r => is_letter c = true ∧ ∀ c', c' ∈ r → is_letter c' = true ∨ is_digit c' = true end.
(** tags and attribute names are names, and no element has two attributes of the same name *)
Definition well_named (e : xml) : Prop :=
  every (λ t a, (∀ n, t = Some n → simple_name n) ∧ NoDup (map fst a) ∧ ∀ k v, (k, v) ∈ a → simple_name k) e.

(** the tree without its untagged elements: their children take their places *)
Fixpoint dissolve (e : xml) : list xml :=
  match e with
  | Elem None _ cs => flat_map dissolve cs
  | Elem (Some t) a cs => [Elem (Some t) a (flat_map dissolve cs)]
  end.
(** tab, newline and return become a space, return and newline together one *)
Fixpoint spaced (s : list ascii) : list ascii :=
  match s with
  | [] => []
  | c :: r =>
    if decide (c = return_) then " "%char :: match r with d :: r' => if decide (d = newline) then spaced r' else spaced r | [] => [] end
    else if decide (c = newline ∨ c = tab) then " "%char :: spaced r
    else c :: spaced r
  end.
(** change every attribute value *)
Fixpoint map_values (f : string → string) (e : xml) : xml :=
  match e with Elem t a cs => Elem t (map (λ kv : string * string, (kv.1, f kv.2)) a) (map (map_values f) cs) end.
Definition spaced_values : xml → xml := map_values (λ v, str (spaced (chars v))).

(** the links of the lanes that are written lead to predecessors and successors *)
Definition lane_link (k : link) : Prop := lk_type k = Some "predecessor" ∨ lk_type k = Some "successor".
Definition directed_links {F} `{!Num F} (h : heap F) (d : ref) : Prop := ∀ l k, l ∈ network_lanes h d → k ∈ ln_links (h_lane h !!! l) → lane_link k.
(** the result of writing: the file [name] has the text [t], all other files are as before *)
Definition wrote (fs : files) (name : string) (t : list ascii) (r : write_result) : Prop :=
  ∃ fs', r = Written fs' ∧ dict_get fs' name = Some t ∧ ∀ n, n ≠ name → dict_get fs' n = dict_get fs n.
