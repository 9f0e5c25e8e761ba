(** * What the shell does with a command *)
From Coq Require Import ssreflect.
From Verif.Model Require Import Api Write.
Local Open Scope general_if_scope.
Local Open Scope string_scope.

(** the characters that mean nothing to the shell: letters, digits and - _ . / , : + @ % *)
Definition harmless (c : ascii) : bool := is_letter c || is_digit c || bool_decide (c ∈ chars "-_./,:+@%").
(** a command of harmless characters and spaces consists of the words between the spaces *)
Fixpoint words_from (w : list ascii) (s : list ascii) : list string :=
  let out := match w with [] => [] | _ => [str (rev w)] end in
  match s with
  | [] => out
  | c :: s => if Ascii.eqb c " " then (out ++ words_from [] s)%list else words_from (c :: w) s
  end.
(** [None]: the command has characters for which the shell's rules are not given here *)
Definition shell_words (cmd : string) : option (list string) :=
  if forallb (λ c, Ascii.eqb c " " || harmless c) (chars cmd) then Some (words_from [] (chars cmd)) else None.
(** the name [f] in the directory [p]; the current one if [p] is empty *)
Definition within (p f : string) : string :=
  match last (chars p) with None => f | Some c => if decide (c = "/"%char) then p ++ f else p ++ "/" ++ f end.
Definition harmless_name (p : string) : Prop := ∀ c, c ∈ chars p → harmless c = true.
(** the file that is given to the viewer, and the viewer: a relative path starts in the current directory *)
Definition road_file (esmini : string) : string := within esmini "resources/xodr/pythonroad.xodr".
Definition viewer (esmini : string) : string :=
  match head (chars esmini) with
  | Some c => if decide (c = "/"%char) then within esmini "bin/odrviewer" else "./" ++ within esmini "bin/odrviewer"
  | None => "./" ++ within esmini "bin/odrviewer"
  end.
