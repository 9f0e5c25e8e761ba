(** * pyodrx/helpers.py [printToFile] and pyodrx/opendrive.py [write_xml]: the text of the file

    The text of a file is the list of its characters (code points below 256: the strings of the model).
    The parts of Python's standard library that [printToFile] calls are modelled as of Python 3.11:
    [xml.etree.ElementTree.tostring] / [ElementTree.write], [xml.dom.minidom.parseString] and [toprettyxml]. *)
From Coq Require Import ssreflect.
From Verif.Model Require Export Xml.
Local Open Scope general_if_scope.
Local Open Scope nat_scope.

Notation text := (list ascii) (only parsing).
Definition chars (s : string) : text := String.list_ascii_of_string s.
Definition str (t : text) : string := String.string_of_list_ascii t.
Definition code (c : ascii) : nat := nat_of_ascii c.
Definition quote : ascii := ascii_of_nat 34.
Definition tab : ascii := ascii_of_nat 9.
Definition newline : ascii := ascii_of_nat 10.
Definition return_ : ascii := ascii_of_nat 13.

(** ** ElementTree.py: writing *)
(** [_escape_attrib]: the replacements of the seven characters, [&] first, act on each character separately *)
Definition escape_char (c : ascii) : text :=
  if Ascii.eqb c "&" then chars "&amp;"
  else if Ascii.eqb c "<" then chars "&lt;"
  else if Ascii.eqb c ">" then chars "&gt;"
  else if Ascii.eqb c quote then chars "&quot;"
  else if Ascii.eqb c return_ then chars "&#13;"
  else if Ascii.eqb c newline then chars "&#10;"
  else if Ascii.eqb c tab then chars "&#09;"
  else [c].
Definition escape_attrib (v : string) : text := flat_map escape_char (chars v).
(** [" %s=\"%s\"" % (k, v)] for every attribute *)
Definition attributes_text (esc : string → text) (a : dict string) : text :=
  flat_map (λ kv : string * string, chars " " ++ chars kv.1 ++ chars "=" ++ [quote] ++ esc kv.2 ++ [quote]) a.
(** [_serialize_xml]: no text, no namespaces (no tag or key has a brace or a colon); an element whose tag is None is left
    out, its children are written *)
Fixpoint serialize (e : xml) : text :=
  match e with
  | Elem None _ cs => flat_map serialize cs
  | Elem (Some tag) a cs =>
    chars "<" ++ chars tag ++ attributes_text escape_attrib a ++
    match cs with
    | [] => chars " />"
    | _ => chars ">" ++ flat_map serialize cs ++ chars "</" ++ chars tag ++ chars ">"
    end
  end.
(** [ElementTree.write] with the default encoding us-ascii and errors='xmlcharrefreplace'; no declaration is written *)
Definition charref (c : ascii) : text :=
  if 128 <=? code c then chars "&#" ++ chars (pretty (code c)) ++ chars ";" else [c].
Definition tree_write (e : xml) : text := flat_map charref (serialize e).

(** ** minidom.py: parsing
    [parseString] on documents of elements and attributes only.  Not accepted here although XML has it: text, comments,
    CDATA, processing instructions other than the declaration, document types, single quotes, spaces around "=".
    White space between elements is dropped (the real parser makes text nodes of it; [printToFile] parses a
    text without it). *)
Definition is_space (c : ascii) : bool := (code c =? 32) || (code c =? 9) || (code c =? 10) || (code c =? 13).
(** the characters XML 1.0 allows in a document *)
Definition legal_char (c : ascii) : bool := (32 <=? code c) || is_space c.
Definition is_letter (c : ascii) : bool := ((65 <=? code c) && (code c <=? 90)) || ((97 <=? code c) && (code c <=? 122)).
Definition is_digit (c : ascii) : bool := (48 <=? code c) && (code c <=? 57).
Definition name_start (c : ascii) : bool := is_letter c || (code c =? 95).
Definition name_char (c : ascii) : bool := name_start c || is_digit c || (code c =? 45) || (code c =? 46).

Fixpoint skip_space (s : text) : text :=
  match s with c :: r => if is_space c then skip_space r else s | [] => [] end.
(** the longest prefix of name characters and the rest *)
Fixpoint read_name (s : text) : text * text :=
  match s with
  | c :: r => if name_char c then let '(n, r') := read_name r in (c :: n, r') else ([], s)
  | [] => ([], [])
  end.
(** the rest after a given prefix *)
Fixpoint strip (p s : text) : option text :=
  match p, s with
  | [], _ => Some s
  | c :: p', d :: s' => if Ascii.eqb c d then strip p' s' else None
  | _ :: _, [] => None
  end.
Fixpoint decimal (acc : nat) (s : text) : option nat :=
  match s with
  | [] => Some acc
  | c :: r => if is_digit c then decimal (10 * acc + (code c - 48)) r else None
  end.
(** the character an entity or a decimal character reference stands for *)
Definition entity (e : text) : option ascii :=
  if decide (e = chars "amp") then Some "&"%char
  else if decide (e = chars "lt") then Some "<"%char
  else if decide (e = chars "gt") then Some ">"%char
  else if decide (e = chars "quot") then Some quote
  else if decide (e = chars "apos") then Some "'"%char
  else match strip (chars "#") e with
       | Some [] => None
       | Some ds => n ← decimal 0 ds; if n <? 256 then if legal_char (ascii_of_nat n) then Some (ascii_of_nat n) else None else None
       | None => None
       end.
(** An attribute value up to the closing quote.  White space that is not written as a character reference is read as a
    space, return and newline together as one.  [cr]: the character before was a return; [ent]: the part of an entity reference
    that was read. *)
Fixpoint read_value (cr : bool) (ent : option text) (s : text) : option (text * text) :=
  match s with
  | [] => None
  | c :: r =>
    match ent with
    | Some e =>
      if Ascii.eqb c ";" then ch ← entity e; '(v, r') ← read_value false None r; Some (ch :: v, r')
      else read_value false (Some (e ++ [c])) r
    | None =>
      if Ascii.eqb c quote then Some ([], r)
      else if Ascii.eqb c "&" then read_value false (Some []) r
      else if Ascii.eqb c "<" then None
      else if Ascii.eqb c newline && cr then read_value false None r
      else if is_space c then '(v, r') ← read_value (Ascii.eqb c return_) None r; Some (" "%char :: v, r')
      else if legal_char c then '(v, r') ← read_value false None r; Some (c :: v, r')
      else None
    end
  end.
(** the attributes of a start tag; no name may occur twice *)
Fixpoint read_attributes (fuel : nat) (s : text) : option (dict string * text) :=
  match fuel with
  | O => None
  | S fuel' =>
    match s with
    | c :: _ =>
      if is_space c then
        match skip_space s with
        | (c' :: _) as s' =>
          if name_start c' then
            let '(n, s1) := read_name s' in
            s2 ← strip (chars "=" ++ [quote]) s1;
            '(v, s3) ← read_value false None s2;
            '(a, s4) ← read_attributes fuel' s3;
            if bool_decide (str n ∈ map fst a) then None else Some ((str n, str v) :: a, s4)
          else Some ([], s')
        | [] => None
        end
      else Some ([], s)
    | [] => None
    end
  end.
(** an element, and the elements up to the next end tag *)
Fixpoint read_element (fuel : nat) (s : text) : option (xml * text) :=
  match fuel with
  | O => None
  | S fuel' =>
    s1 ← strip (chars "<") s;
    match s1 with
    | c :: _ =>
      if name_start c then
        let '(n, s2) := read_name s1 in
        '(a, s3) ← read_attributes fuel' s2;
        match strip (chars "/>") s3 with
        | Some s4 => Some (Elem (Some (str n)) a [], s4)
        | None =>
          s4 ← strip (chars ">") s3;
          '(cs, s5) ← read_elements fuel' s4;
          s6 ← strip (chars "</" ++ n) s5;
          s7 ← strip (chars ">") (skip_space s6);
          Some (Elem (Some (str n)) a cs, s7)
        end
      else None
    | [] => None
    end
  end
with read_elements (fuel : nat) (s : text) : option (list xml * text) :=
  match fuel with
  | O => None
  | S fuel' =>
    match strip (chars "</") (skip_space s) with
    | Some _ => Some ([], skip_space s)
    | None =>
      '(e, s1) ← read_element fuel' (skip_space s);
      '(es, s2) ← read_elements fuel' s1;
      Some (e :: es, s2)
    end
  end.
Definition declaration : text := chars "<?xml version=" ++ [quote] ++ chars "1.0" ++ [quote] ++ chars " ?>".
(** a document: an optional declaration, one element and white space *)
Definition read_document (s : text) : option xml :=
  let s' := default s (strip declaration s) in
  '(e, r) ← read_element (S (length s')) (skip_space s');
  match skip_space r with [] => Some e | _ => None end.

(** ** minidom.py: [toprettyxml(indent="\t")], with newl="\n" *)
(** [_write_data] *)
Definition write_data_char (c : ascii) : text :=
  if Ascii.eqb c "&" then chars "&amp;"
  else if Ascii.eqb c "<" then chars "&lt;"
  else if Ascii.eqb c quote then chars "&quot;"
  else if Ascii.eqb c ">" then chars "&gt;"
  else [c].
Definition write_data (v : string) : text := flat_map write_data_char (chars v).
(** [Element.writexml]; a parsed document has no element without tag *)
Fixpoint write_pretty (indent : text) (e : xml) : text :=
  match e with
  | Elem None _ _ => []
  | Elem (Some tag) a cs =>
    indent ++ chars "<" ++ chars tag ++ attributes_text write_data a ++
    match cs with
    | [] => chars "/>" ++ [newline]
    | _ => chars ">" ++ [newline] ++ flat_map (write_pretty (indent ++ [tab])) cs ++ indent ++ chars "</" ++ chars tag ++ chars ">" ++ [newline]
    end
  end.
(** [Document.writexml] *)
Definition to_pretty (e : xml) : text := declaration ++ [newline] ++ write_pretty [] e.

(** ** helpers.py and opendrive.py *)
(** helpers.py:68: the text that is parsed again, newlines and tabs removed *)
Definition rough (e : xml) : text := filter (λ c, c ≠ newline ∧ c ≠ tab) (serialize e).
(** helpers.py:42-52 [prettyprint]: the text that is printed ([None]: the parser raises ExpatError).  Here newlines and tabs are
    not removed first. *)
Definition prettyprint (e : xml) : option text := to_pretty <$> read_document (serialize e).
(** The files: names and texts *)
Definition files := list (string * text).
(** [open(filename,'w')] replaces a file of that name *)
Definition put_file (fs : files) (name : string) (t : text) : files := dict_set fs name t.
(** helpers.py:55-76 [printToFile]: the text is made before the file is opened when [prettyprint] is set; otherwise the writer
    writes into the opened file, but it does not fail on a tree of strings. *)
Definition print_to_file (e : xml) (filename : string) (pretty_ : bool) (fs : files) : option files :=
  if pretty_ then
    t ← read_document (rough e);
    Some (put_file fs filename (to_pretty t))
  else Some (put_file fs filename (tree_write e)).
(** What happened to the files: an exception leaves them as they are.  [ExpatError] is not one of the exceptions of the rest of the
    model. *)
Inductive write_result := Written (fs : files) | Raised (e : exn) | RaisedExpatError.

Section Write.
  Context {F : Type} `{!Num F}.
  (** opendrive.py:577-592 [OpenDrive.write_xml]; [date] is the time at which the header was made *)
  Definition write_xml (date : string) (h : heap F) (d : ref) (filename : option string) (pretty_ : bool) (fs : files) : write_result :=
    let name := default (od_name (h_odr h !!! d) +:+ ".xodr") filename in
    match odr_element date h d with
    | Err e => Raised e
    | Ok e => match print_to_file e name pretty_ fs with Some fs' => Written fs' | None => RaisedExpatError end
    end.
End Write.
