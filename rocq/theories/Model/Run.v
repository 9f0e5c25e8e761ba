(** * pyodrx/helpers.py [run_road]: writing the network where the viewer of esmini finds it, and starting the viewer *)
From Coq Require Import ssreflect.
From Verif.Model Require Export Write.
Local Open Scope general_if_scope.
Local Open Scope string_scope.

(** posixpath.py [join], for two paths; with more paths the result is joined with the next one.  Simplification: os.path is posixpath
    (os.name is 'posix'); the branch for 'nt' (helpers.py:24-25) is not modelled. *)
Definition ends_in_slash (a : string) : bool := match last (chars a) with Some c => Ascii.eqb c "/" | None => false end.
Definition path_join (a b : string) : string :=
  match chars b with
  | c :: _ => if Ascii.eqb c "/" then b else if bool_decide (a = "") || ends_in_slash a then a ++ b else a ++ "/" ++ b
  | [] => if bool_decide (a = "") || ends_in_slash a then a ++ b else a ++ "/" ++ b
  end.
Definition path_joins (a : string) (bs : list string) : string := foldl path_join a bs.

(** what [run_road] does to the world, in this order *)
Inductive event := Printed (line : string) | Wrote (fs : files) | Ran (command : string).
(** how it ends: it returns, or the writer raises *)
Inductive run_end := Returned | Failed (e : exn) | FailedExpatError.

Section Run.
  Context {F : Type} `{!Num F}.
  (** helpers.py:8-23 [run_road] with os.name = 'posix'.  [os.system] does not raise; its result is dropped.  [date] is the date of the header. *)
  Definition run_road (date : string) (h : heap F) (d : ref) (esminipath : string) (density : F) (fs : files) : list event * run_end :=
    let scenariopath := path_joins esminipath ["resources"; "xodr"] in
    match write_xml date h d (Some (path_join scenariopath "pythonroad.xodr")) true fs with
    | Raised e => ([Printed scenariopath], Failed e)
    | RaisedExpatError => ([Printed scenariopath], FailedExpatError)
    | Written fs' =>
      ([Printed scenariopath; Wrote fs';
        Ran (path_joins "." [esminipath; "bin"; "odrviewer"] ++ " --odr " ++ path_joins esminipath ["resources"; "xodr"; "pythonroad.xodr"] ++
             " --osi_features on --clear-color 0.2,0.2,0.2 --window 60 60 800 400 --density " ++ fstr density)], Returned)
    end.
End Run.
