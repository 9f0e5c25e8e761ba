(** * Python basics used by the model

    This file models no file of /repo: it fixes how the Python constructs that
    pyodrx uses are represented (exceptions as values, object references,
    [str], [dict], list indexing, truthiness). *)
From Coq Require Export ZArith NArith Ascii.
From stdpp Require Export base tactics option list numbers strings pretty gmap.
#[global] Open Scope string_scope.
#[global] Open Scope list_scope.

(** Exceptions that the modelled code can raise.  The last five user-defined ones are
    pyodrx/exceptions.py:1-24.  [OutOfFuel] and [DanglingRef] are not Python exceptions:
    the first is returned by a fuelled loop whose fuel is used up (theorems show
    it never is), the second by an API call on a reference that was never allocated
    (Python has no such references). *)
Inductive exn :=
| ValueError | TypeError | KeyError | IndexError | AttributeError | NameError
| UnboundLocalError | ZeroDivisionError
| NotSameAmountOfLanesError | NotEnoughInputArguments | ToManyOptionalArguments
| UndefinedRoadNetwork | RoadsAndLanesNotAdjusted
| OutOfFuel | DanglingRef.

#[global] Instance exn_eq_dec : EqDecision exn.
Proof. solve_decision. Defined.

Inductive res (A : Type) : Type :=
| Ok (a : A)
| Err (e : exn).
Arguments Ok {A} _.
Arguments Err {A} _.

Definition is_ok {A} (r : res A) : bool := match r with Ok _ => true | Err _ => false end.

(** A computation that may mutate the state [S] and may raise.  The state at the point of
    a raise is kept: Python does not roll back. *)
Definition M (S A : Type) : Type := S → res A * S.

Definition ret {S A} (a : A) : M S A := λ s, (Ok a, s).
Definition raise {S A} (e : exn) : M S A := λ s, (Err e, s).
Definition bind {S A B} (m : M S A) (k : A → M S B) : M S B :=
  λ s, match m s with
       | (Ok a, s') => k a s'
       | (Err e, s') => (Err e, s')
       end.
(** A pure computation that may raise. *)
Definition lift {S A} (r : res A) : M S A := λ s, (r, s).
Definition gets {S A} (f : S → A) : M S A := λ s, (Ok (f s), s).
Definition modify {S} (f : S → S) : M S unit := λ s, (Ok tt, f s).

Notation "'let!' x := m 'in' k" := (bind m (λ x, k))
  (at level 200, x pattern, m at level 100, k at level 200,
   format "'[v' 'let!'  x  :=  m  'in' '/' k ']'").
Notation "m ;; k" := (bind m (λ _ : unit, k)) (at level 100, k at level 200, right associativity).

Definition rbind {A B} (r : res A) (k : A → res B) : res B :=
  match r with Ok a => k a | Err e => Err e end.

(** [for x in l: f x] *)
Fixpoint for_each {S A} (f : A → M S unit) (l : list A) : M S unit :=
  match l with
  | [] => ret tt
  | x :: l' => f x ;; for_each f l'
  end.

(** [[f x for x in l]] for a function that may raise *)
Fixpoint map_res {A B} (f : A → res B) (l : list A) : res (list B) :=
  match l with
  | [] => Ok []
  | x :: l' => rbind (f x) (λ y, rbind (map_res f l') (λ ys, Ok (y :: ys)))
  end.

(** [f(None)] where [None] has no attribute / cannot be used as an operand *)
Definition or_raise {S A} (e : exn) (o : option A) : M S A :=
  match o with Some a => ret a | None => raise e end.

(** ** Object references: addresses in the typed stores of the heap. *)
Notation ref := nat (only parsing).

(** ** Identifiers: Python [int] or [str].  [1 == '1'] is [False] in Python, and so it is here. *)
Inductive pyid := PInt (z : Z) | PStr (s : string).
#[global] Instance pyid_eq_dec : EqDecision pyid.
Proof. solve_decision. Defined.
#[global] Instance pyid_inhabited : Inhabited pyid := populate (PInt 0).

(** [str(id)] *)
Definition pystr (i : pyid) : string :=
  match i with PInt z => pretty z | PStr s => s end.

(** [str(x)] of an optional identifier: [str(None) == 'None'] *)
Definition pystr_opt (o : option pyid) : string :=
  match o with Some i => pystr i | None => "None" end.

(** ** [dict] with string keys: insertion ordered, as Python guarantees *)
Definition dict (V : Type) := list (string * V).

Fixpoint dict_get {V} (d : dict V) (k : string) : option V :=
  match d with
  | [] => None
  | (k', v) :: d' => if String.eqb k k' then Some v else dict_get d' k
  end.

(** [d[k] = v]: an existing key keeps its position *)
Fixpoint dict_set {V} (d : dict V) (k : string) (v : V) : dict V :=
  match d with
  | [] => [(k, v)]
  | (k', v') :: d' => if String.eqb k k' then (k', v) :: d' else (k', v') :: dict_set d' k v
  end.

Definition dict_keys {V} (d : dict V) : list string := map fst d.

(** ** [l[i]] with Python's negative indices; [None] stands for IndexError *)
Definition py_index {A} (l : list A) (i : Z) : option A :=
  if (0 <=? i)%Z then l !! Z.to_nat i
  else if (- Z.of_nat (length l) <=? i)%Z then l !! Z.to_nat (Z.of_nat (length l) + i)
  else None.

(** [l[i]] where [i] may be [None] (TypeError) *)
Definition py_index_opt {S A} (l : list A) (i : option Z) : M S A :=
  match i with
  | None => raise TypeError
  | Some z => or_raise IndexError (py_index l z)
  end.

(** [itertools.combinations(l, 2)] *)
Fixpoint combinations2 {A} (l : list A) : list (A * A) :=
  match l with
  | [] => []
  | x :: l' => map (λ y, (x, y)) l' ++ combinations2 l'
  end.

(** ASCII part of [str.upper] (used for country codes) *)
Definition ascii_upper (c : Ascii.ascii) : Ascii.ascii :=
  let n := Ascii.nat_of_ascii c in
  if ((97 <=? n) && (n <=? 122))%nat then Ascii.ascii_of_nat (n - 32) else c.
Fixpoint str_upper (s : string) : string :=
  match s with
  | EmptyString => EmptyString
  | String c s' => String (ascii_upper c) (str_upper s')
  end.

(** [s.replace(a, b)] for single characters *)
Fixpoint str_replace (a b : Ascii.ascii) (s : string) : string :=
  match s with
  | EmptyString => EmptyString
  | String c s' => String (if Ascii.eqb c a then b else c) (str_replace a b s')
  end.
