(** * What it means that a list of geometry records is a chain (for any arithmetic) *)
From Verif.Model Require Import Geometry.

Section Chain.
  Context {F : Type} `{!Num F}.
  Notation pose := (F * F * F)%type.

  (** [evolves g g']: primitive [g] becomes [g'] by being evaluated some number of times (evaluation fills the caches of
      Arc and ParamPoly3). *)
  Inductive evolves (g : geom F) : geom F → Prop :=
  | ev_refl : evolves g g
  | ev_end g' x y h : evolves g g' → evolves g (geom_end g' x y h).2
  | ev_start g' x y h : evolves g g' → evolves g (geom_start g' x y h).2.

  (** [g] (possibly after earlier evaluations) answers [get_end_data(p)] with end pose [q] and length [l] *)
  Definition reports_end (g : geom F) (p q : pose) (l : option F) : Prop :=
    ∃ g', evolves g g' ∧ (geom_end g' p.1.1 p.1.2 p.2).1 = Ok (q, l).

  (** [used g g']: the same with at least one evaluation *)
  Inductive used (g : geom F) : geom F → Prop :=
  | used_end g' x y h : evolves g g' → used g (geom_end g' x y h).2
  | used_start g' x y h : evolves g g' → used g (geom_start g' x y h).2.

  (** [g], having been evaluated at least once, answers ... *)
  Definition reports_end_again (g : geom F) (p q : pose) (l : option F) : Prop :=
    ∃ g', used g g' ∧ (geom_end g' p.1.1 p.1.2 p.2).1 = Ok (q, l).
  Definition reports_start_again (g : geom F) (p q : pose) (l : option F) : Prop :=
    ∃ g', used g g' ∧ (geom_start g' p.1.1 p.1.2 p.2).1 = Ok (q, l).

  (** evaluation never raises, whatever happened to the primitive before *)
  Definition placeable (g : geom F) : Prop :=
    ∀ g' x y h, evolves g g' →
      (∃ q l, (geom_end g' x y h).1 = Ok (q, Some l)) ∧ (∃ q l, (geom_start g' x y h).1 = Ok (q, Some l)).

  (** The primitives that can be evaluated: all lines; spirals whose length is known and not 0; arcs given a non-zero length or a non-zero
      angle; normalized ParamPoly3, or ParamPoly3 with a length.  (What is missing: Arc(length=0), Arc(angle=0),
      Spiral(angle=0), Spiral(cdot=0) and Spiral(length=0).) *)
  Definition evaluable (g : geom F) : Prop :=
    match g with
    | GLine _ => True
    | GSpiral _ _ length => ∃ l, length = Some l ∧ fiszero l = false
    | GArc _ length angle =>
      (∃ l, length = Some l ∧ fiszero l = false) ∨ (∃ a, angle = Some a ∧ fiszero a = false) ∨
      (∃ l a, length = Some l ∧ angle = Some a)
    | GPoly _ _ _ _ _ _ _ _ prange length => prange = "normalized" ∨ length ≠ None
    end.

  (** heading of the [i]-th record: the running heading, or the [i]-th override if there are overrides *)
  Definition heading_at (over : list F) (i : nat) (h : F) : option F :=
    match over with [] => Some h | _ => over !! i end.

  (** [chain geo over i p s gs rs q t]: the records [rs] describe the primitives [gs] in order, the first starts at pose
      [p] and distance [s] (heading overridden if asked for), each next one starts at the end pose reported by
      the primitive before it and at the distance increased by the reported length; the last one ends at pose
      [q] and distance [t]. *)
  Inductive chain (geo : ref → geom F) (over : list F) : nat → pose → F → list ref → list (pgeom F) → pose → F → Prop :=
  | chain_nil i p s : chain geo over i p s [] [] p s
  | chain_cons i x y h hd s g gs l0 q0 q l rs e t :
      heading_at over i h = Some hd →
      reports_end (geo g) (x, y, hd) q0 l0 →
      reports_end_again (geo g) (x, y, hd) q (Some l) →
      chain geo over (S i) q (fadd s l) gs rs e t →
      chain geo over i (x, y, h) s (g :: gs) (mkPgeom (Some s) x y hd g l0 :: rs) e t.

  (** the turned pose *)
  Definition turn (p : pose) : pose := (p.1, fadd p.2 fpi).

  (** [back_chain geo p gs rs ls q]: backwards from pose [p] (looking backwards): each record starts where the
      primitive, evaluated backwards from the pose reached so far, reports its start (turned again); [ls] are the reported lengths,
      and [q] is the last pose reached, still looking backwards.  The s values are not specified here. *)
  Inductive back_chain (geo : ref → geom F) : pose → list ref → list (pgeom F) → list F → pose → Prop :=
  | back_nil p : back_chain geo p [] [] [] p
  | back_cons p g gs q l r rs ls e :
      reports_start_again (geo g) p q (Some l) →
      pg_x r = q.1.1 → pg_y r = q.1.2 → pg_h r = fadd q.2 fpi → pg_geom r = g → pg_length r = Some l →
      back_chain geo q gs rs ls e →
      back_chain geo p (g :: gs) (r :: rs) (l :: ls) e.

  (** running sum, in the order of Python's repeated [+=] *)
  Definition sum_from (s : F) (ls : list F) : F := foldl fadd s ls.
End Chain.
