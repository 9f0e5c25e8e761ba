(** * One call, one object
    Vocabulary for "the call creates this object and changes nothing else" and "the call changes this object and nothing else". *)
From Coq Require Import ssreflect.
From Verif.Model Require Import Api.
Local Open Scope general_if_scope.

Inductive kind := KGeometry | KPlanView | KLane | KSection | KLanes | KLinker | KConnection | KJunction | KObject | KRoad | KOpenDrive | KUsedIds.

Section Create.
  Context {F : Type} `{!Num F}.
  (** the objects of a kind are the same in both states *)
  Definition same (k : kind) (h h' : heap F) : Prop :=
    match k with
    | KGeometry => h_geom h' = h_geom h | KPlanView => h_pv h' = h_pv h | KLane => h_lane h' = h_lane h | KSection => h_sec h' = h_sec h
    | KLanes => h_lanes h' = h_lanes h | KLinker => h_linker h' = h_linker h | KConnection => h_conn h' = h_conn h | KJunction => h_junc h' = h_junc h
    | KObject => h_obj h' = h_obj h | KRoad => h_road h' = h_road h | KOpenDrive => h_odr h' = h_odr h | KUsedIds => h_ids h' = h_ids h
    end.
  (** the state differs in the objects of the kinds [ks] only *)
  Definition same_but (ks : list kind) (h h' : heap F) : Prop := ∀ k, k ∉ ks → same k h h'.
  (** [v] is put under [r], which was free / was in use; the other objects of the kind are as before *)
  Definition added {V} (f : heap F → gmap nat V) (h h' : heap F) (r : ref) (v : V) : Prop :=
    f h !! r = None ∧ f h' !! r = Some v ∧ ∀ x, x ≠ r → f h' !! x = f h !! x.
  Definition replaced {V} (f : heap F → gmap nat V) (h h' : heap F) (r : ref) (v : V) : Prop :=
    is_Some (f h !! r) ∧ f h' !! r = Some v ∧ ∀ x, x ≠ r → f h' !! x = f h !! x.
End Create.
