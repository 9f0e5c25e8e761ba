(** * What a call works on, and schedules of two scripts *)
From Coq Require Import ssreflect.
From Verif.Model Require Import Api.
From Verif.Spec Require Import SpecNetwork SpecFrame.
Local Open Scope general_if_scope.

(** [s] runs the scripts [a] and [b], each in its own order, in any alternation *)
Inductive interleaving {A} : list A → list A → list A → Prop :=
| il_done : interleaving [] [] []
| il_first x a b s : interleaving a b s → interleaving (x :: a) b (x :: s)
| il_second x a b s : interleaving a b s → interleaving a (x :: b) (x :: s).

Section Local.
  Context {F : Type} `{!Num F}.
  Implicit Types (h : heap F).

  (** the calls that only change objects which exist: they construct nothing and give no ids *)
  Definition in_place (o : op F) : Prop :=
    match o with
    | OpGetEndData _ _ _ _ | OpGetStartData _ _ _ _ | OpAddGeometry _ _ _ | OpSetStartPoint _ _ _ _ | OpAdjustGeometries _ _
    | OpLaneAddLink _ _ _ | OpLaneAddRoadmark _ _ | OpAddLeftLane _ _ | OpAddRightLane _ _ | OpAddLaneSection _ _ _
    | OpLinkerAddLink _ _ _ _ | OpAddLanelink _ _ _ | OpAddConnection _ _ | OpCreateLaneLinks _ _
    | OpRepeat _ _ _ _ _ _ _ _ _ _ _ _ _ _ _ _ | OpAddSuccessor _ _ _ _ _ | OpAddPredecessor _ _ _ _ _ | OpAddNeighbor _ _ _ _
    | OpAddRoad _ _ | OpAddJunction _ _ | OpAdjustStartpoints _ | OpAdjustRoadsAndLanes _ | OpAdjustRoadWrt _ _ _ _ _ => True
    | _ => False
    end.

  (** [r] is a part of the road with id [k] of network [d] *)
  Definition named_part h (d : ref) (k : string) (r : ref) : Prop := ∃ x, (k, x) ∈ od_roads (h_odr h !!! d) ∧ road_part h x r.
  (** the objects such a call is about: those named, and the parts of the named planview, roads or network *)
  Definition works_on (o : op F) h (r : ref) : Prop :=
    match o with
    | OpGetEndData g _ _ _ | OpGetStartData g _ _ _ => r = g
    | OpAddGeometry pv g _ => r = pv ∨ r = g
    | OpSetStartPoint pv _ _ _ => r = pv
    | OpAdjustGeometries pv _ => r = pv ∨ r ∈ pv_raw (h_pv h !!! pv)
    | OpLaneAddLink l _ _ | OpLaneAddRoadmark l _ => r = l
    | OpAddLeftLane s l | OpAddRightLane s l => r = s ∨ r = l
    | OpAddLaneSection ls s ks => r = ls ∨ r = s ∨ r ∈ ks ∨ ∃ k, k ∈ ks ∧ lane_of_linker h k r
    | OpLinkerAddLink k p s _ => r = k ∨ r = p ∨ r = s
    | OpAddLanelink c _ _ => r = c
    | OpAddConnection j c => r = j ∨ r = c
    | OpCreateLaneLinks r1 r2 => road_part h r1 r ∨ road_part h r2 r
    | OpRepeat x _ _ _ _ _ _ _ _ _ _ _ _ _ _ _ => r = x
    | OpAddSuccessor x _ _ _ _ | OpAddPredecessor x _ _ _ _ | OpAddNeighbor x _ _ _ => r = x
    | OpAddRoad d x => r = d ∨ r = x
    | OpAddJunction d j => r = d ∨ r = j
    | OpAdjustStartpoints d | OpAdjustRoadsAndLanes d => network_part h d r
    | OpAdjustRoadWrt d k k2 _ _ => r = d ∨ named_part h d (pystr k) r ∨ named_part h d (pystr k2) r
    | _ => False
    end.

  (** every call of the script [ops], run on its own from [h], is in place and works on objects in [X] only *)
  Definition stays_in (X : ref → Prop) h (ops : list (op F)) : Prop :=
    ∀ pre o post, ops = pre ++ o :: post → in_place o ∧ ∀ r, works_on o (run h pre) r → X r.

  (** the existing objects that any call, constructing or not, is about *)
  Definition uses (o : op F) h (r : ref) : Prop :=
    match o with
    | OpLaneSection _ c => r = c
    | OpRoad _ pv ls _ _ _ => r = pv ∨ r = ls
    | OpAddObject x os | OpAddSignal x os => r = x ∨ r ∈ os
    | OpAddObjectRoadside x proto _ _ _ _ => road_part h x r ∨ r = proto
    | OpCreateRoad gs _ _ _ _ _ _ => r ∈ gs
    | OpCreateJunctionRoads rs _ _ _ _ _ _ => ∃ x, x ∈ rs ∧ road_part h x r
    | OpCreateJunction jrs _ rs => ∃ x, (x ∈ jrs ∨ x ∈ rs) ∧ road_part h x r
    | _ => works_on o h r
    end.
  (** every call of the script [ops], run on its own from [h], works on objects in [X] only *)
  Definition works_in (X : ref → Prop) h (ops : list (op F)) : Prop :=
    ∀ pre o post, ops = pre ++ o :: post → ∀ r, uses o (run h pre) r → X r.

  (** the calls of a script with what each of them returned or raised *)
  Fixpoint trace h (ops : list (op F)) : list (op F * res (retval F)) :=
    match ops with
    | [] => []
    | o :: ops' => (o, (step o h).1) :: trace (step o h).2 ops'
    end.
End Local.
