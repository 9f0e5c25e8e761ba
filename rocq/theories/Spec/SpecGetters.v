(** * What the getters of a list of links should report *)
From Verif.Model Require Import Api.

(** [l] is the last link of kind [kind] in [ls] *)
Definition last_link (kind : string) (ls : list link) (l : link) : Prop :=
  lk_type l = Some kind ∧ ∃ before after, ls = before ++ [l] ++ after ∧ ∀ k, k ∈ after → lk_type k ≠ Some kind.
(** there is none *)
Definition no_link (kind : string) (ls : list link) : Prop := ∀ k, k ∈ ls → lk_type k ≠ Some kind.

(** the three getters for predecessors / successors report this id, element type and contact point *)
Definition reports_predecessor (ls : list link) (id : option pyid) (et : option ElementType) (cp : option ContactPoint) : Prop :=
  get_predecessor_id ls = id ∧ get_predecessor_type ls = et ∧ get_predecessor_contact_point ls = cp.
Definition reports_successor (ls : list link) (id : option pyid) (et : option ElementType) (cp : option ContactPoint) : Prop :=
  get_successor_id ls = id ∧ get_successor_type ls = et ∧ get_successor_contact_point ls = cp.
