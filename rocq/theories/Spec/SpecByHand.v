(** * Placing roads by hand: the calls a placement consists of *)
From Coq Require Import ssreflect.
From Verif.Model Require Import Api.
From Verif.Spec Require Import SpecNetwork.
Local Open Scope general_if_scope.

Section ByHand.
  Context {F : Type} `{!Num F}.
  Implicit Types (h : heap F).

  (** road [k] may be put at road [k2]: through its own predecessor or successor link to it, or because [k2] is a road of a junction that is linked to [k] *)
  Definition linked_to_place (o o2 : road) (k k2 : string) (cp : option ContactPoint) (kind : string) : Prop :=
    (∃ L, rd_pred o = Some L ∧ lk_etype L ≠ Some et_junction ∧ pystr (lk_id L) = k2 ∧ cp = lk_contact L ∧ kind = "predecessor") ∨
    (∃ L, rd_succ o = Some L ∧ lk_etype L ≠ Some et_junction ∧ pystr (lk_id L) = k2 ∧ cp = lk_contact L ∧ kind = "successor") ∨
    (∃ L, rd_type o2 ≠ (-1)%Z ∧ rd_succ o2 = Some L ∧ pystr (lk_id L) = k ∧ cp = Some cp_end ∧
      kind = if decide (lk_contact L = Some cp_start) then "predecessor" else "successor") ∨
    (∃ L, rd_type o2 ≠ (-1)%Z ∧ rd_pred o2 = Some L ∧ pystr (lk_id L) = k ∧ cp = Some cp_start ∧
      kind = if decide (lk_contact L = Some cp_start) then "predecessor" else "successor").

  (** a call that places one road of network [d], in the state [h] in which it is made: a root road where it is, or a road that is not
      placed yet at a road that is *)
  Definition placing_call h (d : ref) (c : op F) : Prop :=
    match c with
    | OpAdjustGeometries pv false => ∃ k o, root h d k ∧ road_named h d k = Some o ∧ pv = rd_planview o
    | OpAdjustRoadWrt d' k k2 cp kind => d' = d ∧ ∃ o o2, road_named h d (pystr k) = Some o ∧ road_named h d (pystr k2) = Some o2 ∧
        pv_adjusted (view h o) = false ∧ pv_adjusted (view h o2) = true ∧ linked_to_place o o2 (pystr k) (pystr k2) cp kind
    | _ => False
    end.
  (** a call that links the lanes of two roads of network [d] *)
  Definition linking_call h (d : ref) (c : op F) : Prop :=
    match c with
    | OpCreateLaneLinks r1 r2 => ∃ k1 k2, dict_get (od_roads (h_odr h !!! d)) k1 = Some r1 ∧ dict_get (od_roads (h_odr h !!! d)) k2 = Some r2
    | _ => False
    end.

  (** [performs P h cs r h']: a program makes the calls [cs] from [h], each of which is such that [P] in the state it is made in; all return,
      unless [r] is an exception, which is then raised by the last one; the state is then [h'] *)
  Inductive performs (P : heap F → op F → Prop) : heap F → list (op F) → option exn → heap F → Prop :=
  | pf_done h : performs P h [] None h
  | pf_raised c e h h' : P h c → step c h = (Err e, h') → performs P h [c] (Some e) h'
  | pf_call c cs r h h1 h' : P h c → step c h = (Ok RNone, h1) → performs P h1 cs r h' → performs P h (c :: cs) r h'.
End ByHand.
