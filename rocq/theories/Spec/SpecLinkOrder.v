(** * Which roads a road names, and pairs of roads whose lane links do not depend on who is asked first *)
From Verif.Model Require Import OpenDrive.
From Verif.Spec Require Export SpecNetwork.

Section LinkOrder.
  Context {F : Type} `{!Num F}.
  Implicit Types (h : heap F) (o : road).

  (** [o] has a predecessor or successor link to the id of [o'] *)
  Definition names o o' : Prop := ∃ L, (rd_pred o = Some L ∨ rd_succ o = Some L) ∧ lk_id L = rd_id o'.
  (** [o'] comes after [o]: each has a road link to the other *)
  Definition before o o' : Prop := ∃ s p, rd_succ o = Some s ∧ rd_pred o' = Some p ∧
    lk_etype s = Some et_road ∧ lk_etype p = Some et_road ∧ lk_id s = rd_id o' ∧ lk_id p = rd_id o.
  Definition ordinary o : Prop := rd_type o = (-1)%Z.

  (** Two connecting roads do not name each other, and two ordinary roads do not form a ring. *)
  Definition plain_pair o o' : Prop :=
    (¬ ordinary o → ¬ ordinary o' → ¬ names o o' ∧ ¬ names o' o) ∧
    (ordinary o → ordinary o' → ¬ (before o o' ∧ before o' o)).
  Definition plain_pairs h (d : ref) : Prop := ∀ k k' o o', road_named h d k = Some o → road_named h d k' = Some o' → k ≠ k' → plain_pair o o'.

  (** the same lane, with the same links in some order *)
  Definition same_lane (l l' : lane F) : Prop := ln_links l ≡ₚ ln_links l' ∧ l <| ln_links := [] |> = l' <| ln_links := [] |>.
End LinkOrder.
