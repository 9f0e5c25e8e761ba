(** * Vocabulary for adjusting a network a second time *)
From Verif.Model Require Import OpenDrive.
From Verif.Spec Require Export SpecNetwork.

Section Again.
  Context {F : Type} `{!Num F}.

  (** every road of the network has been adjusted; no two share a planview *)
  Record adjusted_network (h : heap F) (d : ref) : Prop := {
    an_keys : NoDup (net_keys h d);
    an_distinct : ∀ k1 k2 o1 o2, road_named h d k1 = Some o1 → road_named h d k2 = Some o2 →
      rd_planview o1 = rd_planview o2 → k1 = k2;
    an_adjusted : ∀ k o, road_named h d k = Some o → pv_adjusted (view h o) = true
  }.

  (** every primitive of the network can be evaluated *)
  Definition evaluable_network (h : heap F) (d : ref) : Prop := ∀ k o, road_named h d k = Some o →
    (∀ g, g ∈ pv_raw (view h o) → evaluable (h_geom h !!! g)) ∧
    (pv_over (view h o) = [] ∨ length (pv_raw (view h o)) ≤ length (pv_over (view h o))).

  (** [appended h p p' e]: planview [p] became [p'] by laying out all its geometries once more, from pose [e] and from the
      distance reached so far; the new records follow the old ones *)
  Definition appended (h : heap F) (p p' : planview F) (e : F * F * F) : Prop :=
    pv_start p' = Some e ∧
    ∃ rs q, chain (λ g, h_geom h !!! g) (pv_over p) 0 e (pv_s p) (pv_raw p) rs q (pv_s p') ∧
      pv_geoms p' = pv_geoms p ++ rs ∧ pv_end p' = Some q.
End Again.
