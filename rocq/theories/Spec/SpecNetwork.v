(** * What it means that a road network is placed (for any arithmetic) *)
From Verif.Model Require Import OpenDrive.
From Verif.Spec Require Export SpecChain.

Section Network.
  Context {F : Type} `{!Num F}.
  Notation pose := (F * F * F)%type.

  (** the roads of an OpenDrive object: keys (the road ids as text) and the road of a key *)
  Definition net_keys (h : heap F) (d : ref) : list string := map fst (od_roads (h_odr h !!! d)).
  Definition road_named (h : heap F) (d : ref) (k : string) : option road :=
    (λ r, h_road h !!! r) <$> dict_get (od_roads (h_odr h !!! d)) k.
  (** the planview of a road *)
  Definition view (h : heap F) (o : road) : planview F := h_pv h !!! rd_planview o.

  (** no road has been adjusted, and no two roads share a planview *)
  Record fresh_network (h : heap F) (d : ref) : Prop := {
    fn_keys : NoDup (net_keys h d);
    fn_distinct : ∀ k1 k2 o1 o2, road_named h d k1 = Some o1 → road_named h d k2 = Some o2 →
      rd_planview o1 = rd_planview o2 → k1 = k2;
    fn_fresh : ∀ k o, road_named h d k = Some o →
      pv_adjusted (view h o) = false ∧ pv_geoms (view h o) = [] ∧ pv_s (view h o) = fofZ 0
  }.

  (** [put_forward h p p' q]: planview [p] (of state [h]) became [p'] by being laid out forwards from pose [q] *)
  Definition put_forward (h : heap F) (p p' : planview F) (q : pose) : Prop :=
    pv_adjusted p' = true ∧ pv_start p' = Some q ∧
    ∃ e, chain (λ g, h_geom h !!! g) (pv_over p) 0 q (fofZ 0) (pv_raw p) (pv_geoms p') e (pv_s p') ∧
         pv_end p' = Some e ∧ (pv_x p', pv_y p', pv_h p') = e.
  (** [put_backward h p p' q]: ... laid out backwards from [q], a pose that looks back along the road *)
  Definition put_backward (h : heap F) (p p' : planview F) (q : pose) : Prop :=
    pv_adjusted p' = true ∧ pv_end p' = Some (turn q) ∧
    ∃ rs ls e, back_chain (λ g, h_geom h !!! g) q (rev (pv_raw p)) rs ls e ∧
         map (λ r, r <| pg_s := None |>) (pv_geoms p') = map (λ r, r <| pg_s := None |>) rs ∧
         pv_s p' = sum_from (fofZ 0) ls ∧
         pv_start p' = Some (turn e) ∧ (pv_x p', pv_y p', pv_h p') = e.

  (** the pose a placed road offers at a contact point: its end pose, or its start pose looking backwards *)
  Definition offered (p : planview F) (cp : ContactPoint) : option pose :=
    match cp with cp_start => turn <$> pv_start p | cp_end => pv_end p end.

  (** [n] lanes (of the hard-coded width 3) to the left of a pose, seen along its heading *)
  Definition beside (n : Z) (q : pose) : pose :=
    (fadd (fmul (fmul (fofZ (- n)) (fofZ 3)) (fsin q.2)) q.1.1, fadd (fmul (fmul (fofZ n) (fofZ 3)) (fcos q.2)) q.1.2, q.2).

  (** A road placed at its end of a link: forwards from the offered pose if it is attached with its start, backwards if it is attached with its
      end; shifted sideways by its lane offset (to the left, resp. to the right, of the offered pose). *)
  Definition put_at (h : heap F) (o : road) (p' : planview F) (with_start : bool) (q : pose) : Prop :=
    if with_start then put_forward h (view h o) p' (beside (rd_off_pred o) q)
    else put_backward h (view h o) p' (beside (- rd_off_suc o) q).

  (** [attached h h' d k k2]: in the final state [h'], road [k] has been placed relative to road [k2]:
      through its own predecessor or successor link, or through the link of the connecting road [k2]. *)
  Inductive attached (h h' : heap F) (d : ref) (k k2 : string) : Prop :=
  | att_pred o o2 L cp q :
      road_named h d k = Some o → road_named h d k2 = Some o2 →
      rd_pred o = Some L → lk_etype L ≠ Some et_junction → pystr (lk_id L) = k2 → lk_contact L = Some cp →
      offered (view h' o2) cp = Some q → put_at h o (view h' o) true q →
      attached h h' d k k2
  | att_succ o o2 L cp q :
      road_named h d k = Some o → road_named h d k2 = Some o2 →
      rd_succ o = Some L → lk_etype L ≠ Some et_junction → pystr (lk_id L) = k2 → lk_contact L = Some cp →
      offered (view h' o2) cp = Some q → put_at h o (view h' o) false q →
      attached h h' d k k2
  | att_succ_of o o2 L q :
      road_named h d k = Some o → road_named h d k2 = Some o2 →
      rd_type o2 ≠ (-1)%Z → rd_succ o2 = Some L → pystr (lk_id L) = k →
      offered (view h' o2) cp_end = Some q → put_at h o (view h' o) (bool_decide (lk_contact L = Some cp_start)) q →
      attached h h' d k k2
  | att_pred_of o o2 L q :
      road_named h d k = Some o → road_named h d k2 = Some o2 →
      rd_type o2 ≠ (-1)%Z → rd_pred o2 = Some L → pystr (lk_id L) = k →
      offered (view h' o2) cp_start = Some q → put_at h o (view h' o) (bool_decide (lk_contact L = Some cp_start)) q →
      attached h h' d k k2.

  (** the roads placed without looking at a neighbour: the fixed ones, or the first one if none is fixed *)
  Definition fixed_road (h : heap F) (d : ref) (k : string) : Prop :=
    ∃ o, road_named h d k = Some o ∧ pv_fixed (view h o) = true.
  Definition root (h : heap F) (d : ref) (k : string) : Prop :=
    fixed_road h d k ∨ ((∀ k', ¬ fixed_road h d k') ∧ head (net_keys h d) = Some k).
  (** it stays where its planview started *)
  Definition root_placed (h h' : heap F) (d : ref) (k : string) : Prop :=
    root h d k ∧ ∃ o, road_named h d k = Some o ∧
      put_forward h (view h o) (view h' o) (pv_x (view h o), pv_y (view h o), pv_h (view h o)).

  (** [k] has an own link of type road (not junction) to road [k2] *)
  Definition road_link (h : heap F) (d : ref) (k k2 : string) : Prop :=
    ∃ o L, road_named h d k = Some o ∧ (rd_pred o = Some L ∨ rd_succ o = Some L) ∧
      lk_etype L ≠ Some et_junction ∧ pystr (lk_id L) = k2.
  Definition road_adjusted (h : heap F) (d : ref) (k : string) : Prop :=
    ∃ o, road_named h d k = Some o ∧ pv_adjusted (view h o) = true.

  (** every link names an existing road, with a contact point; every primitive can be evaluated *)
  Record well_linked (h : heap F) (d : ref) : Prop := {
    wl_target : ∀ k o L, road_named h d k = Some o → rd_pred o = Some L ∨ rd_succ o = Some L →
      is_Some (road_named h d (pystr (lk_id L))) ∧ lk_contact L ≠ None;
    wl_geoms : ∀ k o g, road_named h d k = Some o → g ∈ pv_raw (view h o) → evaluable (h_geom h !!! g);
    wl_over : ∀ k o, road_named h d k = Some o →
      pv_over (view h o) = [] ∨ length (pv_raw (view h o)) ≤ length (pv_over (view h o))
  }.

  (** the roads named by a connecting road (a road of a junction) are ordinary roads *)
  Definition connects_ordinary (h : heap F) (d : ref) : Prop := ∀ c oc L o,
    road_named h d c = Some oc → rd_type oc ≠ (-1)%Z → rd_pred oc = Some L ∨ rd_succ oc = Some L →
    road_named h d (pystr (lk_id L)) = Some o → rd_type o = (-1)%Z.
  (** some connecting road names road [k] *)
  Definition named_by_connecting (h : heap F) (d : ref) (k : string) : Prop := ∃ c oc L,
    road_named h d c = Some oc ∧ rd_type oc ≠ (-1)%Z ∧ (rd_pred oc = Some L ∨ rd_succ oc = Some L) ∧ pystr (lk_id L) = k.

  (** the roads that can be reached: the roots; a road with an own link of type road to a reached road; the roads named by
      a connecting road that is not itself a root and that has an own road link to a reached road *)
  Inductive anchored (h : heap F) (d : ref) : string → Prop :=
  | an_root k : root h d k → k ∈ net_keys h d → anchored h d k
  | an_link k k2 : road_link h d k k2 → anchored h d k2 → anchored h d k
  | an_conn k c k2 oc L : road_named h d c = Some oc → rd_type oc ≠ (-1)%Z → ¬ root h d c →
      road_link h d c k2 → anchored h d k2 →
      rd_pred oc = Some L ∨ rd_succ oc = Some L → pystr (lk_id L) = k → anchored h d k.
End Network.
