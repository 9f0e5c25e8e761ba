(** * Roads one after the other *)
From Verif.Model Require Import OpenDrive.
From Verif.Spec Require Export SpecNetwork SpecAgain SpecLanes.

Section RoadChain.
  Context {F : Type} `{!Num F}.
  Implicit Types (h : heap F) (o : road).

  (** a link to the road [o] of the network, at its end [cp] *)
  Definition links_to (L : option link) (o : road) (cp : ContactPoint) : Prop :=
    ∃ l, L = Some l ∧ lk_etype l = Some et_road ∧ lk_id l = rd_id o ∧ lk_contact l = Some cp.

  (** [road_chain h d ks]: the roads of the network are the ordinary roads [ks], in whatever order they were inserted; each
      is linked with the next one, end to start, without lane offset; the first and the last have no other links; and only
      the first one is placed without looking at a neighbour. *)
  Record road_chain (h : heap F) (d : ref) (ks : list string) : Prop := {
    rc_keys : net_keys h d ≡ₚ ks;
    rc_root : ∀ k, root h d k ↔ head ks = Some k;
    rc_road : ∀ k o, road_named h d k = Some o →
      rd_type o = (-1)%Z ∧ pystr (rd_id o) = k ∧ rd_off_pred o = 0%Z ∧ rd_off_suc o = 0%Z;
    rc_next : ∀ i k1 k2 o1 o2, ks !! i = Some k1 → ks !! S i = Some k2 → road_named h d k1 = Some o1 → road_named h d k2 = Some o2 →
      links_to (rd_succ o1) o2 cp_start ∧ links_to (rd_pred o2) o1 cp_end;
    rc_first : ∀ k o, head ks = Some k → road_named h d k = Some o → rd_pred o = None;
    rc_last : ∀ k o, last ks = Some k → road_named h d k = Some o → rd_succ o = None
  }.

  (** the lanes of the chain: every road has a lane section; the sections where roads touch exist, have the same lane counts
      [c], carry the right numbers, and no lane is in two of them (nor twice in one) *)
  Definition touching h (o : road) (s : ref) : Prop := first_section h o = Some s ∨ last_section h o = Some s.
  Record chain_lanes (h : heap F) (d : ref) (c : nat * nat) : Prop := {
    cl_some : ∀ k o, road_named h d k = Some o → sections h o ≠ [];
    cl_sec : ∀ k o s, road_named h d k = Some o → touching h o s →
      exists_in h_sec h s ∧ lane_counts h s = c ∧ numbered h s ∧ NoDup (side_lanes h s);
    cl_apart : ∀ k1 k2 o1 o2 s1 s2 l, road_named h d k1 = Some o1 → road_named h d k2 = Some o2 → touching h o1 s1 → touching h o2 s2 →
      l ∈ side_lanes h s1 → l ∈ side_lanes h s2 → k1 = k2 ∧ s1 = s2
  }.
End RoadChain.
