(** * States without dangling references *)
From Coq Require Import ssreflect.
From Verif.Model Require Import Api.
Local Open Scope general_if_scope.

Section State.
  Context {F : Type} `{!Num F}.

  (** object [r] of the kind stored in [f] exists *)
  Definition exists_in {V} (f : heap F → gmap nat V) (h : heap F) (r : ref) : Prop := is_Some (f h !! r).

  (** the objects that an object refers to exist *)
  Definition pv_refs_ok (h : heap F) (p : planview F) : Prop :=
    (∀ g, g ∈ pv_raw p → exists_in h_geom h g) ∧ (∀ g, g ∈ pv_geoms p → exists_in h_geom h (pg_geom g)).
  Definition sec_refs_ok (h : heap F) (s : lanesection F) : Prop :=
    exists_in h_lane h (ls_center s) ∧ (∀ l, l ∈ ls_left s ++ ls_right s → exists_in h_lane h l).
  Definition lanes_refs_ok (h : heap F) (ls : list ref) : Prop := ∀ s, s ∈ ls → exists_in h_sec h s.
  Definition linker_refs_ok (h : heap F) (k : list lanelink) : Prop :=
    ∀ ll, ll ∈ k → exists_in h_lane h (ll_pred ll) ∧ exists_in h_lane h (ll_succ ll).
  Definition junc_refs_ok (h : heap F) (j : junction) : Prop := ∀ c, c ∈ jn_conns j → exists_in h_conn h c.
  Definition road_refs_ok (h : heap F) (r : road) : Prop :=
    exists_in h_pv h (rd_planview r) ∧ exists_in h_lanes h (rd_lanes r) ∧
    (∀ o, o ∈ rd_objects r ++ rd_signals r → exists_in h_obj h o).
  Definition odr_refs_ok (h : heap F) (d : opendrive) : Prop :=
    (∀ k r, (k, r) ∈ od_roads d → exists_in h_road h r) ∧ (∀ j, j ∈ od_junctions d → exists_in h_junc h j).

  (** every stored object satisfies [P], and addresses that were not handed out yet are free *)
  Definition stored {V} (f : heap F → gmap nat V) (h : heap F) (P : V → Prop) : Prop :=
    ∀ r v, f h !! r = Some v → r < h_next h ∧ P v.

  Record no_dangling (h : heap F) : Prop := {
    nd_geom : stored h_geom h (λ _, True);
    nd_pv : stored h_pv h (pv_refs_ok h);
    nd_lane : stored h_lane h (λ _, True);
    nd_sec : stored h_sec h (sec_refs_ok h);
    nd_lanes : stored h_lanes h (lanes_refs_ok h);
    nd_linker : stored h_linker h (linker_refs_ok h);
    nd_conn : stored h_conn h (λ _, True);
    nd_junc : stored h_junc h (junc_refs_ok h);
    nd_obj : stored h_obj h (λ _, True);
    nd_road : stored h_road h (road_refs_ok h);
    nd_odr : stored h_odr h (odr_refs_ok h)
  }.
End State.
