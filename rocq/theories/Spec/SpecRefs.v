(** * References between the elements of a written file (for C71)

    The first part knows nothing about the library: it says when a document of the OpenDRIVE format has no reference to an element that is not in it.
    The second part says the same about the objects of a network. *)
From Coq Require Import ssreflect.
From Verif.Model Require Import Api Xml.
From Verif.Spec Require Export SpecXml.
Local Open Scope general_if_scope.

(** the children with a tag; the value of an attribute; is there an element with this id *)
Definition parts (tag : string) (e : xml) : list xml := filter (λ c, xtag c = Some tag) (xchildren e).
Definition attr (e : xml) (k : string) : option string := dict_get (xattrs e) k.
Definition named (es : list xml) (id : string) : Prop := ∃ x, x ∈ es ∧ attr x "id" = Some id.
Record closed (doc : xml) : Prop := {
  (* the links of roads *)
  cl_road : ∀ r l k id, r ∈ parts "road" doc → l ∈ parts "link" r → k ∈ xchildren l →
    attr k "elementType" = Some "road" → attr k "elementId" = Some id → named (parts "road" doc) id;
  cl_junction : ∀ r l k id, r ∈ parts "road" doc → l ∈ parts "link" r → k ∈ xchildren l →
    attr k "elementType" = Some "junction" → attr k "elementId" = Some id → named (parts "junction" doc) id;
  (* the junction a road belongs to *)
  cl_belongs : ∀ r id, r ∈ parts "road" doc → attr r "junction" = Some id → id ≠ "-1" → named (parts "junction" doc) id;
  (* the connections of junctions; the connecting road belongs to the junction *)
  cl_incoming : ∀ j c id, j ∈ parts "junction" doc → c ∈ parts "connection" j → attr c "incomingRoad" = Some id → named (parts "road" doc) id;
  cl_connecting : ∀ j c id, j ∈ parts "junction" doc → c ∈ parts "connection" j → attr c "connectingRoad" = Some id →
    ∃ r, r ∈ parts "road" doc ∧ attr r "id" = Some id ∧ attr r "junction" = attr j "id" }.

Section Refs.
  Context {F : Type} `{!Num F}.
  Implicit Types (h : heap F).
  (** a road or a junction of the network with this id (ids are compared as they are written) *)
  Definition has_road h (d : ref) (id : string) : Prop := ∃ k r, (k, r) ∈ od_roads (h_odr h !!! d) ∧ pystr (rd_id (h_road h !!! r)) = id.
  Definition has_junction h (d : ref) (id : string) : Prop := ∃ j, j ∈ od_junctions (h_odr h !!! d) ∧ pystr (jn_id (h_junc h !!! j)) = id.
  Record network_closed h (d : ref) : Prop := {
    nc_links : ∀ k r l, (k, r) ∈ od_roads (h_odr h !!! d) → l ∈ rd_links (h_road h !!! r) →
      match lk_etype l with
      | Some et_road => has_road h d (pystr (lk_id l))
      | Some et_junction => has_junction h d (pystr (lk_id l))
      | None => True
      end;
    nc_belongs : ∀ k r, (k, r) ∈ od_roads (h_odr h !!! d) → rd_type (h_road h !!! r) ≠ (-1)%Z → has_junction h d (pretty (rd_type (h_road h !!! r)));
    nc_incoming : ∀ j c, j ∈ od_junctions (h_odr h !!! d) → c ∈ jn_conns (h_junc h !!! j) → has_road h d (pystr (cn_incoming (h_conn h !!! c)));
    nc_connecting : ∀ j c, j ∈ od_junctions (h_odr h !!! d) → c ∈ jn_conns (h_junc h !!! j) →
      ∃ k r, (k, r) ∈ od_roads (h_odr h !!! d) ∧ pystr (rd_id (h_road h !!! r)) = pystr (cn_connecting (h_conn h !!! c)) ∧
        pretty (rd_type (h_road h !!! r)) = pystr (jn_id (h_junc h !!! j)) }.
End Refs.
