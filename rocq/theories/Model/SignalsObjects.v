(** * pyodrx/signals_objects.py *)
From Verif.Model Require Export Heap.

(** [str(x)] of a value that may be None and is otherwise a str *)
Definition str_opt (o : option string) : string := default "None" o.

Section SignalsObjects.
  Context {F : Type} `{!Num F}.

  (** signals_objects.py:189-245 [Signal.__init__] (and the base 56-100).  [self.type] equals [self.Type].
      [Type] of a Signal is an ObjectType or a string. *)
  Definition signal_ctor (s t : F) (country : string) (Type_ : ObjectType + string) (subtype : option string)
    (id : option pyid) (name : option string) (dynamic : Dynamic) (value : option F) (unit_ : option string)
    (zOffset : F) (orientation : Orientation) (hOffset pitch roll : F) (height width : option F) : sobj F :=
    mkSobj CSignal s t id Type_ subtype dynamic name zOffset orientation pitch roll width height
      country value unit_ hOffset None None (fofZ 0) None [].

  (** signals_objects.py:362-427 [Object.__init__] (and the base 56-100) *)
  Definition object_ctor (s t : F) (Type_ : ObjectType + string) (subtype : option string)
    (id : option pyid) (name : option string) (dynamic : Dynamic) (zOffset : F) (orientation : Orientation)
    (hdg pitch roll : F) (width length height radius validLength : option F) : sobj F :=
    let '(width', length') :=
      match radius, width, length with
      | Some _, Some _, _ => (None, None)
      | Some _, _, Some _ => (None, None)
      | _, Some w, None => (Some w, Some (fofZ 0))
      | _, None, Some l => (Some (fofZ 0), Some l)
      | _, w, l => (w, l)
      end in
    mkSobj CObject s t id Type_ subtype dynamic name zOffset orientation pitch roll width' height
      "" None None (fofZ 0) validLength length' hdg radius [].

  (** One optional key of a dict *)
  Definition opt_attr (k : string) (o : option string) : dict string :=
    match o with Some v => [(k, v)] | None => [] end.

  (** signals_objects.py:429-491 [Object.repeat]; the keys are inserted in this order and are distinct *)
  Definition repeat_entry (o : sobj F) (len dist : F)
    (sStart tStart tEnd heightStart heightEnd zStart zEnd wStart wEnd lStart lEnd rStart rEnd : option F)
    : dict string :=
    let height_of (h : option F) := match h, so_height o with
                                    | None, Some x => fstr x
                                    | _, _ => fstr_opt h
                                    end in
    [("length", fstr len); ("distance", fstr dist);
     ("s", fstr (default (so_s o) sStart));
     ("tStart", fstr (default (so_t o) tStart));
     ("tEnd", fstr (default (so_t o) tEnd));
     ("heightStart", height_of heightStart);
     ("heightEnd", height_of heightEnd);
     ("zOffsetStart", fstr (default (so_zoffset o) zStart));
     ("zOffsetEnd", fstr (default (so_zoffset o) zEnd))]
    ++ opt_attr "widthStart" (fstr <$> wStart) ++ opt_attr "widthEnd" (fstr <$> wEnd)
    ++ opt_attr "lengthStart" (fstr <$> lStart) ++ opt_attr "lengthEnd" (fstr <$> lEnd)
    ++ opt_attr "radiusStart" (fstr <$> rStart) ++ opt_attr "radiusEnd" (fstr <$> rEnd).

  (** signals_objects.py:429-491 *)
  Definition object_repeat (r : ref) (len dist : F)
    (sStart tStart tEnd heightStart heightEnd zStart zEnd wStart wEnd lStart lEnd rStart rEnd : option F) : H (F:=F) unit :=
    upd_obj r (λ o, o <| so_repeats := so_repeats o ++
      [repeat_entry o len dist sStart tStart tEnd heightStart heightEnd zStart zEnd wStart wEnd lStart lEnd rStart rEnd] |>).

  (** signals_objects.py:114-115: the search loop for a free automatic id, fuelled *)
  Fixpoint free_id (fuel : nat) (used : list string) (n : N) : option N :=
    match fuel with
    | O => None
    | S fuel' => if bool_decide (pretty n ∈ used) then free_id fuel' used (n + 1)%N else Some n
    end.

  (** signals_objects.py:102-118 [_update_id].  The fuel is one more than the number of used ids. *)
  Definition update_id (r : ref) : H (F:=F) unit :=
    let! o := get_obj r in
    let cls := sclass_name (so_class o) in
    (* 104-110: create the table entries on KeyError *)
    modify (λ h, match h_ids h !! cls with
                 | Some _ => h
                 | None => h <| h_ids := <[cls := ([], 0%N)]> (h_ids h) |>
                 end) ;;
    let! t := gets (λ h, default ([], 0%N) (h_ids h !! cls)) in
    let '(used, counter) := t in
    (if bool_decide (so_id o = None) || bool_decide (pystr_opt (so_id o) ∈ used) then
       let! n := or_raise OutOfFuel (free_id (S (length used)) used counter) in
       modify (λ h, h <| h_ids := <[cls := (used, n)]> (h_ids h) |>) ;;
       upd_obj r (λ o, o <| so_id := Some (PStr (pretty n)) |>)
     else ret tt) ;;
    let! o := get_obj r in
    modify (λ h, h <| h_ids := alter (λ t, (t.1 ++ [pystr_opt (so_id o)], t.2)) cls (h_ids h) |>).

  (** signals_objects.py:122-154 [get_common_attributes] *)
  Definition common_attributes (o : sobj F) : dict string :=
    [("id", pystr_opt (so_id o)); ("s", fstr (so_s o)); ("t", fstr (so_t o));
     ("subtype", str_opt (so_subtype o)); ("dynamic", enum2str (Dynamic_name (so_dynamic o)));
     ("zOffset", fstr (so_zoffset o))]
    ++ (if ftruthy (so_pitch o) then [("pitch", fstr (so_pitch o))] else [])
    ++ (if ftruthy (so_roll o) then [("roll", fstr (so_roll o))] else [])
    ++ opt_attr "width" (fstr <$> so_width o)
    ++ opt_attr "height" (fstr <$> so_height o)
    ++ opt_attr "name" (so_name o)
    ++ [("type", match so_type o with inl t => enum2str (ObjectType_name t) | inr s => s end);
        ("orientation", match so_orientation o with
                        | or_positive => "+"
                        | or_negative => "-"
                        | or_none => enum2str (Orientation_name or_none)
                        end)].

  (** signals_objects.py:249-260 [Signal.get_attributes]; [str(enum)] is 'ObjectType.name'.
      Keys 'type' and 'subtype' already exist and keep their position. *)
  Definition signal_attributes (o : sobj F) : dict string :=
    let d := common_attributes o in
    let d := dict_set d "country" (str_upper (so_country o)) in
    let d := dict_set d "type" (match so_type o with
                                | inl t => "ObjectType." +:+ ObjectType_name t
                                | inr s => s
                                end) in
    let d := dict_set d "subtype" (str_opt (so_subtype o)) in
    let d := if ftruthy (so_hoffset o) then dict_set d "hOffset" (fstr (so_hoffset o)) else d in
    match so_value o with
    | Some v => dict_set (dict_set d "value" (fstr v)) "unit" (str_opt (so_unit o))
    | None => d
    end.

  (** signals_objects.py:493-508 [Object.get_attributes] *)
  Definition object_attributes (o : sobj F) : dict string :=
    let d := common_attributes o in
    let d := match so_validLength o with Some v => dict_set d "validLength" (fstr v) | None => d end in
    let d := dict_set d "hdg" (fstr (so_hdg o)) in
    match so_radius o, so_length o, so_width o with
    | Some r, _, _ => dict_set d "radius" (fstr r)
    | None, Some l, Some w => dict_set (dict_set d "length" (fstr l)) "width" (fstr w)
    | None, _, _ => d
    end.
End SignalsObjects.
