(** * pyodrx/geometry.py: the geometry primitives and PlanView *)
From Verif.Model Require Export Heap.

Section Geometry.
  Context {F : Type} `{!Num F}.

  Notation pose := (F * F * F)%type.
  Notation "0" := (fofZ 0). Notation "1" := (fofZ 1). Notation "2" := (fofZ 2). Notation "3" := (fofZ 3).
  Infix "+" := fadd. Infix "-" := fsub. Infix "*" := fmul. Infix "/" := fdiv.

  (** Python complex numbers as pairs *)
  Definition cadd (a b : F * F) : F * F := (a.1 + b.1, a.2 + b.2).
  Definition cmul (a b : F * F) : F * F := (a.1 * b.1 - a.2 * b.2, a.1 * b.2 + a.2 * b.1).
  Definition cscale (k : F) (a : F * F) : F * F := (k * a.1, k * a.2).
  Definition cdivr (a : F * F) (k : F) : F * F := (a.1 / k, a.2 / k).
  (** [np.exp(1j * t)] *)
  Definition cexp (t : F) : F * F := (fcos t, fsin t).

  (** ** Constructors *)

  (** geometry.py:336-337 [Line.__init__] *)
  Definition mk_line (length : F) : geom F := GLine length.

  (** geometry.py:438-459 [Spiral.__init__].  The division by [np.maximum(...)] is a numpy division, which does
      not raise. *)
  Definition mk_spiral (cs ce : F) (length angle cdot : option F) : res (geom F) :=
    match length, angle, cdot with
    | None, None, None => Err NotEnoughInputArguments
    | _, _, _ =>
      if decide (1 < List.length (omap id [length; angle; cdot]))%nat then Err ToManyOptionalArguments
      else if ftruthy_opt angle then
        Ok (GSpiral cs ce (Some (2 * fabs (default 0 angle) / fmax (fabs ce) (fabs cs))))
      else if ftruthy_opt cdot then
        Ok (GSpiral cs ce (Some ((ce - cs) / default 0 cdot)))
      else Ok (GSpiral cs ce length)
    end.

  (** geometry.py:559-582 [Arc.__init__] *)
  Definition mk_arc (curvature : F) (length angle : option F) : res (geom F) :=
    match length, angle with
    | None, None => Err NotEnoughInputArguments
    | Some _, Some _ => Err ToManyOptionalArguments
    | _, _ => if fiszero curvature then Err ValueError else Ok (GArc curvature length angle)
    end.

  (** geometry.py:770-808 [ParamPoly3.__init__] *)
  Definition mk_poly (au bu cu du av bv cv dv : F) (prange : string) (length : option F) : res (geom F) :=
    if String.eqb prange "arcLength" && bool_decide (length = None) then Err ValueError
    else Ok (GPoly au bu cu du av bv cv dv prange length).

  (** ** Evaluation *)

  (** geometry.py:917-919 [EulerSpiral.createFromLengthAndCurvature] (returns gamma) *)
  Definition euler_create (length cs ce : F) : res F :=
    if fiszero length then Err ZeroDivisionError else Ok (1 * (ce - cs) / length).

  (** geometry.py:921-948 [EulerSpiral.calc] *)
  Definition euler_calc (gamma s x0 y0 kappa0 theta0 : F) : pose :=
    let C0 := (x0, y0) in
    let Cs :=
      if fiszero gamma && fiszero kappa0 then
        cadd C0 (cscale s (cexp theta0))
      else if fiszero gamma && negb (fiszero kappa0) then
        cadd C0 (cmul (cdivr (cexp theta0) kappa0)
                      (fsin (kappa0 * s), 1 - fcos (kappa0 * s)))
      else
        let za := (kappa0 + gamma * s) / fsqrt (fpi * fabs gamma) in
        let zb := kappa0 / fsqrt (fpi * fabs gamma) in
        let Cs1 := cscale (fsqrt (fpi / fabs gamma))
                          (cexp (theta0 - fpow kappa0 2 / 2 / gamma)) in
        let Cs2 := (fsign gamma * (ffresnelC za - ffresnelC zb), ffresnelS za - ffresnelS zb) in
        cadd C0 (cmul Cs1 Cs2) in
    let theta := gamma * fpow s 2 / 2 + kappa0 * s + theta0 in
    (Cs.1, Cs.2, theta).

  (** geometry.py:461-484 [Spiral.get_end_data] / 486-511 [Spiral.get_start_data]: both evaluate the Euler spiral, the second
      one with the curvatures swapped and negated *)
  Definition spiral_eval (length : option F) (cs ce x y h : F) : res (pose * option F) :=
    match length with
    | None => Err TypeError          (* division by None *)
    | Some l => rbind (euler_create l cs ce) (λ g, Ok (euler_calc g l x y cs h, Some l))
    end.

  (** geometry.py:607-631 (body of [Arc.get_end_data], with [c = self.curvature]) and 660-689 (body of
      [Arc.get_start_data], with [c = inv_curv]): identical code.  Returns the result and the
      new values of [self.length] and [self.angle]. *)
  Definition arc_eval (c : F) (length angle : option F) (x y h : F)
    : res (pose * option F) * (option F * option F) :=
    let radius := 1 / fabs c in
    let phi_0 := if fltb c 0 then h + fpi / 2 else h - fpi / 2 in
    let x_0 := x - fcos phi_0 * radius in
    let y_0 := y - fsin phi_0 * radius in
    let angle' := if ftruthy_opt length then Some (default 0 length * c) else angle in
    match angle' with
    | None => (Err TypeError, (length, None))   (* None + phi_0 *)
    | Some a =>
      let new_ang := a + phi_0 in
      let length' := if ftruthy a then Some (fabs (radius * a)) else length in
      let new_h := h + a in
      let new_x := fcos new_ang * radius + x_0 in
      let new_y := fsin new_ang * radius + y_0 in
      (Ok ((new_x, new_y, new_h), length'), (length', Some a))
    end.

  (** geometry.py:810-816 [ParamPoly3._integrand] *)
  Definition poly_integrand (bu cu du bv cv dv p : F) : F :=
    fsqrt (fpow (fabs (3 * du * fpow p 2 + 2 * cu * p + bu)) 2 +
           fpow (fabs (3 * dv * fpow p 2 + 2 * cv * p + bv)) 2).

  (** geometry.py:837-844 / 870-877: the parameter value and the (new) length *)
  Definition poly_param (bu cu du bv cv dv : F) (prange : string) (length : option F) : option F * option F :=
    if String.eqb prange "normalized" then
      (Some 1, Some (fquad (poly_integrand bu cu du bv cv dv) 0 1))
    else (length, length).

  (** [a + b*p + c*p**2 + d*p**3] *)
  Definition poly3 (a b c d p : F) : F := a + b * p + c * fpow p 2 + d * fpow p 3.
  (** [b + 2*c*p + 3*d*p**2] *)
  Definition poly3' (b c d p : F) : F := b + 2 * c * p + 3 * d * fpow p 2.

  (** [get_end_data(x,y,h)] of each primitive: Line geometry.py:339-366, Spiral 461-484, Arc 584-631,
      ParamPoly3 851-883.  Returns the result and the primitive with its updated caches. *)
  Definition geom_end (g : geom F) (x y h : F) : res (pose * option F) * geom F :=
    match g with
    | GLine l =>
      (Ok ((l * fcos h + x, l * fsin h + y, h), Some l), g)
    | GSpiral cs ce length =>
      (spiral_eval length cs ce x y h, g)
    | GArc c length angle =>
      let '(r, (length', angle')) := arc_eval c length angle x y h in
      (r, GArc c length' angle')
    | GPoly au bu cu du av bv cv dv prange length =>
      let '(p, length') := poly_param bu cu du bv cv dv prange length in
      let g' := GPoly au bu cu du av bv cv dv prange length' in
      match p with
      | None => (Err TypeError, g')
      | Some p =>
        let newu := poly3 au bu cu du p in
        let newv := poly3 av bv cv dv p in
        let new_x := x + newu * fcos h - fsin h * newv in
        let new_y := y + newu * fsin h + fcos h * newv in
        let new_h := h + fatan2 (poly3' bv cv dv p) (poly3' bu cu du p) in
        (Ok ((new_x, new_y, new_h), length'), g')
      end
    end.

  (** [get_start_data(x,y,h)]: Line geometry.py:368-394, Spiral 486-511, Arc 633-689, ParamPoly3 818-850 *)
  Definition geom_start (g : geom F) (x y h : F) : res (pose * option F) * geom F :=
    match g with
    | GLine l =>
      (Ok ((l * fcos h + x, l * fsin h + y, h), Some l), g)
    | GSpiral cs ce length =>
      (spiral_eval length (fneg ce) (fneg cs) x y h, g)
    | GArc c length angle =>
      let '(r, (length', angle')) := arc_eval (fneg c) length angle x y h in
      (r, GArc c length' angle')
    | GPoly au bu cu du av bv cv dv prange length =>
      let '(p, length') := poly_param bu cu du bv cv dv prange length in
      let g' := GPoly au bu cu du av bv cv dv prange length' in
      match p with
      | None => (Err TypeError, g')
      | Some p =>
        let newu := poly3 au bu cu du p in
        let newv := poly3 av bv cv dv p in
        let new_x := x - (newu * fcos h - fsin h * newv) in
        let new_y := y - (newu * fsin h + fcos h * newv) in
        let new_h := h - fatan2 (poly3' bv cv dv p) (poly3' bu cu du p) in
        (Ok ((new_x, new_y, new_h), length'), g')
      end
    end.

  (** [geom.length] as an attribute *)
  Definition geom_length (g : geom F) : option F :=
    match g with
    | GLine l => Some l
    | GSpiral _ _ l => l
    | GArc _ l _ => l
    | GPoly _ _ _ _ _ _ _ _ _ l => l
    end.

  (** The same on the heap: evaluation stores the new caches. *)
  Definition eval_end (g : ref) (x y h : F) : H (pose * option F) :=
    let! o := get_geom g in
    let '(r, o') := geom_end o x y h in
    upd_geom g (λ _, o') ;;
    lift r.
  Definition eval_start (g : ref) (x y h : F) : H (pose * option F) :=
    let! o := get_geom g in
    let '(r, o') := geom_start o x y h in
    upd_geom g (λ _, o') ;;
    lift r.

  (** ** _Geometry *)

  (** geometry.py:44-67 [_Geometry.__init__]: evaluates the primitive once to get its length *)
  Definition pgeom_init (s : option F) (x y h : F) (g : ref) : H (pgeom F) :=
    let! r := eval_end g x y h in
    ret (mkPgeom s x y h g r.2).

  (** geometry.py:69-70 [_Geometry.get_end_data] *)
  Definition pgeom_end (p : pgeom F) : H (pose * option F) :=
    eval_end (pg_geom p) (pg_x p) (pg_y p) (pg_h p).

  (** geometry.py:72-78 [_Geometry.get_start_data]: returns the result and the mutated _Geometry *)
  Definition pgeom_start (p : pgeom F) : H (pose * option F * pgeom F) :=
    let! r := eval_start (pg_geom p) (pg_x p) (pg_y p) (pg_h p) in
    let '((x, y, h), l) := r in
    ret (((x, y, h), l), mkPgeom None x y (h + fpi) (pg_geom p) l).

  (** ** PlanView *)

  (** geometry.py:148-177 [PlanView.__init__] *)
  Definition mk_planview (x y h : option F) : res (planview F) :=
    match x, y, h with
    | Some x, Some y, Some h =>
      Ok (planview_new <| pv_x := x |> <| pv_y := y |> <| pv_h := h |> <| pv_fixed := true |>)
    | None, None, None => Ok planview_new
    | _, _, _ => Err NotEnoughInputArguments
    end.

  (** geometry.py:179-193 [PlanView.add_geometry] *)
  Definition pv_add_geometry (pv g : ref) (heading : option F) : H unit :=
    upd_pv pv (λ p, match heading with
                    | Some hd => p <| pv_over := pv_over p ++ [hd] |>
                    | None => p
                    end) ;;
    upd_pv pv (λ p, p <| pv_raw := pv_raw p ++ [g] |>).

  (** geometry.py:195-212 [PlanView.set_start_point] *)
  Definition pv_set_start_point (pv : ref) (x y h : F) : H unit :=
    upd_pv pv (λ p, p <| pv_x := x |> <| pv_y := y |> <| pv_h := h |>).

  (** geometry.py:214-222 / 224-239: [PlanView.get_start_point], [PlanView.get_end_point]; [None] stands for the
      (None,None,None) returned before adjustment *)
  Definition pv_get_start_point (p : planview F) : option pose := pv_start p.
  Definition pv_get_end_point (p : planview F) : option pose := pv_end p.

  (** geometry.py:255-264: the forward loop; [i] is the loop index, [gs] the remaining raw geometries *)
  Fixpoint adjust_forward (pv : ref) (i : nat) (gs : list ref) : H unit :=
    match gs with
    | [] => ret tt
    | g :: gs' =>
      let! p := get_pv pv in
      (if decide (0 < List.length (pv_over p))%nat then
         let! hd := or_raise IndexError (pv_over p !! i) in
         upd_pv pv (λ p, p <| pv_h := hd |>)
       else ret tt) ;;
      let! p := get_pv pv in
      let! ng := pgeom_init (Some (pv_s p)) (pv_x p) (pv_y p) (pv_h p) g in
      let! r := pgeom_end ng in
      let '((x, y, h), len) := r in
      upd_pv pv (λ p, p <| pv_x := x |> <| pv_y := y |> <| pv_h := h |>) ;;
      let! l := or_raise TypeError len in
      upd_pv pv (λ p, p <| pv_s := pv_s p + l |>) ;;
      upd_pv pv (λ p, p <| pv_geoms := pv_geoms p ++ [ng] |>) ;;
      adjust_forward pv (S i) gs'
    end.

  (** geometry.py:276-281: the backward loop over the raw geometries, [gs] = remaining ones, last first;
      returns [lengths] *)
  Fixpoint adjust_backward (pv : ref) (gs : list ref) : H (list (option F)) :=
    match gs with
    | [] => ret []
    | g :: gs' =>
      let! p := get_pv pv in
      let! ng := pgeom_init (Some (pv_s p)) (pv_x p) (pv_y p) (pv_h p) g in
      let! r := pgeom_start ng in
      let '(((x, y, h), len), ng') := r in
      upd_pv pv (λ p, p <| pv_x := x |> <| pv_y := y |> <| pv_h := h |>) ;;
      upd_pv pv (λ p, p <| pv_geoms := pv_geoms p ++ [ng'] |>) ;;
      let! ls := adjust_backward pv gs' in
      ret (len :: ls)
    end.

  (** [newgeom.set_s(s)] on the _Geometry appended last *)
  Definition set_last_s (s : F) (l : list (pgeom F)) : list (pgeom F) :=
    match rev l with
    | [] => []
    | x :: l' => rev (x <| pg_s := Some s |> :: l')
    end.

  (** geometry.py:290-293: [newgeom] is still the last geometry created *)
  Fixpoint assign_s (pv : ref) (ls : list F) : H unit :=
    match ls with
    | [] => ret tt
    | l :: ls' =>
      upd_pv pv (λ p, p <| pv_geoms := set_last_s (pv_s p) (pv_geoms p) |>) ;;
      upd_pv pv (λ p, p <| pv_s := pv_s p + l |>) ;;
      assign_s pv ls'
    end.

  (** geometry.py:241-295 [PlanView.adjust_geometries] *)
  Definition adjust_geometries (pv : ref) (from_end : bool) : H unit :=
    (if negb from_end then
       upd_pv pv (λ p, p <| pv_start := Some (pv_x p, pv_y p, pv_h p) |>) ;;
       let! p := get_pv pv in
       adjust_forward pv 0 (pv_raw p) ;;
       upd_pv pv (λ p, p <| pv_end := Some (pv_x p, pv_y p, pv_h p) |>)
     else
       upd_pv pv (λ p, p <| pv_end := Some (pv_x p, pv_y p, pv_h p + fpi) |>) ;;
       let! p := get_pv pv in
       let! ls := adjust_backward pv (rev (pv_raw p)) in
       upd_pv pv (λ p, p <| pv_start := Some (pv_x p, pv_y p, pv_h p + fpi) |>) ;;
       (* length = sum(lengths) raises TypeError if a length is None *)
       let! ls' := or_raise TypeError (mapM id ls) in
       upd_pv pv (λ p, p <| pv_s := 0 |>) ;;
       assign_s pv ls') ;;
    upd_pv pv (λ p, p <| pv_adjusted := true |>).

  (** geometry.py:297-302 [PlanView.get_total_length] *)
  Definition pv_total_length (p : planview F) : F := pv_s p.
End Geometry.
