(** The exact effect of the road generators *)
From Coq Require Import ssreflect.
From Verif.Model Require Import Api.
From Verif.Spec Require Import SpecState SpecHistory.
From Verif.Proof Require Import Monad DictFacts PlanViewFacts NetFrame Reach Steps History.
Local Open Scope general_if_scope.

(** run one call whose effect is known, up to conversion of the state *)
Ltac exec lem :=
  match goal with |- bind ?m ?k ?s = _ =>
    let E := fresh in pose proof lem as E; cbv zeta in E;
    match type of E with ?l = _ => change (m s) with l in E || idtac end;
    match type of E with _ = (Ok ?a, ?s1) => change (m s = (Ok a, s1)) in E; rewrite (bind_run m k s a s1 E); clear E end
  end.

Section Generate.
  Context {F : Type} `{!Num F}.
  Implicit Types (h : heap F).
  Local Notation zero := (fofZ (F:=F) 0).

  (** consecutive fresh addresses *)
  Fixpoint ins_from {V} (n : nat) (ls : list V) (m : gmap nat V) : gmap nat V :=
    match ls with [] => m | l :: ls' => ins_from (S n) ls' (<[n := l]> m) end.
  Lemma ins_from_lookup {V} (ls : list V) : ∀ n m x, ins_from n ls m !! x = if decide (n ≤ x < n + length ls) then ls !! (x - n) else m !! x.
  Proof.
    induction ls as [|l ls IH]; intros n m x; simpl.
    - destruct (decide _); [lia|done].
    - rewrite IH. destruct (decide (S n ≤ x < S n + length ls)) as [H1|H1].
      + destruct (decide (n ≤ x < n + S (length ls))) as [H2|H2]; [|lia]. by replace (x - n) with (S (x - S n)) by lia.
      + destruct (decide (n ≤ x < n + S (length ls))) as [H2|H2].
        * replace x with n by lia. rewrite lookup_insert Nat.sub_diag. done.
        * rewrite lookup_insert_ne; [lia|done].
  Qed.
  Lemma ins_from_old {V} (ls : list V) n m x : x < n → ins_from n ls m !! x = m !! x.
  Proof. intros Hx. rewrite ins_from_lookup. destruct (decide _); [lia|done]. Qed.
  Lemma ins_from_new {V} (ls : list V) n m i v : ls !! i = Some v → ins_from n ls m !! (n + i) = Some v.
  Proof. intros Hi. rewrite ins_from_lookup. apply lookup_lt_Some in Hi as Hl. destruct (decide _); [|lia]. by replace (n + i - n) with i by lia. Qed.
  Lemma ins_from_app {V} (l1 l2 : list V) : ∀ n m, ins_from n (l1 ++ l2) m = ins_from (n + length l1) l2 (ins_from n l1 m).
  Proof.
    induction l1 as [|x l1 IH]; intros n m; simpl; [by rewrite Nat.add_0_r|]. rewrite IH. f_equal. lia.
  Qed.
  Lemma ins_from_top {V} (l : list V) n m x v : x < n → ins_from n l (<[x := v]> m) = <[x := v]> (ins_from n l m).
  Proof.
    intros Hx. apply map_eq. intros y. rewrite ins_from_lookup. destruct (decide (x = y)) as [->|Hne].
    - rewrite !lookup_insert. destruct (decide _); [lia|done].
    - rewrite !lookup_insert_ne // ins_from_lookup. done.
  Qed.

  (** a state that differs from [h] in lanes, sections and the next address only *)
  Definition lst h (m : gmap nat (lane F)) (sm : gmap nat (lanesection F)) (n : nat) : heap F :=
    h <| h_lane := m |> <| h_sec := sm |> <| h_next := n |>.

  (** a lane of type driving with constant width *)
  Definition std_lane (id : Z) (w : F) (rm : roadmark F) : lane F := mkLane (Some id) lt_driving w zero zero zero zero (Some rm) [].

  Lemma standard_lane_run w rm h m sm n :
    standard_lane w rm (lst h m sm n) = (Ok n, lst h (<[n := mkLane None lt_driving w zero zero zero zero (Some rm) []]> m) sm (S n)).
  Proof.
    unfold standard_lane, lane_a, lane_ctor, lane_add_roadmark, upd_lane, new_lane, bind, modify, ret. simpl.
    unfold lst. simpl. rewrite ltm_insert insert_insert. done.
  Qed.
  Lemma add_left_run w rm sec s h m sm n : sm !! sec = Some s →
    (let! l := standard_lane w rm in add_left_lane sec l) (lst h m sm n) =
    (Ok tt, lst h (<[n := std_lane (ls_left_id s) w rm]> m) (<[sec := s <| ls_left_id := (ls_left_id s + 1)%Z |> <| ls_left := ls_left s ++ [n] |>]> sm) (S n)).
  Proof.
    intros Hs. rewrite (bind_run _ _ _ _ _ (standard_lane_run _ _ _ _ _ _)).
    unfold add_left_lane, get_sec, lane_set_id, upd_lane, upd_sec, bind, modify, gets. simpl.
    unfold lst. simpl. rewrite ltm_insert !insert_insert. rewrite (lookup_total_correct _ _ _ Hs) ltm_insert. done.
  Qed.
  Lemma add_right_run w rm sec s h m sm n : sm !! sec = Some s →
    (let! l := standard_lane w rm in add_right_lane sec l) (lst h m sm n) =
    (Ok tt, lst h (<[n := std_lane (ls_right_id s) w rm]> m) (<[sec := s <| ls_right_id := (ls_right_id s - 1)%Z |> <| ls_right := ls_right s ++ [n] |>]> sm) (S n)).
  Proof.
    intros Hs. rewrite (bind_run _ _ _ _ _ (standard_lane_run _ _ _ _ _ _)).
    unfold add_right_lane, get_sec, lane_set_id, upd_lane, upd_sec, bind, modify, gets. simpl.
    unfold lst. simpl. rewrite ltm_insert !insert_insert. rewrite (lookup_total_correct _ _ _ Hs) ltm_insert. done.
  Qed.

  (** [create_side]: marks solid for the last lane, broken for the others *)
  Definition side_mark (n i : nat) : roadmark F := if bool_decide (S i = n) then STD_ROADMARK_SOLID else STD_ROADMARK_BROKEN.
  Lemma create_left_run sec w total h : ∀ c k m sm n s, sm !! sec = Some s →
    for_each (λ i : nat, let! l := standard_lane w (if bool_decide (S i = total) then STD_ROADMARK_SOLID else STD_ROADMARK_BROKEN) in add_left_lane sec l) (seq k c) (lst h m sm n) =
    (Ok tt, lst h (ins_from n (map (λ i, std_lane (ls_left_id s + Z.of_nat (i - k)) w (side_mark total i)) (seq k c)) m)
                  (<[sec := s <| ls_left_id := (ls_left_id s + Z.of_nat c)%Z |> <| ls_left := ls_left s ++ seq n c |>]> sm) (n + c)).
  Proof.
    induction c as [|c IH]; intros k m sm n s Hs.
    - simpl. unfold ret. rewrite Z.add_0_r app_nil_r Nat.add_0_r. rewrite insert_id; [rewrite Hs; by destruct s|done].
    - cbn [seq for_each map ins_from]. rewrite (bind_run _ _ _ _ _ (add_left_run _ _ _ _ _ _ _ _ Hs)).
      rewrite (IH (S k) _ _ (S n) _ (lookup_insert _ _ _)). simpl. rewrite insert_insert -app_assoc. simpl.
      rewrite Nat.sub_diag Z.add_0_r. replace (n + S c) with (S n + c) by lia.
      f_equal. f_equal.
      + f_equal. apply map_ext_in. intros i Hi. apply in_seq in Hi. f_equal. lia.
      + f_equal. destruct s; unfold set; simpl; f_equal. lia.
  Qed.
  Lemma create_right_run sec w total h : ∀ c k m sm n s, sm !! sec = Some s →
    for_each (λ i : nat, let! l := standard_lane w (if bool_decide (S i = total) then STD_ROADMARK_SOLID else STD_ROADMARK_BROKEN) in add_right_lane sec l) (seq k c) (lst h m sm n) =
    (Ok tt, lst h (ins_from n (map (λ i, std_lane (ls_right_id s - Z.of_nat (i - k)) w (side_mark total i)) (seq k c)) m)
                  (<[sec := s <| ls_right_id := (ls_right_id s - Z.of_nat c)%Z |> <| ls_right := ls_right s ++ seq n c |>]> sm) (n + c)).
  Proof.
    induction c as [|c IH]; intros k m sm n s Hs.
    - simpl. unfold ret. rewrite Z.sub_0_r app_nil_r Nat.add_0_r. rewrite insert_id; [rewrite Hs; by destruct s|done].
    - cbn [seq for_each map ins_from]. rewrite (bind_run _ _ _ _ _ (add_right_run _ _ _ _ _ _ _ _ Hs)).
      rewrite (IH (S k) _ _ (S n) _ (lookup_insert _ _ _)). simpl. rewrite insert_insert -app_assoc. simpl.
      rewrite Nat.sub_diag Z.sub_0_r. replace (n + S c) with (S n + c) by lia.
      f_equal. f_equal.
      + f_equal. apply map_ext_in. intros i Hi. apply in_seq in Hi. f_equal. lia.
      + f_equal. destruct s; unfold set; simpl; f_equal. lia.
  Qed.

  (** [create_sides]: right and left lanes alternate *)
  Definition sides_lanes (n : nat) (w : F) : list (lane F) :=
    concat (map (λ i, [std_lane (lane_number (RightOf i)) w STD_ROADMARK_BROKEN; std_lane (lane_number (LeftOf i)) w STD_ROADMARK_BROKEN]) (seq 0 n)).
  Lemma create_sides_run sec w h : ∀ c k m sm n s, sm !! sec = Some s → ls_left_id s = (Z.of_nat k + 1)%Z → ls_right_id s = (- (Z.of_nat k + 1))%Z →
    for_each (λ _ : nat,
      (let! l := standard_lane w STD_ROADMARK_BROKEN in add_right_lane sec l) ;;
      (let! l := standard_lane w STD_ROADMARK_BROKEN in add_left_lane sec l)) (seq k c) (lst h m sm n) =
    (Ok tt, lst h (ins_from n (concat (map (λ i, [std_lane (lane_number (RightOf i)) w STD_ROADMARK_BROKEN; std_lane (lane_number (LeftOf i)) w STD_ROADMARK_BROKEN]) (seq k c))) m)
                  (<[sec := s <| ls_left_id := (ls_left_id s + Z.of_nat c)%Z |> <| ls_right_id := (ls_right_id s - Z.of_nat c)%Z |>
                              <| ls_left := ls_left s ++ map (λ i, n + 2 * i + 1) (seq 0 c) |> <| ls_right := ls_right s ++ map (λ i, n + 2 * i) (seq 0 c) |>]> sm) (n + 2 * c)).
  Proof.
    induction c as [|c IH]; intros k m sm n s Hs Hl Hr.
    - simpl. unfold ret. rewrite Z.sub_0_r Z.add_0_r !app_nil_r Nat.add_0_r. rewrite insert_id; [rewrite Hs; by destruct s|done].
    - cbn [for_each]. change (seq k (S c)) with (k :: seq (S k) c). cbn [for_each map concat app ins_from].
      erewrite bind_run; last first.
      { rewrite (bind_run _ _ _ _ _ (add_right_run _ _ _ _ _ _ _ _ Hs)). apply add_left_run. apply lookup_insert. }
      rewrite insert_insert.
      rewrite (IH (S k) _ _ (S (S n)) _ (lookup_insert _ _ _)); [simpl; lia|simpl; lia|].
      simpl. rewrite insert_insert -!app_assoc. replace (n + S (c + S (c + 0))) with (S (S (n + (c + (c + 0))))) by lia.
      f_equal. f_equal.
      + by rewrite Hl Hr.
      + f_equal. unfold set. simpl. f_equal.
        * do 2 f_equal; [lia|]. rewrite -seq_shift map_map. apply map_ext. intros i. lia.
        * do 2 f_equal; [lia|]. rewrite -seq_shift map_map. apply map_ext. intros i. lia.
        * lia.
        * lia.
  Qed.

  (** planviews *)
  Lemma add_geometry_run pv g p pm h : pm !! pv = Some p →
    pv_add_geometry pv g None (h <| h_pv := pm |>) = (Ok tt, h <| h_pv := <[pv := p <| pv_raw := pv_raw p ++ [g] |>]> pm |>).
  Proof.
    intros Hp. unfold pv_add_geometry, upd_pv, bind, modify. simpl. rewrite ltm_insert !insert_insert (lookup_total_correct _ _ _ Hp). done.
  Qed.
  Lemma add_geometries_run pv h : ∀ gs p pm, pm !! pv = Some p → (∀ g, g ∈ gs → geom_length (h_geom h !!! g) ≠ None) →
    add_geometries pv gs (h <| h_pv := pm |>) = (Ok tt, h <| h_pv := <[pv := p <| pv_raw := pv_raw p ++ gs |>]> pm |>).
  Proof.
    unfold add_geometries. induction gs as [|g gs IH]; intros p pm Hp Hg.
    - simpl. unfold ret. rewrite app_nil_r insert_id; [rewrite Hp; by destruct p|done].
    - cbn [for_each]. erewrite bind_run; last first.
      { rewrite (bind_run _ _ _ _ _ (add_geometry_run _ g _ _ _ Hp)). unfold get_geom. rewrite bind_gets. simpl.
        destruct (geom_length (h_geom h !!! g)) as [x|] eqn:E; [|by destruct (Hg g ltac:(by left))]. done. }
      rewrite (IH _ _ (lookup_insert _ _ _)); [intros g' Hg'; apply Hg; by right|]. rewrite insert_insert. simpl. by rewrite -app_assoc.
  Qed.

  (** the last steps of every generator: the section becomes the only one of a new Lanes object, the road is built *)
  Lemma finish_run h sec pv id ty : (let! ls := lanes_ctor in add_lanesection ls sec [] ;; road_ctor id pv ls ty None None) h =
    (Ok (S (h_next h)), h <| h_lanes := <[h_next h := [sec]]> (h_lanes h) |> <| h_road := <[S (h_next h) := road_new id pv (h_next h) ty None None]> (h_road h) |>
      <| h_next := S (S (h_next h)) |>).
  Proof.
    unfold lanes_ctor, add_lanesection, road_ctor, new_lanes, new_road, upd_lanes, bind, modify, ret. simpl. rewrite ltm_insert insert_insert. done.
  Qed.

  Definition road_lanes (n l r : nat) (w : F) : list (lane F) :=
    map (λ i, std_lane (lane_number (LeftOf i)) w (side_mark l i)) (seq 0 l) ++ map (λ i, std_lane (lane_number (RightOf i)) w (side_mark r i)) (seq 0 r).

  Lemma create_road_run h gs id l r ty mark w : (∀ g, g ∈ gs → geom_length (h_geom h !!! g) ≠ None) →
    let n := h_next h in
    create_road gs id l r ty mark w h = (Ok (n + 4 + l + r),
      h <| h_pv := <[n := planview_new <| pv_raw := gs |>]> (h_pv h) |>
        <| h_lane := ins_from (n + 3) (road_lanes n l r w) (<[n + 1 := mkLane (Some 0%Z) lt_driving zero zero zero zero zero (Some mark) []]> (h_lane h)) |>
        <| h_sec := <[n + 2 := mkLaneSection zero (n + 1) (seq (n + 3) l) (seq (n + 3 + l) r) (1 + Z.of_nat l) (-1 - Z.of_nat r)]> (h_sec h) |>
        <| h_lanes := <[n + 3 + l + r := [n + 2]]> (h_lanes h) |>
        <| h_road := <[n + 4 + l + r := road_new id n (n + 3 + l + r) ty None None]> (h_road h) |>
        <| h_next := n + 5 + l + r |>).
  Proof.
    intros Hg n. unfold create_road.
    erewrite bind_run; [|done]. fold n.
    pose (h0 := h <| h_next := S n |>). assert (Hg0 : ∀ g, g ∈ gs → geom_length (h_geom h0 !!! g) ≠ None) by exact Hg.
    exec (add_geometries_run n h0 gs planview_new (<[n := planview_new]> (h_pv h)) (lookup_insert _ _ _) Hg0).
    rewrite insert_insert. unfold h0. clear h0 Hg0.
    set (h1 := h <| h_pv := <[n := planview_new <| pv_raw := pv_raw planview_new ++ gs |>]> (h_pv h) |>).
    unfold lane_a, lane_ctor. erewrite bind_run; [|done]. simpl h_next.
    erewrite bind_run; [|done]. rewrite /=. rewrite ltm_insert insert_insert.
    unfold lanesection_ctor. erewrite bind_run; last first.
    { erewrite bind_run; [|done]. simpl. reflexivity. }
    rewrite /=. rewrite ltm_insert insert_insert.
    unfold create_side. erewrite bind_run; last first.
    { apply (create_left_run (S (S n)) w l h1 l 0 _ (<[S (S n) := mkLaneSection zero (S n) [] [] 1 (-1)]> (h_sec h)) (S (S (S n))) _ (lookup_insert _ _ _)). }
    rewrite insert_insert. erewrite bind_run; last first.
    { apply (create_right_run (S (S n)) w r h1 r 0 _ _ _ _ (lookup_insert _ _ _)). }
    rewrite insert_insert. rewrite finish_run.
    replace (n + 4 + l + r) with (S (S (S (S n)) + l + r)) by lia.
    replace (n + 5 + l + r) with (S (S (S (S (S n)) + l + r))) by lia.
    replace (n + 3 + l + r) with (S (S (S n)) + l + r) by lia.
    replace (n + 3 + l) with (S (S (S n)) + l) by lia.
    replace (n + 3) with (S (S (S n))) by lia. replace (n + 2) with (S (S n)) by lia. replace (n + 1) with (S n) by lia.
    unfold road_lanes. rewrite ins_from_app map_length seq_length.
    unfold lst. simpl.
    assert (E1 : map (λ i : nat, std_lane (1 + Z.of_nat (i - 0)) w (side_mark l i)) (seq 0 l) = map (λ i, std_lane (Z.of_nat i + 1) w (side_mark l i)) (seq 0 l)).
    { apply map_ext. intros i. f_equal. lia. }
    assert (E2 : map (λ i : nat, std_lane (-1 - Z.of_nat (i - 0)) w (side_mark r i)) (seq 0 r) = map (λ i, std_lane (- (Z.of_nat i + 1)) w (side_mark r i)) (seq 0 r)).
    { apply map_ext. intros i. f_equal. lia. }
    rewrite E1 E2. done.
  Qed.

  (** the two generators with equally many lanes on both sides; [n] is the address of the centre lane *)
  Lemma lanes_run h c id pv ty w : let n := h_next h in
    (let! lc := standard_lane (fofZ 3) STD_ROADMARK_BROKEN in
     let! sec := lanesection_ctor zero lc in
     create_sides sec c w ;;
     let! ls := lanes_ctor in
     add_lanesection ls sec [] ;;
     road_ctor id pv ls ty None None) h =
    (Ok (n + 3 + 2 * c),
      h <| h_lane := ins_from (n + 2) (sides_lanes c w) (<[n := std_lane 0 (fofZ 3) STD_ROADMARK_BROKEN]> (h_lane h)) |>
        <| h_sec := <[n + 1 := mkLaneSection zero n (map (λ i, n + 2 + 2 * i + 1) (seq 0 c)) (map (λ i, n + 2 + 2 * i) (seq 0 c)) (1 + Z.of_nat c) (-1 - Z.of_nat c)]> (h_sec h) |>
        <| h_lanes := <[n + 2 + 2 * c := [n + 1]]> (h_lanes h) |>
        <| h_road := <[n + 3 + 2 * c := road_new id pv (n + 2 + 2 * c) ty None None]> (h_road h) |>
        <| h_next := n + 4 + 2 * c |>).
  Proof.
    intros n.
    erewrite bind_run; last first.
    { apply (standard_lane_run (fofZ 3) STD_ROADMARK_BROKEN h (h_lane h) (h_sec h) n). }
    unfold lanesection_ctor. erewrite bind_run; last first.
    { erewrite bind_run; [|done]. simpl. reflexivity. }
    rewrite /=. rewrite ltm_insert insert_insert.
    unfold create_sides. erewrite bind_run; last first.
    { apply (create_sides_run (S n) w h c 0 _ (<[S n := mkLaneSection zero n [] [] 1 (-1)]> (h_sec h)) (S (S n)) _ (lookup_insert _ _ _)); done. }
    rewrite insert_insert. rewrite finish_run.
    simpl. replace (n + 3 + (c + (c + 0))) with (S (S (S (n + (c + (c + 0)))))) by lia.
    replace (n + 4 + (c + (c + 0))) with (S (S (S (S (n + (c + (c + 0))))))) by lia.
    replace (n + 2 + (c + (c + 0))) with (S (S (n + (c + (c + 0))))) by lia.
    replace (n + 2) with (S (S n)) by lia. replace (n + 1) with (S n) by lia.
    unfold lst. done.
  Qed.

  Lemma create_straight_run h id len junction c w : let n := h_next h in
    create_straight_road id len junction c w h = (Ok (n + 5 + 2 * c),
      h <| h_geom := <[n := GLine len]> (h_geom h) |>
        <| h_pv := <[n + 1 := planview_new <| pv_raw := [n] |>]> (h_pv h) |>
        <| h_lane := ins_from (n + 4) (sides_lanes c w) (<[n + 2 := std_lane 0 (fofZ 3) STD_ROADMARK_BROKEN]> (h_lane h)) |>
        <| h_sec := <[n + 3 := mkLaneSection zero (n + 2) (map (λ i, n + 4 + 2 * i + 1) (seq 0 c)) (map (λ i, n + 4 + 2 * i) (seq 0 c)) (1 + Z.of_nat c) (-1 - Z.of_nat c)]> (h_sec h) |>
        <| h_lanes := <[n + 4 + 2 * c := [n + 3]]> (h_lanes h) |>
        <| h_road := <[n + 5 + 2 * c := road_new id (n + 1) (n + 4 + 2 * c) junction None None]> (h_road h) |>
        <| h_next := n + 6 + 2 * c |>).
  Proof.
    intros n. unfold create_straight_road.
    erewrite bind_run; [|done]. fold n. erewrite bind_run; [|done]. rewrite /=.
    pose (h0 := h <| h_geom := <[n := GLine len]> (h_geom h) |> <| h_next := S (S n) |>).
    exec (add_geometry_run (S n) n planview_new (<[S n := planview_new]> (h_pv h)) h0 (lookup_insert _ _ _)).
    rewrite insert_insert. unfold h0. rewrite lanes_run. simpl.
    replace (n + 5 + (c + (c + 0))) with (S (S (n + 3 + (c + (c + 0))))) by lia.
    replace (n + 6 + (c + (c + 0))) with (S (S (n + 4 + (c + (c + 0))))) by lia.
    replace (n + 4 + (c + (c + 0))) with (S (S (n + 2 + (c + (c + 0))))) by lia.
    replace (n + 4) with (S (S (n + 2))) by lia. replace (n + 3) with (S (S (n + 1))) by lia. replace (n + 2) with (S (S n)) by lia. replace (n + 1) with (S n) by lia.
    done.
  Qed.

  (** the three geometries of [create_cloth_arc_cloth] *)
  Definition cac_flip (cloth_angle arc_curv : F) : bool := fltb cloth_angle zero && fltb zero arc_curv.
  Lemma create_cac_run h curv aa ca id junction cs c w g1 g2 g3 : let n := h_next h in
    let adj (x : F) := if cac_flip ca curv then fneg x else x in
    mk_spiral (adj cs) (adj curv) None (Some (adj ca)) None = Ok g1 → mk_arc (adj curv) None (Some (adj aa)) = Ok g2 →
    mk_spiral (adj curv) (adj cs) None (Some (adj ca)) None = Ok g3 →
    create_cloth_arc_cloth curv aa ca id junction cs c w h = (Ok (n + 7 + 2 * c),
      h <| h_geom := ins_from (n + 1) [g1; g2; g3] (h_geom h) |>
        <| h_pv := <[n := planview_new <| pv_raw := [n + 1; n + 2; n + 3] |>]> (h_pv h) |>
        <| h_lane := ins_from (n + 6) (sides_lanes c w) (<[n + 4 := std_lane 0 (fofZ 3) STD_ROADMARK_BROKEN]> (h_lane h)) |>
        <| h_sec := <[n + 5 := mkLaneSection zero (n + 4) (map (λ i, n + 6 + 2 * i + 1) (seq 0 c)) (map (λ i, n + 6 + 2 * i) (seq 0 c)) (1 + Z.of_nat c) (-1 - Z.of_nat c)]> (h_sec h) |>
        <| h_lanes := <[n + 6 + 2 * c := [n + 5]]> (h_lanes h) |>
        <| h_road := <[n + 7 + 2 * c := road_new id n (n + 6 + 2 * c) junction None None]> (h_road h) |>
        <| h_next := n + 8 + 2 * c |>).
  Proof.
    intros n adj G1 G2 G3. unfold create_cloth_arc_cloth. cbv zeta. fold (cac_flip ca curv). fold (adj cs) (adj curv) (adj ca) (adj aa).
    erewrite bind_run; [|done]. fold n. rewrite G1 G2 G3.
    rewrite bind_lift_ok. erewrite bind_run; [|done]. rewrite /=. rewrite bind_lift_ok. erewrite bind_run; [|done]. rewrite /=.
    rewrite bind_lift_ok. erewrite bind_run; [|done]. rewrite /=.
    pose (hg := h <| h_geom := ins_from (S n) [g1; g2; g3] (h_geom h) |> <| h_next := S (S (S (S n))) |>).
    exec (add_geometry_run n (S n) planview_new (<[n := planview_new]> (h_pv h)) hg (lookup_insert _ _ _)).
    rewrite insert_insert. rewrite (bind_run _ _ _ _ _ (add_geometry_run n (S (S n)) _ _ hg (lookup_insert _ _ _))).
    rewrite insert_insert. rewrite (bind_run _ _ _ _ _ (add_geometry_run n (S (S (S n))) _ _ hg (lookup_insert _ _ _))).
    rewrite insert_insert. rewrite lanes_run. unfold hg. simpl.
    replace (n + 7 + (c + (c + 0))) with (S (S (S (S (n + 3 + (c + (c + 0))))))) by lia.
    replace (n + 8 + (c + (c + 0))) with (S (S (S (S (n + 4 + (c + (c + 0))))))) by lia.
    replace (n + 6 + (c + (c + 0))) with (S (S (S (S (n + 2 + (c + (c + 0))))))) by lia.
    replace (n + 6) with (S (S (S (S (n + 2))))) by lia. replace (n + 5) with (S (S (S (S (n + 1))))) by lia. replace (n + 4) with (S (S (S (S n)))) by lia.
    replace (n + 3) with (S (S (S n))) by lia. replace (n + 2) with (S (S n)) by lia. replace (n + 1) with (S n) by lia.
    done.
  Qed.
End Generate.
