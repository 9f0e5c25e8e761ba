(** * C57, C58: no action at a distance *)
From Coq Require Import ssreflect.
From Verif.Model Require Import Api Write.
From Verif.Inst Require Import Quarter.
From Verif.Spec Require Import SpecState SpecHistory SpecNetwork SpecXml SpecFrame.
From Verif.Proof Require Import Monad DictFacts NetFrame Reach Steps History Invariants Frame.
From Verif.Properties Require Import PHistory PLaneLinks PObjects PXml PWrite.
Local Open Scope general_if_scope.
Local Open Scope nat_scope.

Section Frames.
  Context {F : Type} `{!Num F}.
  Implicit Types (h : heap F).

  Lemma existing_lt h r : reachable h → existing h r → r < h_next h.
  Proof.
    intros Hr He. pose proof (reachable_no_dangling _ Hr) as N.
    destruct He as [[x E]|[[x E]|[[x E]|[[x E]|[[x E]|[[x E]|[[x E]|[[x E]|[[x E]|[[x E]|[x E]]]]]]]]]]].
    - by apply (nd_geom _ N) in E as [? _].
    - by apply (nd_pv _ N) in E as [? _].
    - by apply (nd_lane _ N) in E as [? _].
    - by apply (nd_sec _ N) in E as [? _].
    - by apply (nd_lanes _ N) in E as [? _].
    - by apply (nd_linker _ N) in E as [? _].
    - by apply (nd_conn _ N) in E as [? _].
    - by apply (nd_junc _ N) in E as [? _].
    - by apply (nd_obj _ N) in E as [? _].
    - by apply (nd_road _ N) in E as [? _].
    - by apply (nd_odr _ N) in E as [? _].
  Qed.
  Lemma same_refl h r : same_object h h r.
  Proof. unfold same_object. split_and!; reflexivity. Qed.
  Lemma same_trans h1 h2 h3 r : same_object h1 h2 r → same_object h2 h3 r → same_object h1 h3 r.
  Proof.
    intros (A1&A2&A3&A4&A5&A6&A7&A8&A9&A10&A11) (B1&B2&B3&B4&B5&B6&B7&B8&B9&B10&B11). unfold same_object. split_and!; etrans; eassumption.
  Qed.
  Lemma same_existing h h' r : same_object h h' r → existing h r → existing h' r.
  Proof. intros (A1&A2&A3&A4&A5&A6&A7&A8&A9&A10&A11). unfold existing. by rewrite A1 A2 A3 A4 A5 A6 A7 A8 A9 A10 A11. Qed.
  Lemma reachable_step o h : reachable h → reachable (step o h).2.
  Proof. intros Hr. apply (run_reachable h [o] Hr). Qed.

  (** ** C57 *)
  (** one call changes no object but those it is about *)
  Theorem C57_frame o h r : reachable h → existing h r → ¬ touches o h r → same_object h (step o h).2 r.
  Proof. intros Hr He Ht. destruct (frame_step o h) as (_ & _ & H). apply H; [by apply existing_lt|done]. Qed.
  (** and a new object takes no address that is in use: what exists goes on to exist *)
  Theorem C57_keeps o h r : reachable h → existing h r → ¬ touches o h r → existing (step o h).2 r.
  Proof. intros Hr He Ht. eapply same_existing; [by apply C57_frame|done]. Qed.
  (** only three calls change the table of used ids *)
  Theorem C57_ids o h : ¬ gives_ids o → h_ids (step o h).2 = h_ids h.
  Proof. intros H. destruct (frame_step o h) as (_ & G & _). by apply G. Qed.
  (** over a history *)
  Theorem C57_history ops h r : reachable h → existing h r →
    (∀ pre o post, ops = pre ++ o :: post → ¬ touches o (run h pre) r) → same_object h (run h ops) r.
  Proof.
    revert h. induction ops as [|o ops IH]; intros h Hr He Ht; [apply same_refl|].
    change (run h (o :: ops)) with (run (step o h).2 ops). pose proof (Ht [] o ops eq_refl) as T. simpl in T.
    pose proof (C57_frame o h r Hr He T) as S. eapply same_trans; [exact S|]. apply IH; [by apply reachable_step|by eapply same_existing|].
    intros pre o' post ->. apply (Ht (o :: pre) o' post eq_refl).
  Qed.

  (** ** C58: what is written for an object depends on its parts only *)
  Lemma same_ltm {V} `{!Inhabited V} (m m' : gmap nat V) r : m' !! r = m !! r → m' !!! r = m !!! r.
  Proof. intros E. by rewrite !lookup_total_alt E. Qed.
  Lemma map_res_ext {A B} (f g : A → res B) l : (∀ x, x ∈ l → f x = g x) → map_res f l = map_res g l.
  Proof.
    induction l as [|x l IH]; intros H; [done|]. simpl. rewrite (H x (elem_of_list_here _ _)). rewrite IH //. intros y Hy. apply H. by apply elem_of_list_further.
  Qed.
  Lemma map_ext_elem {A B} (f g : A → B) l : (∀ x, x ∈ l → f x = g x) → map f l = map g l.
  Proof. intros H. apply map_ext_in. intros x Hx. apply H. by apply elem_of_list_In. Qed.

  Section Same.
    Context (h h' : heap F).
    Lemma same_planview v : h_pv h' !!! v = h_pv h !!! v → (∀ p, p ∈ pv_geoms (h_pv h !!! v) → h_geom h' !!! pg_geom p = h_geom h !!! pg_geom p) → planview_element h' v = planview_element h v.
    Proof. intros E G. unfold planview_element. rewrite E. f_equal. apply map_ext_elem. intros p Hp. unfold pgeom_element. by rewrite G. Qed.
    Lemma same_section s : h_sec h' !!! s = h_sec h !!! s → (∀ l, l ∈ section_lanes h s → h_lane h' !!! l = h_lane h !!! l) → section_element h' s = section_element h s.
    Proof.
      intros E G. unfold section_lanes in G. unfold section_element. rewrite E. 
      assert (∀ (tag : string) ls, (∀ l, l ∈ ls → h_lane h' !!! l = h_lane h !!! l) → map_res (λ l, lane_element (h_lane h' !!! l)) ls = map_res (λ l, lane_element (h_lane h !!! l)) ls) as M.
      { intros _ ls Hl. apply map_res_ext. intros l Hl'. by rewrite Hl. }
      rewrite (M "" (ls_left (h_sec h !!! s))); [intros; apply G; rewrite !elem_of_app; auto|].
      rewrite (M "" (ls_right (h_sec h !!! s))); [intros; apply G; rewrite !elem_of_app; auto|].
      rewrite (G (ls_center _)); [rewrite !elem_of_app elem_of_list_singleton; auto|]. done.
    Qed.

    Theorem C58_road x : (∀ r, road_part h x r → same_object h h' r) → road_element h' x = road_element h x.
    Proof.
      intros S. set (o := h_road h !!! x).
      assert (Eo : h_road h' !!! x = o) by (apply same_ltm, S; left; done).
      assert (Ev : h_pv h' !!! rd_planview o = h_pv h !!! rd_planview o) by (apply same_ltm, S; right; left; done).
      assert (El : h_lanes h' !!! rd_lanes o = h_lanes h !!! rd_lanes o) by (apply same_ltm, S; do 4 right; left; done).
      unfold road_element. rewrite Eo. fold o. 
      assert (E1 : lanes_element h' (rd_lanes o) = lanes_element h (rd_lanes o)).
      { unfold lanes_element. rewrite El. rewrite (map_res_ext (section_element h') (section_element h)); [|done]. intros s Hs. apply same_section.
        - apply same_ltm, S. do 5 right. left. exists s. auto.
        - intros l Hl. apply same_ltm, S. do 5 right. left. exists s. split; [done|]. unfold section_lanes in Hl. rewrite !elem_of_app elem_of_list_singleton in Hl. naive_solver. }
      assert (E2 : planview_element h' (rd_planview o) = planview_element h (rd_planview o)).
      { apply same_planview; [done|]. intros p Hp. apply same_ltm, S. do 3 right. left. by exists p. }
      assert (E3 : road_attributes h' o = road_attributes h o) by (unfold road_attributes; by rewrite Ev).
      assert (E4 : map (λ s, sobj_element (h_obj h' !!! s)) (rd_signals o) = map (λ s, sobj_element (h_obj h !!! s)) (rd_signals o)).
      { apply map_ext_elem. intros s Hs. f_equal. apply same_ltm, S. do 7 right. exact Hs. }
      assert (E5 : map (λ s, sobj_element (h_obj h' !!! s)) (rd_objects o) = map (λ s, sobj_element (h_obj h !!! s)) (rd_objects o)).
      { apply map_ext_elem. intros s Hs. f_equal. apply same_ltm, S. do 6 right. left. exact Hs. }
      rewrite E1 E2 E3. clear -E4 E5. destruct (rd_signals o); rewrite ?E4; (destruct (rd_objects o); rewrite ?E5; reflexivity).
    Qed.
    Theorem C58_network date d : (∀ r, network_part h d r → same_object h h' r) → odr_element date h' d = odr_element date h d.
    Proof.
      intros S. assert (Eo : h_odr h' !!! d = h_odr h !!! d) by (apply same_ltm, S; left; done).
      unfold odr_element. rewrite Eo. rewrite (map_res_ext (λ kv : string * ref, road_element h' kv.2) (λ kv : string * ref, road_element h kv.2)).
      { intros [k x] Hk. apply C58_road. intros r Hr. apply S. right. left. by exists k, x. }
      rewrite (map_ext_elem (junction_element h') (junction_element h)); [|done].
      intros j Hj. unfold junction_element. rewrite (same_ltm (h_junc h) (h_junc h')); [apply S; right; right; exists j; auto|]. f_equal.
      apply map_ext_elem. intros c Hc. f_equal. apply same_ltm, S. right. right. exists j. auto.
    Qed.
    Theorem C58_written date d filename pretty_ fs : (∀ r, network_part h d r → same_object h h' r) → write_xml date h' d filename pretty_ fs = write_xml date h d filename pretty_ fs.
    Proof.
      intros S. unfold write_xml. rewrite (C58_network date d S). assert (Eo : h_odr h' !!! d = h_odr h !!! d) by (apply same_ltm, S; left; done). by rewrite Eo.
    Qed.

    (* the parts are the same too *)
    Lemma same_road_part x r : (∀ r, road_part h x r → same_object h h' r) → road_part h' x r ↔ road_part h x r.
    Proof.
      intros S. set (o := h_road h !!! x).
      assert (Eo : h_road h' !!! x = o) by (apply same_ltm, S; left; done).
      assert (Ev : h_pv h' !!! rd_planview o = h_pv h !!! rd_planview o) by (apply same_ltm, S; right; left; done).
      assert (El : h_lanes h' !!! rd_lanes o = h_lanes h !!! rd_lanes o) by (apply same_ltm, S; do 4 right; left; done).
      assert (Es : ∀ s, s ∈ h_lanes h !!! rd_lanes o → h_sec h' !!! s = h_sec h !!! s).
      { intros s Hs. apply same_ltm, S. do 5 right. left. exists s. auto. }
      unfold road_part, view. rewrite Eo. fold o. rewrite Ev El. do 5 (apply or_iff_compat_l). apply or_iff_compat_r.
      split; intros (s & Hs & H); exists s; (split; [done|]); [rewrite -(Es s Hs)|rewrite (Es s Hs)]; done.
    Qed.
    Lemma same_network_part d r : (∀ r, network_part h d r → same_object h h' r) → network_part h' d r ↔ network_part h d r.
    Proof.
      intros S. assert (Eo : h_odr h' !!! d = h_odr h !!! d) by (apply same_ltm, S; left; done).
      unfold network_part. rewrite Eo. apply or_iff_compat_l. apply Morphisms_Prop.or_iff_morphism.
      - split; intros (k & x & Hx & H); exists k, x; (split; [done|]); apply (same_road_part x r); [|done| |done]; intros r' Hr'; apply S; right; left; by exists k, x.
      - split; intros (j & Hj & H); exists j; (split; [done|]); (rewrite (same_ltm (h_junc h) (h_junc h')) in H || rewrite (same_ltm (h_junc h) (h_junc h'))); try exact H; apply S; right; right; exists j; auto.
    Qed.
  End Same.

  (* the parts of an OpenDrive exist *)
  Lemma part_exists h d r : reachable h → exists_in h_odr h d → network_part h d r → existing h r.
  Proof.
    intros Hr Hd Hp. pose proof (reachable_no_dangling _ Hr) as N. pose proof (nd_odr _ N _ _ (exists_at _ _ _ Hd)) as (_ & Hroads & Hj). unfold existing.
    destruct Hp as [->|[(k & x & Hx & Hp)|(j & Hj' & Hp)]].
    - naive_solver.
    - pose proof (Hroads _ _ Hx) as Ex. pose proof (nd_road _ N _ _ (exists_at _ _ _ Ex)) as (_ & Hv & Hl & Ho). 
      pose proof (nd_pv _ N _ _ (exists_at _ _ _ Hv)) as (_ & Hraw & Hg). pose proof (nd_lanes _ N _ _ (exists_at _ _ _ Hl)) as (_ & HS). unfold exists_in in *.
      destruct Hp as [->|[->|[H|[(p & H & ->)|[->|[(s & Hs & H)|H]]]]]].
      + tauto.
      + tauto.
      + apply Hraw in H. tauto.
      + apply Hg in H. tauto.
      + tauto.
      + pose proof (HS s Hs) as Hse. pose proof (nd_sec _ N _ _ (exists_at _ _ _ Hse)) as (_ & Hc & Hlr).
        destruct H as [->|[->|H]]; [tauto| |]. { unfold exists_in in Hc. tauto. } assert (is_Some (h_lane h !! r)); [|tauto]. apply Hlr. by apply elem_of_app.
      + assert (is_Some (h_obj h !! r)); [|tauto]. apply Ho. by apply elem_of_app.
    - pose proof (Hj _ Hj') as Hjj. pose proof (nd_junc _ N _ _ (exists_at _ _ _ Hjj)) as (_ & Hc). unfold exists_in in *. destruct Hp as [->|Hp]; [tauto|]. apply Hc in Hp. tauto.
  Qed.

  (** a history that leaves the parts of a network alone changes neither its parts nor its file *)
  Theorem C58_history ops h d : reachable h → exists_in h_odr h d → leaves_alone (λ h, network_part h d) h ops →
    (∀ r, network_part h d r → same_object h (run h ops) r) ∧
    ∀ date filename pretty_ fs, write_xml date (run h ops) d filename pretty_ fs = write_xml date h d filename pretty_ fs.
  Proof.
    intros Hr Hd Ha. assert (S : ∀ r, network_part h d r → same_object h (run h ops) r); [|split; [done|intros; by apply C58_written]].
    revert h Hr Hd Ha. induction ops as [|o ops IH]; intros h Hr Hd Ha r Hp; [apply same_refl|].
    change (run h (o :: ops)) with (run (step o h).2 ops).
    assert (S : ∀ r, network_part h d r → same_object h (step o h).2 r).
    { intros r' Hr'. apply C57_frame; [done|by eapply part_exists|]. apply (Ha [] o ops eq_refl r' Hr'). }
    eapply same_trans; [by apply S|]. apply IH; [by apply reachable_step| | |by apply (same_network_part h _ d r S)].
    - unfold exists_in in *. destruct (S d (or_introl eq_refl)) as (_&_&_&_&_&_&_&_&_&_&->). done.
    - intros pre o' post ->. apply (Ha (o :: pre) o' post eq_refl).
  Qed.

  Lemma dict_get_elem {V} (m : dict V) k v : dict_get m k = Some v → (k, v) ∈ m.
  Proof.
    induction m as [|[k' v'] m IH]; [done|]. simpl. destruct (String.eqb_spec k k') as [->|]; [intros [= ->]; apply elem_of_list_here|]. intros H. apply elem_of_list_further. auto.
  Qed.
  (** placing a network changes only parts of it *)
  Lemma course_part h d r : course_of_network h d r → network_part h d r.
  Proof.
    intros (k & o & Ho & H). right. left. unfold road_named in Ho. destruct (dict_get _ k) as [x|] eqn:E; [|done]. simpl in Ho. injection Ho as <-.
    apply dict_get_elem in E. exists k, x. split; [done|]. unfold road_part. tauto.
  Qed.
  Lemma lane_part h d r : lane_of_network h d r → network_part h d r.
  Proof.
    intros (k & x & Hx & s & Hs & H). right. left. apply dict_get_elem in Hx. exists k, x. split; [done|]. do 5 right. left. exists s. tauto.
  Qed.
  (** two networks without common parts: working on one does not change what is written for the other *)
  Theorem C58_two_networks h d1 d2 o : reachable h → exists_in h_odr h d2 → (∀ r, network_part h d1 r → ¬ network_part h d2 r) →
    o = OpAdjustStartpoints d1 ∨ o = OpAdjustRoadsAndLanes d1 ∨ (∃ x, o = OpAddRoad d1 x) ∨ (∃ j, o = OpAddJunction d1 j) →
    ∀ date filename pretty_ fs, write_xml date (step o h).2 d2 filename pretty_ fs = write_xml date h d2 filename pretty_ fs.
  Proof.
    intros Hr Hd Hdis Ho. eapply (C58_history [o] h d2 Hr Hd). intros pre o' post E r Hp Ht.
    destruct pre as [|? [|? ?]]; [|discriminate E..]. injection E as <- _. simpl in *. apply (Hdis r); [|done].
    destruct Ho as [->|[->|[[x ->]|[j ->]]]]; simpl in Ht.
    - by apply course_part.
    - destruct Ht; [by apply course_part|by apply lane_part].
    - subst. by left.
    - subst. by left.
  Qed.
End Frames.

Section Examples.
  Local Existing Instance QNum.
  (* the parts of an OpenDrive as a list *)
  Definition road_parts (h : heap Z) (x : ref) : list ref :=
    let o := h_road h !!! x in
    [x; rd_planview o; rd_lanes o] ++ pv_raw (view h o) ++ map pg_geom (pv_geoms (view h o)) ++
    concat (map (λ s, [s; ls_center (h_sec h !!! s)] ++ ls_left (h_sec h !!! s) ++ ls_right (h_sec h !!! s)) (h_lanes h !!! rd_lanes o)) ++ rd_objects o ++ rd_signals o.
  Definition network_parts (h : heap Z) (d : ref) : list ref :=
    [d] ++ concat (map (λ kx : string * ref, road_parts h kx.2) (od_roads (h_odr h !!! d))) ++ concat (map (λ j, j :: jn_conns (h_junc h !!! j)) (od_junctions (h_odr h !!! d))).
  Lemma road_parts_listed h x r : road_part h x r → r ∈ road_parts h x.
  Proof.
    unfold road_part, road_parts. rewrite !elem_of_app !elem_of_cons.
    intros [->|[->|[H|[(p & Hp & ->)|[->|[(s & Hs & H)|[H|H]]]]]]]; [tauto|tauto|tauto| |tauto| |tauto|tauto].
    - right. right. left. apply elem_of_list_fmap. by exists p.
    - right. right. right. left. apply elem_of_list_In, in_concat. eexists. split; [apply in_map; by apply elem_of_list_In|]. apply elem_of_list_In. rewrite !elem_of_app !elem_of_cons. tauto.
  Qed.
  Lemma network_parts_listed h d r : network_part h d r → r ∈ network_parts h d.
  Proof.
    unfold network_part, network_parts. rewrite !elem_of_app elem_of_list_singleton. intros [->|[(k & x & Hx & H)|(j & Hj & H)]]; [tauto| |].
    - right. left. apply elem_of_list_In, in_concat. exists (road_parts h x). split; [apply in_map_iff; exists (k, x); split; [done|by apply elem_of_list_In]|]. by apply elem_of_list_In, road_parts_listed.
    - right. right. apply elem_of_list_In, in_concat. eexists. split; [apply in_map; by apply elem_of_list_In|]. apply elem_of_list_In. apply elem_of_cons. tauto.
  Qed.
  Lemma apart h d1 d2 : forallb (λ r, negb (existsb (Nat.eqb r) (network_parts h d2))) (network_parts h d1) = true → ∀ r, network_part h d1 r → ¬ network_part h d2 r.
  Proof.
    rewrite forallb_forall. intros H r H1 H2. apply network_parts_listed, elem_of_list_In in H1. apply network_parts_listed, elem_of_list_In in H2. specialize (H r H1).
    apply negb_true_iff in H. assert (existsb (Nat.eqb r) (network_parts h d2) = true) as X; [|congruence]. apply existsb_exists. exists r. split; [done|apply Nat.eqb_refl].
  Qed.

  (* OpenDrive 24 with the linked roads 7 and 15, OpenDrive 25 with road 23, which has the same id as 7 *)
  Definition nets : list (op Z) :=
    [OpCreateStraightRoad (PInt 1) 400%Z (-1) 1 12%Z; OpCreateStraightRoad (PInt 2) 200%Z (-1) 1 12%Z; OpCreateStraightRoad (PInt 1) 100%Z (-1) 1 12%Z;
     OpAddSuccessor 7 (Some et_road) (PInt 2) (Some cp_start) 0; OpAddPredecessor 15 (Some et_road) (PInt 1) (Some cp_end) 0;
     OpOpenDrive "a"; OpOpenDrive "b"; OpAddRoad 24 7; OpAddRoad 24 15; OpAddRoad 25 23].
  Example C58_example_hypotheses : let h := run heap_init nets in reachable h ∧ exists_in h_odr h 25 ∧ (∀ r, network_part h 24 r → ¬ network_part h 25 r) ∧ network_part h 25 17.
  Proof.
    intros h. split; [by eexists|]. split; [eexists; vm_compute; reflexivity|]. split; [apply apart; vm_compute; reflexivity|].
    right. left. exists "1", 23. split; [apply (bool_decide_unpack _); vm_compute; exact I|]. right. left. vm_compute. reflexivity.
  Qed.
  (** placing the first changes its file, not that of the second *)
  Definition written_length (w : write_result) : nat := match w with Written [(_, t)] => length t | _ => 0 end.
  Lemma differ {A} (t : A → nat) a b : (t a =? t b) = false → a ≠ b.
  Proof. intros H E. rewrite E Nat.eqb_refl in H. discriminate H. Qed.
  Example C58_example : let h := run heap_init nets in let h' := (step (OpAdjustRoadsAndLanes 24) h).2 in
    write_xml "today" h' 24 None false [] ≠ write_xml "today" h 24 None false [] ∧
    write_xml "today" h' 25 None true [] = write_xml "today" h 25 None true [] ∧ network_parts h' 25 = network_parts h 25.
  Proof.
    intros h h'. split; [|split; vm_compute; reflexivity].
    apply (differ written_length). vm_compute. reflexivity.
  Qed.
  (** the hypotheses of C58_history: both networks are there, the first grows and is placed *)
  Definition more_calls : list (op Z) := [OpAdjustRoadsAndLanes 24; OpLine 4%Z; OpCreateStraightRoad (PInt 7) 40%Z (-1) 2 12%Z].
  Lemma left_alone h : (∀ r, network_part h 24 r → ¬ network_part h 25 r) → (∀ r, network_part (run h more_calls) 24 r → ¬ network_part (run h more_calls) 25 r) →
    leaves_alone (λ h, network_part h 25) h (more_calls ++ [OpAddRoad 24 33]).
  Proof.
    intros A1 A2. 
    intros pre o post E r Hp.
    destruct pre as [|o1 [|o2 [|o3 [|o4 pre]]]].
    - injection E as <- _. intros Ht. refine (A1 r _ Hp). destruct Ht as [Ht|Ht]; [exact (course_part _ _ _ Ht)|exact (lane_part _ _ _ Ht)].
    - injection E as <- <- _. intros [].
    - injection E as <- <- <- _. intros [].
    - injection E as <- <- <- <- _. intros Ht. refine (A2 r _ Hp). left. exact Ht.
    - apply (f_equal length) in E. simpl in E. rewrite app_length in E. simpl in E. lia.
  Qed.
  Example C58_history_example : leaves_alone (λ h, network_part h 25) (run heap_init nets) (more_calls ++ [OpAddRoad 24 33]).
  Proof.
    apply left_alone; [apply apart; vm_compute; reflexivity|]. apply apart; vm_compute; reflexivity.
  Qed.
  (** C57: an object (11) next to a road (9): placing copies of it along the road leaves it as it is *)
  Example C57_example : let h := run heap_init roadside_setup in let o := OpAddObjectRoadside 9 11 20%Z 5%Z 1%Z side_both in
    reachable h ∧ existing h 11 ∧ ¬ touches o h 11 ∧ gives_ids o ∧ length (rd_objects (h_road (step o h).2 !!! 9)) = 2.
  Proof.
    intros h o. split; [by eexists|]. split; [do 8 right; left; eexists; vm_compute; reflexivity|]. split; [intros X; discriminate X|]. split; [exact I|]. vm_compute. reflexivity.
  Qed.
End Examples.

Print Assumptions C57_frame.
Print Assumptions C57_keeps.
Print Assumptions C57_ids.
Print Assumptions C57_history.
Print Assumptions C58_road.
Print Assumptions C58_network.
Print Assumptions C58_written.
Print Assumptions C58_history.
Print Assumptions C58_two_networks.
