(** * pyodrx/enumerations.py and helpers.enum2str *)
From Verif.Model Require Import Py.

(** enumerations.py:5-10 *)
Inductive MarkRule := mr_no_passing | mr_caution | mr_none.
Definition MarkRule_name (x : MarkRule) : string :=
  match x with mr_no_passing => "no_passing" | mr_caution => "caution" | mr_none => "none" end.

(** enumerations.py:12-41 *)
Inductive LaneType :=
| lt_none | lt_driving | lt_stop | lt_shoulder | lt_biking | lt_sidewalk | lt_border | lt_restricted
| lt_parking | lt_bidirectional | lt_median | lt_special1 | lt_special2 | lt_special3 | lt_roadWorks
| lt_tram | lt_rail | lt_entry | lt_exit | lt_offRamp | lt_onRamp | lt_connectingRamp | lt_bus | lt_taxi
| lt_HOV | lt_mwyEntry | lt_mwyExit.
Definition LaneType_name (x : LaneType) : string :=
  match x with
  | lt_none => "none" | lt_driving => "driving" | lt_stop => "stop" | lt_shoulder => "shoulder"
  | lt_biking => "biking" | lt_sidewalk => "sidewalk" | lt_border => "border"
  | lt_restricted => "restricted" | lt_parking => "parking" | lt_bidirectional => "bidirectional"
  | lt_median => "median" | lt_special1 => "special1" | lt_special2 => "special2"
  | lt_special3 => "special3" | lt_roadWorks => "roadWorks" | lt_tram => "tram" | lt_rail => "rail"
  | lt_entry => "entry" | lt_exit => "exit" | lt_offRamp => "offRamp" | lt_onRamp => "onRamp"
  | lt_connectingRamp => "connectingRamp" | lt_bus => "bus" | lt_taxi => "taxi" | lt_HOV => "HOV"
  | lt_mwyEntry => "mwyEntry" | lt_mwyExit => "mwyExit"
  end.

(** enumerations.py:43-52 *)
Inductive RoadMarkColor :=
| col_standard | col_blue | col_green | col_red | col_white | col_yellow | col_orange.
Definition RoadMarkColor_name (x : RoadMarkColor) : string :=
  match x with
  | col_standard => "standard" | col_blue => "blue" | col_green => "green" | col_red => "red"
  | col_white => "white" | col_yellow => "yellow" | col_orange => "orange"
  end.

(** enumerations.py:56-60 *)
Inductive RoadMarkWeight := wgt_standard | wgt_bold.
Definition RoadMarkWeight_name (x : RoadMarkWeight) : string :=
  match x with wgt_standard => "standard" | wgt_bold => "bold" end.

(** enumerations.py:62-76 *)
Inductive RoadMarkType :=
| rmt_none | rmt_solid | rmt_broken | rmt_solid_solid | rmt_solid_broken | rmt_broken_solid
| rmt_broken_broken | rmt_botts_dots | rmt_grass | rmt_curb | rmt_custom | rmt_edge.
Definition RoadMarkType_name (x : RoadMarkType) : string :=
  match x with
  | rmt_none => "none" | rmt_solid => "solid" | rmt_broken => "broken"
  | rmt_solid_solid => "solid_solid" | rmt_solid_broken => "solid_broken"
  | rmt_broken_solid => "broken_solid" | rmt_broken_broken => "broken_broken"
  | rmt_botts_dots => "botts_dots" | rmt_grass => "grass" | rmt_curb => "curb"
  | rmt_custom => "custom" | rmt_edge => "edge"
  end.

(** enumerations.py:78-93 (RoadType, not an Enum and unused by the library) is not modelled. *)

(** enumerations.py:96-102 *)
Inductive LaneChange := lc_increase | lc_decrease | lc_both | lc_none.
Definition LaneChange_name (x : LaneChange) : string :=
  match x with
  | lc_increase => "increase" | lc_decrease => "decrease" | lc_both => "both" | lc_none => "none"
  end.

(** enumerations.py:104-108 *)
Inductive ElementType := et_road | et_junction.
Definition ElementType_name (x : ElementType) : string :=
  match x with et_road => "road" | et_junction => "junction" end.

(** enumerations.py:110-114 *)
Inductive ContactPoint := cp_start | cp_end.
Definition ContactPoint_name (x : ContactPoint) : string :=
  match x with cp_start => "start" | cp_end => "end" end.

(** enumerations.py:116-120 *)
Inductive Direction := dir_same | dir_opposite.
Definition Direction_name (x : Direction) : string :=
  match x with dir_same => "same" | dir_opposite => "opposite" end.

(** enumerations.py:122-127 *)
Inductive Orientation := or_positive | or_negative | or_none.
Definition Orientation_name (x : Orientation) : string :=
  match x with or_positive => "positive" | or_negative => "negative" | or_none => "none" end.

(** enumerations.py:129-147 *)
Inductive ObjectType :=
| ot_none | ot_obstacle | ot_pole | ot_tree | ot_vegetation | ot_barrier | ot_building
| ot_parkingSpace | ot_patch | ot_railing | ot_trafficIsland | ot_crosswalk | ot_streetLamp
| ot_gantry | ot_soundBarrier | ot_roadMark.
Definition ObjectType_name (x : ObjectType) : string :=
  match x with
  | ot_none => "none" | ot_obstacle => "obstacle" | ot_pole => "pole" | ot_tree => "tree"
  | ot_vegetation => "vegetation" | ot_barrier => "barrier" | ot_building => "building"
  | ot_parkingSpace => "parkingSpace" | ot_patch => "patch" | ot_railing => "railing"
  | ot_trafficIsland => "trafficIsland" | ot_crosswalk => "crosswalk"
  | ot_streetLamp => "streetLamp" | ot_gantry => "gantry" | ot_soundBarrier => "soundBarrier"
  | ot_roadMark => "roadMark"
  end.

(** enumerations.py:149-153 *)
Inductive Dynamic := dyn_yes | dyn_no.
Definition Dynamic_name (x : Dynamic) : string :=
  match x with dyn_yes => "yes" | dyn_no => "no" end.

(** enumerations.py:155-160 *)
Inductive RoadSide := side_both | side_left | side_right.
Definition RoadSide_name (x : RoadSide) : string :=
  match x with side_both => "both" | side_left => "left" | side_right => "right" end.

#[global] Instance MarkRule_eq_dec : EqDecision MarkRule. Proof. solve_decision. Defined.
#[global] Instance LaneType_eq_dec : EqDecision LaneType. Proof. solve_decision. Defined.
#[global] Instance RoadMarkColor_eq_dec : EqDecision RoadMarkColor. Proof. solve_decision. Defined.
#[global] Instance RoadMarkWeight_eq_dec : EqDecision RoadMarkWeight. Proof. solve_decision. Defined.
#[global] Instance RoadMarkType_eq_dec : EqDecision RoadMarkType. Proof. solve_decision. Defined.
#[global] Instance LaneChange_eq_dec : EqDecision LaneChange. Proof. solve_decision. Defined.
#[global] Instance ElementType_eq_dec : EqDecision ElementType. Proof. solve_decision. Defined.
#[global] Instance ContactPoint_eq_dec : EqDecision ContactPoint. Proof. solve_decision. Defined.
#[global] Instance Direction_eq_dec : EqDecision Direction. Proof. solve_decision. Defined.
#[global] Instance Orientation_eq_dec : EqDecision Orientation. Proof. solve_decision. Defined.
#[global] Instance ObjectType_eq_dec : EqDecision ObjectType. Proof. solve_decision. Defined.
#[global] Instance Dynamic_eq_dec : EqDecision Dynamic. Proof. solve_decision. Defined.
#[global] Instance RoadSide_eq_dec : EqDecision RoadSide. Proof. solve_decision. Defined.

(** helpers.py:28-40 [enum2str]: the member name with '_' replaced by ' '. *)
Definition enum2str (name : string) : string := str_replace "_"%char " "%char name.
