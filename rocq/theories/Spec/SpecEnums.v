(** * The words of the OpenDRIVE format for the members of the enumerations *)
From Verif.Model Require Import Py Enums.

Definition rule_word (x : MarkRule) : string :=
  match x with
  | mr_no_passing => "no passing" | mr_caution => "caution" | mr_none => "none"
  end.
Definition lane_word (x : LaneType) : string :=
  match x with
  | lt_none => "none" | lt_driving => "driving" | lt_stop => "stop" | lt_shoulder => "shoulder" | lt_biking => "biking"
  | lt_sidewalk => "sidewalk" | lt_border => "border" | lt_restricted => "restricted" | lt_parking => "parking"
  | lt_bidirectional => "bidirectional" | lt_median => "median" | lt_special1 => "special1" | lt_special2 => "special2"
  | lt_special3 => "special3" | lt_roadWorks => "roadWorks" | lt_tram => "tram" | lt_rail => "rail" | lt_entry => "entry"
  | lt_exit => "exit" | lt_offRamp => "offRamp" | lt_onRamp => "onRamp" | lt_connectingRamp => "connectingRamp" | lt_bus => "bus"
  | lt_taxi => "taxi" | lt_HOV => "HOV" | lt_mwyEntry => "mwyEntry" | lt_mwyExit => "mwyExit"
  end.
Definition color_word (x : RoadMarkColor) : string :=
  match x with
  | col_standard => "standard" | col_blue => "blue" | col_green => "green" | col_red => "red" | col_white => "white"
  | col_yellow => "yellow" | col_orange => "orange"
  end.
Definition weight_word (x : RoadMarkWeight) : string :=
  match x with
  | wgt_standard => "standard" | wgt_bold => "bold"
  end.
Definition mark_word (x : RoadMarkType) : string :=
  match x with
  | rmt_none => "none" | rmt_solid => "solid" | rmt_broken => "broken" | rmt_solid_solid => "solid solid"
  | rmt_solid_broken => "solid broken" | rmt_broken_solid => "broken solid" | rmt_broken_broken => "broken broken"
  | rmt_botts_dots => "botts dots" | rmt_grass => "grass" | rmt_curb => "curb" | rmt_custom => "custom" | rmt_edge => "edge"
  end.
Definition change_word (x : LaneChange) : string :=
  match x with
  | lc_increase => "increase" | lc_decrease => "decrease" | lc_both => "both" | lc_none => "none"
  end.
Definition element_word (x : ElementType) : string :=
  match x with
  | et_road => "road" | et_junction => "junction"
  end.
Definition contact_word (x : ContactPoint) : string :=
  match x with
  | cp_start => "start" | cp_end => "end"
  end.
Definition direction_word (x : Direction) : string :=
  match x with
  | dir_same => "same" | dir_opposite => "opposite"
  end.
Definition object_word (x : ObjectType) : string :=
  match x with
  | ot_none => "none" | ot_obstacle => "obstacle" | ot_pole => "pole" | ot_tree => "tree" | ot_vegetation => "vegetation"
  | ot_barrier => "barrier" | ot_building => "building" | ot_parkingSpace => "parkingSpace" | ot_patch => "patch"
  | ot_railing => "railing" | ot_trafficIsland => "trafficIsland" | ot_crosswalk => "crosswalk" | ot_streetLamp => "streetLamp"
  | ot_gantry => "gantry" | ot_soundBarrier => "soundBarrier" | ot_roadMark => "roadMark"
  end.
Definition dynamic_word (x : Dynamic) : string :=
  match x with
  | dyn_yes => "yes" | dyn_no => "no"
  end.
