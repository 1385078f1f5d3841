(** Specification side of the values shown by decoded vector graphics elements: where in the
    record, counted in bytes from its start, each attribute is stored. *)
From Verif Require Import Base Floats Strings Structs Tools VgfBase VgfRead SpecVgf SpecVgfLoop.
From Coq Require Import String List.
Import ListNotations.
Open Scope string_scope.
Open Scope list_scope.
Open Scope Z_scope.

(** What is stored at a byte of the record: big-endian numbers unless LE, texts of a width. *)
Inductive place :=
| Byte (o : Z)             (* unsigned byte *)
| SByte (o : Z)            (* signed byte *)
| Int (o : Z)              (* signed 32-bit integer *)
| IntLE (o : Z)            (* the same, little-endian *)
| NatLE (o : Z)            (* unsigned 32-bit integer, little-endian *)
| Nat (o : Z)              (* unsigned 32-bit integer *)
| Float (o : Z)            (* 32-bit float *)
| Real (o n : Z)           (* 32-bit float, rounded to [n] decimals *)
| RealLE (o n : Z)         (* the same, little-endian *)
| Coord (o : Z)            (* 32-bit float, rounded to two decimals as an array item *)
| Whole (o : Z)            (* 32-bit float, without its fraction *)
| Chars (o n : Z)          (* text field of [n] bytes (C53: up to the NUL, white space dropped) *)
| Text (o n : Z)           (* text of [n] bytes, up to the NUL *)
| Clean (o n : Z)          (* the same, '$$' as line breaks, white space at the ends dropped *)
| Fixed (v : pyval).       (* not stored in this version of the record *)

Definition at_byte (p : nat) (o : Z) : nat := (p + Z.to_nat o)%nat.
Definition bytes_at (d : bytes) (p : nat) (o n : Z) : bytes := firstn (Z.to_nat n) (skipn (at_byte p o) d).
Definition u32le_at (b : bytes) (i : nat) : Z :=
  nth i b 0 + 256 * (nth (i + 1) b 0 + 256 * (nth (i + 2) b 0 + 256 * nth (i + 3) b 0)).
Definition i32le_at (b : bytes) (i : nat) : Z :=
  let u := u32le_at b i in if u <? 2147483648 then u else u - 4294967296.
Definition f32le_at (b : bytes) (i : nat) : flt := unpack_f32 LE (firstn 4 (skipn i b)).

(** [v] is what the record at byte [p] of the file [d] stores at a place. *)
Definition shows (d : bytes) (p : nat) (pl : place) (v : pyval) : Prop :=
  match pl with
  | Byte o => v = VInt (nth (at_byte p o) d 0)
  | SByte o => v = VInt (let b := nth (at_byte p o) d 0 in if b <? 128 then b else b - 256)
  | Int o => v = VInt (i32_at d (at_byte p o))
  | IntLE o => v = VInt (i32le_at d (at_byte p o))
  | NatLE o => v = VInt (u32le_at d (at_byte p o))
  | Nat o => v = VInt (u32_at d (at_byte p o))
  | Float o => v = VFloat (f32_at d (at_byte p o))
  | Real o n => v = VFloat (py_round n (f32_at d (at_byte p o)))
  | RealLE o n => v = VFloat (py_round n (f32le_at d (at_byte p o)))
  | Coord o => v = VFloat (around2 (f32_at d (at_byte p o)))
  | Whole o => exists z, int_of_float (f32_at d (at_byte p o)) = Ok z /\ v = VInt z
  | Chars o n => v = VText (decode_strip_null (bytes_at d p o n))
  | Text o n => exists s, decode_strict (before_nul (bytes_at d p o n)) = Ok s /\ v = VText s
  | Clean o n => exists s, decode_strict (before_nul (bytes_at d p o n)) = Ok s /\ v = VText (ustrip (replace_dollars s))
  | Fixed w => v = w
  end.

(** ** The attributes of each kind of record; bytes 0 to 39 are the header *)

(** Front *)
Definition front_fields : list (string * place) :=
  [("number_points", Int 40); ("front_code", Int 44); ("pip_size", Int 48); ("pip_stroke", Int 52);
   ("pip_direction", Int 56); ("width", Int 60); ("label", Chars 64 4)].
(** Symbol *)
Definition symbol_fields : list (string * place) :=
  [("number_symbols", Int 40); ("width", Int 44); ("size", Real 48 1); ("symbol_type", Int 52);
   ("symbol_code", Whole 56); ("lat", Real 60 2); ("lon", Real 64 2); ("offset_x", Int 68); ("offset_y", Int 72)].
(** Line and circle *)
Definition line_fields : list (string * place) :=
  [("number_points", Int 40); ("line_type", Int 44); ("line_type_hardware", Int 48); ("width", Int 52);
   ("line_width_hardware", Int 56)].
(** Special line *)
Definition special_line_fields : list (string * place) :=
  [("number_points", Int 40); ("line_type", Int 44); ("stroke", Int 48); ("direction", Int 52); ("size", Real 56 1);
   ("width", Int 60)].
(** List *)
Definition list_fields : list (string * place) :=
  [("list_type", Int 40); ("marker_type", Int 44); ("marker_size", Real 48 1); ("marker_width", Int 52);
   ("number_items", Int 56)].
(** Text, but for the text itself *)
Definition text_fields : list (string * place) :=
  [("rotation", Real 40 1); ("size", Real 44 3); ("font", Int 48); ("text_flag", Int 52); ("width", Int 56);
   ("align", Int 60); ("lat", Real 64 2); ("lon", Real 68 2); ("offset_x", Int 72); ("offset_y", Int 76)].
(** Special text, but for the text itself *)
Definition special_text_fields : list (string * place) :=
  [("rotation", Real 40 1); ("size", Real 44 3); ("text_type", Int 48); ("turbulence_symbol", Int 52);
   ("font", Int 56); ("text_flag", Int 60); ("width", Int 64); ("text_color", Int 68); ("line_color", Int 72);
   ("fill_color", Int 76); ("align", Int 80); ("lat", Real 84 2); ("lon", Real 88 2); ("offset_x", Int 92);
   ("offset_y", Int 96)].
(** Storm track *)
Definition track_fields : list (string * place) :=
  [("track_type", Int 40); ("total_points", Int 44); ("initial_points", Int 48); ("initial_line_type", Int 52);
   ("extrapolated_line_type", Int 56); ("initial_mark_type", Int 60); ("extrapolated_mark_type", Int 64);
   ("line_width", Int 68); ("speed", Real 72 2); ("direction", Real 76 2); ("increment", Int 80); ("skip", Int 84);
   ("font", Int 88); ("font_flag", Int 92); ("font_size", RealLE 96 1)].
(** Storm track without font *)
Definition track_fields_skip : list (string * place) :=
  [("track_type", Int 40); ("total_points", Int 44); ("initial_points", Int 48); ("initial_line_type", Int 52);
   ("extrapolated_line_type", Int 56); ("initial_mark_type", Int 60); ("extrapolated_mark_type", Int 64);
   ("line_width", Int 68); ("speed", Real 72 2); ("direction", Real 76 2); ("increment", Int 80); ("skip", Int 84);
   ("font", Fixed (VInt 1)); ("font_flag", Fixed (VInt 2)); ("font_size", Fixed (VFloat (of_Z 1)))].
(** Storm track without skip factor and font *)
Definition track_fields_old : list (string * place) :=
  [("track_type", Int 40); ("total_points", Int 44); ("initial_points", Int 48); ("initial_line_type", Int 52);
   ("extrapolated_line_type", Int 56); ("initial_mark_type", Int 60); ("extrapolated_mark_type", Int 64);
   ("line_width", Int 68); ("speed", Real 72 2); ("direction", Real 76 2); ("increment", Int 80);
   ("skip", Fixed (VInt 0)); ("font", Fixed (VInt 1)); ("font_flag", Fixed (VInt 2));
   ("font_size", Fixed (VFloat (of_Z 1)))].
(** Sigmet of version 0, but for its status *)
Definition sigmet_fields_0 : list (string * place) :=
  [("subtype", Int 40); ("number_points", Int 44); ("line_type", Int 48); ("line_width", Int 52);
   ("side_of_line", Int 56); ("area", Chars 60 8); ("flight_info_region", Chars 68 32); ("distance", Float 104);
   ("message_id", Chars 108 12); ("sequence_number", Int 120); ("start_time", Chars 124 20);
   ("end_time", Chars 144 20); ("remarks", Chars 164 80); ("sonic", Int 244); ("phenomena", Chars 248 32);
   ("phenomena2", Fixed (VText [])); ("phenomena_name", Fixed (VText [])); ("phenomena_lat", Fixed (VText []));
   ("phenomena_lon", Fixed (VText [])); ("pressure", Fixed (VInt missing_int));
   ("max_wind", Fixed (VInt missing_int)); ("free_text", Fixed (VText [])); ("trend", Chars 280 8);
   ("movement", Chars 288 8); ("type_indicator", Int 296); ("type_time", Chars 300 20); ("flight_level", Int 320);
   ("speed", Int 324); ("direction", Chars 328 4); ("tops", Chars 332 80); ("forecaster", Chars 412 16)].
(** Sigmet of version 1, but for its status *)
Definition sigmet_fields_1 : list (string * place) :=
  [("subtype", Int 40); ("number_points", Int 44); ("line_type", Int 48); ("line_width", Int 52);
   ("side_of_line", Int 56); ("area", Chars 60 8); ("flight_info_region", Chars 68 32); ("distance", Float 104);
   ("message_id", Chars 108 12); ("sequence_number", Int 120); ("start_time", Chars 124 20);
   ("end_time", Chars 144 20); ("remarks", Chars 164 80); ("sonic", Int 244); ("phenomena", Chars 248 32);
   ("phenomena2", Chars 280 32); ("phenomena_name", Chars 312 36); ("phenomena_lat", Chars 348 8);
   ("phenomena_lon", Chars 356 8); ("pressure", Int 364); ("max_wind", Int 368); ("free_text", Chars 372 256);
   ("trend", Chars 628 8); ("movement", Chars 636 8); ("type_indicator", Int 644); ("type_time", Chars 648 20);
   ("flight_level", Int 668); ("speed", Int 672); ("direction", Chars 676 4); ("tops", Chars 680 80);
   ("forecaster", Chars 760 16)].
(** Collaborative convective forecast; part of it is little-endian *)
Definition ccf_fields : list (string * place) :=
  [("subtype", Int 40); ("number_points", Int 44); ("coverage", Int 48); ("storm_tops", Int 52);
   ("probability", Int 56); ("growth", Int 60); ("speed", Real 64 2); ("direction", Real 68 2);
   ("text_lat", RealLE 72 2); ("text_lon", RealLE 76 2); ("arrow_lat", RealLE 80 2); ("arrow_lon", RealLE 84 2);
   ("high_fill", IntLE 88); ("med_fill", IntLE 92); ("low_fill", IntLE 96); ("line_type", IntLE 100);
   ("arrow_size", RealLE 104 1); ("rotation", Real 108 1); ("text_size", Real 112 3); ("text_type", Int 116);
   ("turbulence_symbol", Int 120); ("font", NatLE 124); ("text_flag", NatLE 128); ("width", NatLE 132);
   ("fill_color", Int 144); ("align", Int 148); ("offset_x", Int 160); ("offset_y", Int 164); ("text", Chars 168 255);
   ("text_layout", Text 424 256)].
(** Volcano *)
Definition volcano_fields : list (string * place) :=
  [("name", Chars 40 64); ("code", Real 104 1); ("size", Real 108 1); ("width", Int 112); ("number", Chars 116 17);
   ("location", Chars 133 17); ("area", Chars 150 33); ("origin_station", Chars 183 17); ("vaac", Chars 200 33);
   ("wmo_id", Chars 233 8); ("header_number", Chars 241 9); ("elevation", Chars 250 9); ("year", Chars 259 9);
   ("advisory_number", Chars 268 9); ("correction", Chars 277 4); ("info_source", Chars 281 256);
   ("additional_source", Chars 537 256); ("aviation_color", Chars 793 16); ("details", Chars 809 256);
   ("obs_date", Chars 1065 16); ("obs_time", Chars 1081 16); ("obs_ash", Chars 1097 1024);
   ("forecast_6hr", Chars 2121 1024); ("forecast_12hr", Chars 3145 1024); ("forecast_18hr", Chars 4169 1024);
   ("remarks", Chars 5193 512); ("next_advisory", Chars 5705 128); ("forecaster", Chars 5833 64);
   ("lat", Real 5900 2); ("lon", Real 5904 2); ("offset_x", Int 5908); ("offset_y", Int 5912)].
(** Ash cloud *)
Definition ash_fields : list (string * place) :=
  [("subtype", Int 40); ("number_points", Int 44); ("distance", Real 48 2); ("forecast_hour", Int 52);
   ("line_type", Int 56); ("line_width", Int 60); ("side_of_line", Int 64); ("speed", Real 68 2);
   ("speeds", Chars 72 16); ("direction", Chars 88 4); ("flight_level1", Chars 92 16);
   ("flight_level2", Chars 108 16); ("rotation", Real 124 1); ("text_size", Real 128 3); ("text_type", Int 132);
   ("turbulence_symbol", Int 136); ("font", Int 140); ("text_flag", Int 144); ("width", Int 148);
   ("text_color", Int 152); ("line_color", Int 156); ("fill_color", Int 160); ("align", Int 164);
   ("text_lat", Real 168 2); ("text_lon", Real 172 2); ("offset_x", Int 176); ("offset_y", Int 180);
   ("text", Text 184 255)].
(** Graphical forecast area *)
Definition gfa_fields : list (string * place) :=
  [("number_blocks", Int 40); ("number_points", Int 44)].
(** Wind *)
Definition wind_fields : list (string * place) :=
  [("number_wind", Int 40); ("width", Int 44); ("size", Real 48 1); ("wind_type", Int 52); ("head_size", Real 56 1);
   ("speed", Real 60 2); ("direction", Real 64 2); ("lat", Real 68 2); ("lon", Real 72 2)].
(** Line of a jet stream *)
Definition jet_line_fields : list (string * place) :=
  [("line_color", Int 40); ("number_points", Int 44); ("line_type", Int 48); ("stroke", Int 52);
   ("direction", Int 56); ("size", Real 60 1); ("width", Int 64)].
(** Barb of a jet stream, from the start of the barb (360 bytes) *)
Definition barb_fields : list (string * place) :=
  [("wind_color", Int 0); ("number_wind", Int 4); ("width", Int 8); ("size", Real 12 1); ("wind_type", Int 16);
   ("head_size", Real 20 1); ("speed", Real 24 2); ("direction", Real 28 2); ("lat", Real 32 2); ("lon", Real 36 2);
   ("flight_level_color", Int 40); ("text_rotation", Real 44 1); ("text_size", Real 48 3); ("text_type", Int 52);
   ("turbulence_symbol", Int 56); ("font", Int 60); ("text_flag", Int 64); ("text_width", Int 68);
   ("text_color", Int 72); ("line_color", Int 76); ("fill_color", Int 80); ("align", Int 84); ("text_lat", Real 88 2);
   ("text_lon", Real 92 2); ("offset_x", Int 96); ("offset_y", Int 100); ("text", Chars 104 255)].
(** Hash of a jet stream, from its start (40 bytes) *)
Definition hash_fields : list (string * place) :=
  [("wind_color", Int 0); ("number_wind", Int 4); ("width", Int 8); ("size", Real 12 1); ("wind_type", Int 16);
   ("head_size", Real 20 1); ("speed", Real 24 2); ("direction", Real 28 2); ("lat", Real 32 2); ("lon", Real 36 2)].
(** Watch box of version 0 *)
Definition watch_fields_0 : list (string * place) :=
  [("number_points", Int 40); ("style", Int 44); ("shape", Int 184); ("marker_type", Fixed (VInt 1));
   ("marker_size", Fixed (VFloat (of_Z 1))); ("marker_width", Fixed (VInt 1)); ("anchor0_station", Fixed (VText []));
   ("anchor0_lat", Fixed (VFloat missing_float)); ("anchor0_lon", Fixed (VFloat missing_float));
   ("anchor0_distance", Fixed (VFloat missing_float)); ("anchor0_direction", Fixed (VText []));
   ("anchor1_station", Fixed (VText [])); ("anchor1_lat", Fixed (VFloat missing_float));
   ("anchor1_lon", Fixed (VFloat missing_float)); ("anchor1_distance", Fixed (VFloat missing_float));
   ("anchor1_direction", Fixed (VText [])); ("status", Fixed (VInt 0)); ("number", Int 52);
   ("issue_time", Fixed (VInt 0)); ("expire_time", Fixed (VInt 0)); ("watch_type", Int 48);
   ("severity", Fixed (VInt 0)); ("timezone", Fixed (VText [])); ("max_hail", Fixed (VText []));
   ("max_wind", Fixed (VText [])); ("max_tops", Fixed (VText [])); ("mean_storm_speed", Fixed (VText []));
   ("mean_storm_direction", Fixed (VText [])); ("states", Fixed (VText [])); ("adjacent_areas", Fixed (VText []));
   ("replacing", Fixed (VText [])); ("forecaster", Fixed (VText [])); ("filename", Chars 56 128);
   ("issue_flag", Fixed (VInt 0)); ("wsm_issue_time", Fixed (VText [])); ("wsm_expire_time", Fixed (VText []));
   ("wsm_reference_direction", Fixed (VText [])); ("wsm_recent_from_line", Fixed (VText []));
   ("wsm_md_number", Fixed (VText [])); ("wsm_forecaster", Fixed (VText [])); ("number_counties", Fixed (VInt 0));
   ("plot_counties", Fixed (VInt 1))].
(** Watch box of version 1 *)
Definition watch_fields_1 : list (string * place) :=
  [("number_points", Int 40); ("style", Int 44); ("shape", Int 48); ("marker_type", Fixed (VInt 1));
   ("marker_size", Fixed (VFloat (of_Z 1))); ("marker_width", Fixed (VInt 1)); ("anchor0_station", Fixed (VText []));
   ("anchor0_lat", Fixed (VFloat missing_float)); ("anchor0_lon", Fixed (VFloat missing_float));
   ("anchor0_distance", Fixed (VFloat missing_float)); ("anchor0_direction", Fixed (VText []));
   ("anchor1_station", Fixed (VText [])); ("anchor1_lat", Fixed (VFloat missing_float));
   ("anchor1_lon", Fixed (VFloat missing_float)); ("anchor1_distance", Fixed (VFloat missing_float));
   ("anchor1_direction", Fixed (VText [])); ("status", Int 52); ("number", Int 56); ("issue_time", Chars 60 20);
   ("expire_time", Chars 80 20); ("watch_type", Int 100); ("severity", Int 104); ("timezone", Chars 108 4);
   ("max_hail", Chars 112 8); ("max_wind", Chars 120 8); ("max_tops", Chars 128 8); ("mean_storm_speed", Chars 144 8);
   ("mean_storm_direction", Chars 136 8); ("states", Chars 152 20); ("adjacent_areas", Chars 172 20);
   ("replacing", Chars 192 24); ("forecaster", Chars 216 64); ("filename", Chars 280 128); ("issue_flag", Int 408);
   ("wsm_issue_time", Chars 412 20); ("wsm_expire_time", Chars 432 20); ("wsm_reference_direction", Chars 452 32);
   ("wsm_recent_from_line", Chars 484 128); ("wsm_md_number", Chars 612 8); ("wsm_forecaster", Chars 620 64);
   ("number_counties", Fixed (VInt 0)); ("plot_counties", Fixed (VInt 1))].
(** Watch box of version 2 *)
Definition watch_fields_2 : list (string * place) :=
  [("number_points", Int 40); ("style", Int 44); ("shape", Int 48); ("marker_type", Fixed (VInt 1));
   ("marker_size", Fixed (VFloat (of_Z 1))); ("marker_width", Fixed (VInt 1)); ("anchor0_station", Fixed (VText []));
   ("anchor0_lat", Fixed (VFloat missing_float)); ("anchor0_lon", Fixed (VFloat missing_float));
   ("anchor0_distance", Fixed (VFloat missing_float)); ("anchor0_direction", Fixed (VText []));
   ("anchor1_station", Fixed (VText [])); ("anchor1_lat", Fixed (VFloat missing_float));
   ("anchor1_lon", Fixed (VFloat missing_float)); ("anchor1_distance", Fixed (VFloat missing_float));
   ("anchor1_direction", Fixed (VText [])); ("status", Int 52); ("number", Int 56); ("issue_time", Chars 60 20);
   ("expire_time", Chars 80 20); ("watch_type", Int 100); ("severity", Int 104); ("timezone", Chars 108 4);
   ("max_hail", Chars 112 8); ("max_wind", Chars 120 8); ("max_tops", Chars 128 8); ("mean_storm_speed", Chars 144 8);
   ("mean_storm_direction", Chars 136 8); ("states", Chars 152 20); ("adjacent_areas", Chars 172 20);
   ("replacing", Chars 192 24); ("forecaster", Chars 216 64); ("filename", Chars 280 128); ("issue_flag", Int 408);
   ("wsm_issue_time", Chars 412 20); ("wsm_expire_time", Chars 432 20); ("wsm_reference_direction", Chars 452 32);
   ("wsm_recent_from_line", Chars 484 128); ("wsm_md_number", Chars 612 8); ("wsm_forecaster", Chars 620 64);
   ("number_counties", Int 684); ("plot_counties", Int 688)].
(** Watch box of version 3 *)
Definition watch_fields_3 : list (string * place) :=
  [("number_points", Int 40); ("style", Int 44); ("shape", Int 48); ("marker_type", Fixed (VInt 1));
   ("marker_size", Fixed (VFloat (of_Z 1))); ("marker_width", Fixed (VInt 1)); ("anchor0_station", Chars 52 8);
   ("anchor0_lat", Real 60 2); ("anchor0_lon", Real 64 2); ("anchor0_distance", Int 68);
   ("anchor0_direction", Chars 72 4); ("anchor1_station", Chars 76 8); ("anchor1_lat", Real 84 2);
   ("anchor1_lon", Real 88 2); ("anchor1_distance", Int 92); ("anchor1_direction", Chars 96 4); ("status", Int 100);
   ("number", Int 104); ("issue_time", Chars 108 20); ("expire_time", Chars 128 20); ("watch_type", Int 148);
   ("severity", Int 152); ("timezone", Chars 156 4); ("max_hail", Chars 160 8); ("max_wind", Chars 168 8);
   ("max_tops", Chars 176 8); ("mean_storm_speed", Chars 192 8); ("mean_storm_direction", Chars 184 8);
   ("states", Chars 200 20); ("adjacent_areas", Chars 220 20); ("replacing", Chars 240 24);
   ("forecaster", Chars 264 64); ("filename", Chars 328 128); ("issue_flag", Int 456);
   ("wsm_issue_time", Chars 460 20); ("wsm_expire_time", Chars 480 20); ("wsm_reference_direction", Chars 500 32);
   ("wsm_recent_from_line", Chars 532 128); ("wsm_md_number", Chars 660 8); ("wsm_forecaster", Chars 668 64);
   ("number_counties", Int 732); ("plot_counties", Int 736)].
(** Watch box of version 4 *)
Definition watch_fields_4 : list (string * place) :=
  [("number_points", Int 40); ("style", Int 44); ("shape", Int 48); ("marker_type", Fixed (VInt 1));
   ("marker_size", Fixed (VFloat (of_Z 1))); ("marker_width", Fixed (VInt 1)); ("anchor0_station", Chars 52 8);
   ("anchor0_lat", Real 60 2); ("anchor0_lon", Real 64 2); ("anchor0_distance", Int 68);
   ("anchor0_direction", Chars 72 4); ("anchor1_station", Chars 76 8); ("anchor1_lat", Real 84 2);
   ("anchor1_lon", Real 88 2); ("anchor1_distance", Int 92); ("anchor1_direction", Chars 96 4); ("status", Int 100);
   ("number", Int 104); ("issue_time", Chars 108 20); ("expire_time", Chars 128 20); ("watch_type", Int 148);
   ("severity", Int 152); ("timezone", Chars 156 4); ("max_hail", Chars 160 8); ("max_wind", Chars 168 8);
   ("max_tops", Chars 176 8); ("mean_storm_speed", Chars 192 8); ("mean_storm_direction", Chars 184 8);
   ("states", Chars 200 80); ("adjacent_areas", Chars 280 80); ("replacing", Chars 360 24);
   ("forecaster", Chars 384 64); ("filename", Chars 448 128); ("issue_flag", Int 576);
   ("wsm_issue_time", Chars 580 20); ("wsm_expire_time", Chars 600 20); ("wsm_reference_direction", Chars 620 32);
   ("wsm_recent_from_line", Chars 652 128); ("wsm_md_number", Chars 780 8); ("wsm_forecaster", Chars 788 64);
   ("number_counties", Int 852); ("plot_counties", Int 856)].
(** Watch box of version 5 *)
Definition watch_fields_5 : list (string * place) :=
  [("number_points", Int 40); ("style", Int 44); ("shape", Int 48); ("marker_type", Fixed (VInt 1));
   ("marker_size", Fixed (VFloat (of_Z 1))); ("marker_width", Fixed (VInt 1)); ("anchor0_station", Chars 52 8);
   ("anchor0_lat", Real 60 2); ("anchor0_lon", Real 64 2); ("anchor0_distance", Int 68);
   ("anchor0_direction", Chars 72 4); ("anchor1_station", Chars 76 8); ("anchor1_lat", Real 84 2);
   ("anchor1_lon", Real 88 2); ("anchor1_distance", Int 92); ("anchor1_direction", Chars 96 4); ("status", Int 100);
   ("number", Int 104); ("issue_time", Chars 108 20); ("expire_time", Chars 128 20); ("watch_type", Int 148);
   ("severity", Int 152); ("timezone", Chars 156 4); ("max_hail", Chars 160 8); ("max_wind", Chars 168 8);
   ("max_tops", Chars 176 8); ("mean_storm_speed", Chars 192 8); ("mean_storm_direction", Chars 184 8);
   ("states", Chars 200 80); ("adjacent_areas", Chars 280 80); ("replacing", Chars 360 24);
   ("forecaster", Chars 384 64); ("filename", Chars 448 128); ("issue_flag", Int 576);
   ("wsm_issue_time", Chars 580 20); ("wsm_expire_time", Chars 600 20); ("wsm_reference_direction", Chars 620 32);
   ("wsm_recent_from_line", Chars 652 128); ("wsm_md_number", Chars 780 8); ("wsm_forecaster", Chars 788 64);
   ("number_counties", Int 852); ("plot_counties", Int 856)].
(** Watch box of version 6 *)
Definition watch_fields_6 : list (string * place) :=
  [("number_points", Int 40); ("style", Int 44); ("shape", Int 48); ("marker_type", Int 52);
   ("marker_size", Real 56 1); ("marker_width", Int 60); ("anchor0_station", Chars 64 8); ("anchor0_lat", Real 72 2);
   ("anchor0_lon", Real 76 2); ("anchor0_distance", Int 80); ("anchor0_direction", Chars 84 4);
   ("anchor1_station", Chars 88 8); ("anchor1_lat", Real 96 2); ("anchor1_lon", Real 100 2);
   ("anchor1_distance", Int 104); ("anchor1_direction", Chars 108 4); ("status", Int 112); ("number", Int 116);
   ("issue_time", Chars 120 20); ("expire_time", Chars 140 20); ("watch_type", Int 160); ("severity", Int 164);
   ("timezone", Chars 168 4); ("max_hail", Chars 172 8); ("max_wind", Chars 180 8); ("max_tops", Chars 188 8);
   ("mean_storm_speed", Chars 204 8); ("mean_storm_direction", Chars 196 8); ("states", Chars 212 80);
   ("adjacent_areas", Chars 292 80); ("replacing", Chars 372 24); ("forecaster", Chars 396 64);
   ("filename", Chars 460 128); ("issue_flag", Int 588); ("wsm_issue_time", Chars 592 20);
   ("wsm_expire_time", Chars 612 20); ("wsm_reference_direction", Chars 632 32);
   ("wsm_recent_from_line", Chars 664 128); ("wsm_md_number", Chars 792 8); ("wsm_forecaster", Chars 800 64);
   ("number_counties", Int 864); ("plot_counties", Int 868)].

(** ** The record as a whole *)

(** What an element shows: its kind, attributes, the records it holds (name, where each starts,
    its attributes from there), further arrays, latitudes and longitudes; and the length of the
    record. *)
Inductive points := NoPoints | Missing | Points (l : list place).
Record layout := mk_layout {
  l_kind : string; l_fields : list (string * place); l_subs : list (string * Z * list (string * place));
  l_arrays : list (string * list place); l_lat : points; l_lon : points; l_end : Z }.

Definition range (n : Z) : list Z := map Z.of_nat (seq 0 (Z.to_nat n)).
(** [n] four-byte items from byte [o] on *)
Definition items_at (f : Z -> place) (o n : Z) : list place := map (fun k => f (o + 4 * k)) (range n).
(** [n] records of [w] bytes from byte [o] on *)
Definition subs_at (name : string) (o w n : Z) (fs : list (string * place)) : list (string * Z * list (string * place)) :=
  map (fun k => (name, o + w * k, fs)) (range n).
(** The points of most elements: [n] latitudes, then [n] longitudes, rounded; none when [n] < 1 *)
Definition rounded (o n : Z) : points := if 1 <=? n then Points (items_at Coord o n) else Missing.
Definition raw (o n : Z) : points := Points (items_at Float o n).
(** The first point again at the end *)
Definition closing (b : bool) (q : points) : points :=
  match q with Points l => Points (if b then l ++ firstn 1 l else l) | _ => q end.
Definition turning (b : bool) (q : points) : points :=
  match q with Points l => Points (if b then rev l else l) | _ => q end.
Definition within (a b z : Z) : bool := (a <=? z) && (z <=? b).

Section Layout.
Variables (d : bytes) (p : nat).
Definition int_at (o : Z) : Z := i32_at d (at_byte p o).
Definition version_at : Z := nth (p + 6) d 0.
Definition is_closed : bool := negb (closed_at d p =? 0).

Definition with_points (kind : string) (fs : list (string * place)) (o n : Z) : layout :=
  mk_layout kind fs [] [] (rounded o n) (rounded (o + 4 * n) n) (o + 8 * Z.max 0 n).
Definition without_points (kind : string) (fs : list (string * place)) (len : Z) : layout :=
  mk_layout kind fs [] [] NoPoints NoPoints len.

(** Lines and special lines have at least one point. *)
Definition line_layout : option layout :=
  let n := int_at 40 in let c := is_closed && (2 <? n) in
  if 1 <=? n then
    Some (mk_layout "LineElement" line_fields [] [] (closing c (rounded 60 n)) (closing c (rounded (60 + 4 * n) n)) (60 + 8 * n))
  else None.
Definition special_line_layout : option layout :=
  let n := int_at 40 in let c := is_closed && (2 <? n) in let t := int_at 52 =? -1 in
  if 1 <=? n then
    Some (mk_layout "SpecialLineElement" special_line_fields [] []
            (turning t (closing c (rounded 64 n))) (turning t (closing c (rounded (64 + 4 * n) n))) (64 + 8 * n))
  else None.
(** Room for 500 items of nine bytes, 500 latitudes and 500 longitudes *)
Definition list_layout : option layout :=
  let n := int_at 56 in
  if within 0 500 n then
    Some (mk_layout "ListElement" list_fields (subs_at "list_items" 60 9 n [("value", Text 0 9)]) [] (raw 4560 n) (raw 6560 n) 8560)
  else None.
Definition text_layout (kind : string) (fs : list (string * place)) (len : Z) : option layout :=
  let n := size_at d p - len in
  if 0 <=? n then Some (without_points kind (fs ++ [("text", Clean len n)]) (len + n)) else None.
(** The three forms of storm tracks are told apart by the skip factor and the font; room for 50
    times of 18 bytes and 50 points. *)
Definition track_layout : option layout :=
  let n := int_at 44 in
  let at_ fs o :=
    Some (mk_layout "TrackElement" fs (subs_at "times" o 18 n [("value", Text 0 18)]) []
            (rounded (o + 900) n) (rounded (o + 900 + 4 * n) n) (o + 1300)) in
  if within 0 50 n then
    if negb (within (-3) 4 (int_at 84)) then at_ track_fields_old 84
    else if negb (within 0 33 (int_at 88)) then at_ track_fields_skip 88
    else at_ track_fields 100
  else None.
Definition sigmet_layout : option layout :=
  let n := int_at 44 in
  let at_ fs o := Some (mk_layout "SigmetElement" fs [] [] (raw o n) (raw (o + 4 * n) n) (o + 8 * n)) in
  if 0 <=? n then
    if version_at =? 0 then at_ sigmet_fields_0 428 else if version_at =? 1 then at_ sigmet_fields_1 776 else None
  else None.
(** Room for 100 points *)
Definition ccf_layout : option layout :=
  let n := int_at 44 in
  if within 0 100 n then
    Some (mk_layout "CollaborativeConvectiveForecastElement" ccf_fields [] [] (rounded 680 n) (rounded (680 + 4 * n) n) 1480)
  else None.
(** Room for 50 points *)
Definition ash_layout : option layout :=
  let n := int_at 44 in
  if within 0 50 n then
    Some (mk_layout "AshCloudElement" ash_fields [] [] (rounded 440 n) (rounded (440 + 4 * n) n) 840)
  else None.
Definition gfa_layout : option layout :=
  let k := int_at 40 in let n := int_at 44 in let o := 48 + 1024 * k in
  if 0 <=? k then
    Some (mk_layout "GraphicalForecastAreaElement" gfa_fields (subs_at "blocks" 48 1024 k [("block.value", Chars 0 1024)]) []
            (rounded o n) (rounded (o + 4 * n) n) (o + 8 * Z.max 0 n))
  else None.
(** The line, room for 500 points, the number of barbs and room for 50, the number of hashes and
    room for 50 *)
Definition jet_layout : option layout :=
  let n := int_at 44 in let nb := u32_at d (at_byte p 4068) in let nh := u32_at d (at_byte p 22072) in
  if within 0 500 n && within 0 50 nb && within 0 50 nh then
    Some (mk_layout "JetElement" [("number_barbs", Nat 4068); ("number_hashes", Nat 22072)]
            (("line_attribute", 0, jet_line_fields) :: subs_at "barb_attributes" 4072 360 nb barb_fields ++
             subs_at "hash_attributes" 22076 40 nh hash_fields)
            [("line_attribute.lat", items_at Coord 68 n); ("line_attribute.lon", items_at Coord (68 + 4 * n) n)]
            NoPoints NoPoints 24076)
  else None.
(** Counties: from version 2 on their latitudes and longitudes, in versions 2 to 4 a status, from
    version 4 on a FIPS code; room for 200, from version 5 on for 400.  The corners follow. *)
Definition watch_layout : option layout :=
  let v := version_at in let n := int_at 40 in
  let room := if v <=? 4 then 200 else 400 in
  let at_ fs (o : Z) (nc : Z) :=
    let sts := if within 2 4 v then 4 * room else 0 in
    let fips := if 4 <=? v then 4 * room else 0 in
    let co := o + sts + fips in
    let q := if 2 <=? v then co + 8 * room else o in
    if (0 <=? n) && within 0 room nc then
      Some (mk_layout "WatchBoxElement" fs []
              [("county_fips", if 4 <=? v then items_at Int (o + sts) nc else []);
               ("county_status", if within 2 4 v then items_at Int o nc else []);
               ("county_lat", if 2 <=? v then items_at Float co nc else []);
               ("county_lon", if 2 <=? v then items_at Float (co + 4 * nc) nc else [])]
              (closing (2 <? n) (raw q n)) (closing (2 <? n) (raw (q + 4 * n) n)) (q + 8 * n))
    else None in
  if v =? 0 then at_ watch_fields_0 188 0 else if v =? 1 then at_ watch_fields_1 684 0
  else if v =? 2 then at_ watch_fields_2 692 (int_at 684) else if v =? 3 then at_ watch_fields_3 740 (int_at 732)
  else if v =? 4 then at_ watch_fields_4 860 (int_at 852) else if v =? 5 then at_ watch_fields_5 860 (int_at 852)
  else if v =? 6 then at_ watch_fields_6 872 (int_at 864) else None.

(** The record at byte [p] of the file [d], by its class, type and version *)
Definition layout_at : option layout :=
  let c := class_at d p in let t := type_at d p in
  if c =? 1 then Some (with_points "FrontElement" front_fields 68 (int_at 40))
  else if c =? 2 then watch_layout
  else if c =? 3 then (if t =? 1 then line_layout else if t =? 20 then special_line_layout else None)
  else if c =? 4 then Some (without_points "SymbolElement" symbol_fields 76)
  else if c =? 5 then
    (if within 17 18 t then text_layout "TextElement" text_fields 80
     else if t =? 21 then text_layout "SpecialTextElement" special_text_fields 100 else None)
  else if c =? 6 then Some (without_points "WindElement" wind_fields 76)
  else if c =? 10 then track_layout
  else if c =? 11 then
    (if within 27 31 t then sigmet_layout
     else if t =? 32 then ccf_layout
     else if t =? 35 then Some (without_points "VolcanoElement" volcano_fields 5916)
     else if t =? 36 then ash_layout else None)
  else if (c =? 12) && (t =? 4) then Some (with_points "CircleElement" line_fields 60 (int_at 40))
  else if c =? 14 then list_layout
  else if c =? 15 then (if t =? 37 then jet_layout else if t =? 38 then gfa_layout else None)
  else None.

(** ** Elements that show a record *)

Definition has_fields (q : nat) (fs : list (string * place)) (a : env) : Prop :=
  Forall (fun f => exists v, lookup (fst f) a = Some v /\ shows d q (snd f) v) fs.
Definition has_points (q : points) (c : coords) : Prop :=
  match q with
  | NoPoints => c = CoNone
  | Missing => c = CoMissing
  | Points l => exists xs, c = CoArr xs /\ Forall2 (fun pl x => shows d p pl (VFloat x)) l xs
  end.
Definition has_sub (s : string * Z * list (string * place)) (x : string * env) : Prop :=
  fst x = fst (fst s) /\ has_fields (at_byte p (snd (fst s))) (snd s) (snd x).
Definition has_array (s : string * list place) (x : string * list pyval) : Prop :=
  fst x = fst s /\ Forall2 (shows d p) (snd s) (snd x).
(** The header's bytes, numbers and bounds *)
Definition has_header (h : vhdr) : Prop :=
  vh_delete h = nth p d 0 /\ vh_type h = nth (p + 1) d 0 /\ vh_class h = nth (p + 2) d 0 /\
  vh_filled h = (let b := nth (p + 3) d 0 in if b <? 128 then b else b - 256) /\
  vh_closed h = nth (p + 4) d 0 /\ vh_smooth h = nth (p + 5) d 0 /\ vh_version h = nth (p + 6) d 0 /\
  vh_group_type h = nth (p + 7) d 0 /\ vh_group_number h = int_at 8 /\ vh_major_color h = int_at 12 /\
  vh_minor_color h = int_at 16 /\ vh_record_size h = int_at 20 /\
  vh_min_lat h = py_round 2 (f32_at d (p + 24)) /\ vh_min_lon h = py_round 2 (f32_at d (p + 28)) /\
  vh_max_lat h = py_round 2 (f32_at d (p + 32)) /\ vh_max_lon h = py_round 2 (f32_at d (p + 36)).
Record element_of (L : layout) (e : velem) : Prop := {
  eo_kind : ve_kind e = l_kind L;
  eo_header : has_header (ve_hdr e);
  eo_fields : has_fields p (l_fields L) (ve_attrs e);
  eo_subs : Forall2 has_sub (l_subs L) (ve_subs e);
  eo_arrays : Forall2 has_array (l_arrays L) (ve_arrs e);
  eo_lat : has_points (l_lat L) (ve_lat e);
  eo_lon : has_points (l_lon L) (ve_lon e) }.
End Layout.

(** The file header: version and notes *)
Definition file_header_of (d : bytes) (p : nat) (e : velem) : Prop :=
  ve_kind e = "FileHeaderElement" /\ has_header d p (ve_hdr e) /\
  has_fields d p [("gempak_version", Chars 40 128); ("notes", Chars 168 (size_at d p - 168))] (ve_attrs e).

(** ** Files that are records, one after the other *)

(** Types the reader knows *)
Definition known_at (d : bytes) (p : nat) : Prop :=
  let t := type_at d p in (t = 1 \/ t = 2 \/ 4 <= t <= 43) /\ 0 <= class_at d p <= 16.
(** Kinds of records the reader passes over *)
Definition passed_over (c t : Z) : bool :=
  if c =? 0 then negb (t =? 22) else if c =? 3 then negb ((t =? 1) || (t =? 20))
  else if c =? 5 then negb (within 17 18 t || (t =? 21)) else if c =? 11 then negb (within 27 32 t || within 35 36 t)
  else if c =? 12 then negb (t =? 4) else if c =? 15 then negb (within 37 43 t)
  else within 7 9 c || (c =? 13) || (c =? 16).
(** From byte [p] to its end the file is records with acceptable headers; those the reader shows
    are listed with the byte they start at. *)
Inductive chain (d : bytes) : nat -> list (nat * layout) -> Prop :=
| chain_end : chain d (length d) []
| chain_header p l : accepted d p -> known_at d p -> class_at d p = 0 -> type_at d p = 22 -> 168 <= size_at d p ->
    Z.of_nat p + size_at d p <= Zlen d -> chain d (at_byte p (size_at d p)) l -> chain d p l
| chain_record p L l : accepted d p -> known_at d p -> layout_at d p = Some L -> Z.of_nat p + l_end L <= Zlen d ->
    chain d (at_byte p (l_end L)) l -> chain d p ((p, L) :: l)
| chain_other p l : accepted d p -> known_at d p -> passed_over (class_at d p) (type_at d p) = true -> 40 <= size_at d p ->
    chain d (at_byte p (size_at d p)) l -> chain d p l.
