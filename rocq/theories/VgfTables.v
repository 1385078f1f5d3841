(** The field tables of decode/vgf.py: the layouts its [NamedStruct]s read, and which field goes
    into which attribute of the element that is built.  Definitions only. *)
From Coq Require Export String.
From Verif Require Import Base Floats Structs.
Export ListNotations.
Open Scope string_scope.
Open Scope list_scope.
Open Scope Z_scope.

(** Converters given as third item of a field: partial(round, ndigits=n), int,
    [_decode_strip_null], [_swap32]. *)
Inductive vconv := CNone | CRound (n : Z) | CTrunc | CText | CSwap.

(** (name, format, converter) as passed to [NamedStruct] (tools.py:20-34).  Padding items, whose
    name is None in the code, have the empty name.  The name 'direction ' (with a trailing
    space, decode/vgf.py:5019) becomes 'direction' because namedtuple splits at blanks. *)
Definition field : Type := string * fmtc * vconv.

(** Where an attribute comes from: a field read before ('variable.field' or a local variable),
    or "x.f if hasattr(x, 'f') else default". *)
Inductive source := Key (k : string) | KeyOr (k : string) (default : pyval).

(** decode/vgf.py:3267-3267 and the assignments of 990-1006 *)
Definition FileHeaderElement_sel : list (string * source) :=
  [("gempak_version", Key "version");
   ("notes", Key "notes")].
(** decode/vgf.py:3271-3279 *)
Definition front_info : list field :=
  [("number_points", FInt, CNone);
   ("front_code", FInt, CNone);
   ("pip_size", FInt, CNone);
   ("pip_stroke", FInt, CNone);
   ("pip_direction", FInt, CNone);
   ("width", FInt, CNone);
   ("label", FStr 4, CText)].
(** decode/vgf.py:3285-3296 and the assignments of 1009-1067 *)
Definition FrontElement_sel : list (string * source) :=
  [("number_points", Key "front.number_points");
   ("front_code", Key "front.front_code");
   ("pip_size", Key "front.pip_size");
   ("pip_stroke", Key "front.pip_stroke");
   ("pip_direction", Key "front.pip_direction");
   ("width", Key "front.width");
   ("label", Key "front.label")].
(** decode/vgf.py:3301-3311 *)
Definition symbol_info : list field :=
  [("number_symbols", FInt, CNone);
   ("width", FInt, CNone);
   ("symbol_size", FFloat, CRound 1);
   ("symbol_type", FInt, CNone);
   ("symbol_code", FFloat, CTrunc);
   ("lat", FFloat, CRound 2);
   ("lon", FFloat, CRound 2);
   ("offset_x", FInt, CNone);
   ("offset_y", FInt, CNone)].
(** decode/vgf.py:3315-3326 and the assignments of 1726-1780 *)
Definition SymbolElement_sel : list (string * source) :=
  [("number_symbols", Key "symbol.number_symbols");
   ("width", Key "symbol.width");
   ("size", Key "symbol.symbol_size");
   ("symbol_type", Key "symbol.symbol_type");
   ("symbol_code", Key "symbol.symbol_code");
   ("lat", Key "symbol.lat");
   ("lon", Key "symbol.lon");
   ("offset_x", Key "symbol.offset_x");
   ("offset_y", Key "symbol.offset_y")].
(** decode/vgf.py:3331-3337, 3358-3364 *)
Definition line_info : list field :=
  [("number_points", FInt, CNone);
   ("line_type", FInt, CNone);
   ("line_type_hardware", FInt, CNone);
   ("width", FInt, CNone);
   ("line_width_hardware", FInt, CNone)].
(** decode/vgf.py:3344-3353 and the assignments of 786-831 *)
Definition CircleElement_sel : list (string * source) :=
  [("number_points", Key "line.number_points");
   ("line_type", Key "line.line_type");
   ("line_type_hardware", Key "line.line_type_hardware");
   ("width", Key "line.width");
   ("line_width_hardware", Key "line.line_width_hardware")].
(** decode/vgf.py:3375-3384 and the assignments of 1141-1188 *)
Definition LineElement_sel : list (string * source) :=
  [("number_points", Key "line.number_points");
   ("line_type", Key "line.line_type");
   ("line_type_hardware", Key "line.line_type_hardware");
   ("width", Key "line.width");
   ("line_width_hardware", Key "line.line_width_hardware")].
(** decode/vgf.py:3389-3396 *)
Definition special_line_info : list field :=
  [("number_points", FInt, CNone);
   ("line_type", FInt, CNone);
   ("stroke", FInt, CNone);
   ("direction", FInt, CNone);
   ("line_size", FFloat, CRound 1);
   ("width", FInt, CNone)].
(** decode/vgf.py:3412-3422 and the assignments of 1577-1621 *)
Definition SpecialLineElement_sel : list (string * source) :=
  [("number_points", Key "special_line.number_points");
   ("line_type", Key "special_line.line_type");
   ("stroke", Key "special_line.stroke");
   ("direction", Key "special_line.direction");
   ("size", Key "special_line.line_size");
   ("width", Key "special_line.width")].
(** decode/vgf.py:3427-3433 *)
Definition list_info : list field :=
  [("list_type", FInt, CNone);
   ("marker_type", FInt, CNone);
   ("marker_size", FFloat, CRound 1);
   ("marker_width", FInt, CNone);
   ("number_items", FInt, CNone)].
(** decode/vgf.py:3450-3460 and the assignments of 1197-1247 *)
Definition ListElement_sel : list (string * source) :=
  [("list_type", Key "list_meta.list_type");
   ("marker_type", Key "list_meta.marker_type");
   ("marker_size", Key "list_meta.marker_size");
   ("marker_width", Key "list_meta.marker_width");
   ("number_items", Key "list_meta.number_items")].
(** decode/vgf.py:3465-3476 *)
Definition text_info : list field :=
  [("rotation", FFloat, CRound 1);
   ("text_size", FFloat, CRound 3);
   ("font", FInt, CNone);
   ("text_flag", FInt, CNone);
   ("width", FInt, CNone);
   ("align", FInt, CNone);
   ("lat", FFloat, CRound 2);
   ("lon", FFloat, CRound 2);
   ("offset_x", FInt, CNone);
   ("offset_y", FInt, CNone)].
(** decode/vgf.py:3485-3498 and the assignments of 1783-1848 *)
Definition TextElement_sel : list (string * source) :=
  [("rotation", Key "text.rotation");
   ("size", Key "text.text_size");
   ("font", Key "text.font");
   ("text_flag", Key "text.text_flag");
   ("width", Key "text.width");
   ("align", Key "text.align");
   ("lat", Key "text.lat");
   ("lon", Key "text.lon");
   ("offset_x", Key "text.offset_x");
   ("offset_y", Key "text.offset_y");
   ("text", Key "clean_text")].
(** decode/vgf.py:3503-3519, 3970-3986, 4490-4506 *)
Definition special_text_info : list field :=
  [("rotation", FFloat, CRound 1);
   ("text_size", FFloat, CRound 3);
   ("text_type", FInt, CNone);
   ("turbulence_symbol", FInt, CNone);
   ("font", FInt, CNone);
   ("text_flag", FInt, CNone);
   ("width", FInt, CNone);
   ("text_color", FInt, CNone);
   ("line_color", FInt, CNone);
   ("fill_color", FInt, CNone);
   ("align", FInt, CNone);
   ("lat", FFloat, CRound 2);
   ("lon", FFloat, CRound 2);
   ("offset_x", FInt, CNone);
   ("offset_y", FInt, CNone)].
(** decode/vgf.py:3528-3546 and the assignments of 1628-1723 *)
Definition SpecialTextElement_sel : list (string * source) :=
  [("rotation", Key "text.rotation");
   ("size", Key "text.text_size");
   ("text_type", Key "text.text_type");
   ("turbulence_symbol", Key "text.turbulence_symbol");
   ("font", Key "text.font");
   ("text_flag", Key "text.text_flag");
   ("width", Key "text.width");
   ("text_color", Key "text.text_color");
   ("line_color", Key "text.line_color");
   ("fill_color", Key "text.fill_color");
   ("align", Key "text.align");
   ("lat", Key "text.lat");
   ("lon", Key "text.lon");
   ("offset_x", Key "text.offset_x");
   ("offset_y", Key "text.offset_y");
   ("text", Key "clean_text")].
(** decode/vgf.py:3565-3580 *)
Definition track_info_full : list field :=
  [("track_type", FInt, CNone);
   ("total_points", FInt, CNone);
   ("initial_points", FInt, CNone);
   ("initial_line_type", FInt, CNone);
   ("extrapolated_line_type", FInt, CNone);
   ("initial_mark_type", FInt, CNone);
   ("extrapolated_mark_type", FInt, CNone);
   ("line_width", FInt, CNone);
   ("speed", FFloat, CRound 2);
   ("direction", FFloat, CRound 2);
   ("increment", FInt, CNone);
   ("skip", FInt, CNone);
   ("font", FInt, CNone);
   ("font_flag", FInt, CNone)].
(** decode/vgf.py:3589-3601 *)
Definition track_info_old : list field :=
  [("track_type", FInt, CNone);
   ("total_points", FInt, CNone);
   ("initial_points", FInt, CNone);
   ("initial_line_type", FInt, CNone);
   ("extrapolated_line_type", FInt, CNone);
   ("initial_mark_type", FInt, CNone);
   ("extrapolated_mark_type", FInt, CNone);
   ("line_width", FInt, CNone);
   ("speed", FFloat, CRound 2);
   ("direction", FFloat, CRound 2);
   ("increment", FInt, CNone)].
(** decode/vgf.py:3606-3619 *)
Definition track_info_skip : list field :=
  [("track_type", FInt, CNone);
   ("total_points", FInt, CNone);
   ("initial_points", FInt, CNone);
   ("initial_line_type", FInt, CNone);
   ("extrapolated_line_type", FInt, CNone);
   ("initial_mark_type", FInt, CNone);
   ("extrapolated_mark_type", FInt, CNone);
   ("line_width", FInt, CNone);
   ("speed", FFloat, CRound 2);
   ("direction", FFloat, CRound 2);
   ("increment", FInt, CNone);
   ("skip", FInt, CNone)].
(** decode/vgf.py:3636-3656 and the assignments of 1851-1955 *)
Definition TrackElement_sel : list (string * source) :=
  [("track_type", Key "track.track_type");
   ("total_points", Key "track.total_points");
   ("initial_points", Key "track.initial_points");
   ("initial_line_type", Key "track.initial_line_type");
   ("extrapolated_line_type", Key "track.extrapolated_line_type");
   ("initial_mark_type", Key "track.initial_mark_type");
   ("extrapolated_mark_type", Key "track.extrapolated_mark_type");
   ("line_width", Key "track.line_width");
   ("speed", Key "track.speed");
   ("direction", Key "track.direction");
   ("increment", Key "track.increment");
   ("skip", KeyOr "track.skip" (VInt 0));
   ("font", KeyOr "track.font" (VInt 1));
   ("font_flag", KeyOr "track.font_flag" (VInt 2));
   ("font_size", Key "track_font_size")].
(** decode/vgf.py:3663-3689 *)
Definition sigmet_info_0 : list field :=
  [("subtype", FInt, CNone);
   ("number_points", FInt, CNone);
   ("line_type", FInt, CNone);
   ("line_width", FInt, CNone);
   ("side_of_line", FInt, CNone);
   ("area", FStr 8, CText);
   ("flight_info_region", FStr 32, CText);
   ("status", FInt, CNone);
   ("distance", FFloat, CNone);
   ("message_id", FStr 12, CText);
   ("sequence_number", FInt, CNone);
   ("start_time", FStr 20, CText);
   ("end_time", FStr 20, CText);
   ("remarks", FStr 80, CText);
   ("sonic", FInt, CNone);
   ("phenomena", FStr 32, CText);
   ("trend", FStr 8, CText);
   ("movement", FStr 8, CText);
   ("type_indicator", FInt, CNone);
   ("type_time", FStr 20, CText);
   ("flight_level", FInt, CNone);
   ("speed", FInt, CNone);
   ("direction", FStr 4, CText);
   ("tops", FStr 80, CText);
   ("forecaster", FStr 16, CText)].
(** decode/vgf.py:3691-3724 *)
Definition sigmet_info_1 : list field :=
  [("subtype", FInt, CNone);
   ("number_points", FInt, CNone);
   ("line_type", FInt, CNone);
   ("line_width", FInt, CNone);
   ("side_of_line", FInt, CNone);
   ("area", FStr 8, CText);
   ("flight_info_region", FStr 32, CText);
   ("status", FInt, CNone);
   ("distance", FFloat, CNone);
   ("message_id", FStr 12, CText);
   ("sequence_number", FInt, CNone);
   ("start_time", FStr 20, CText);
   ("end_time", FStr 20, CText);
   ("remarks", FStr 80, CText);
   ("sonic", FInt, CNone);
   ("phenomena", FStr 32, CText);
   ("phenomena2", FStr 32, CText);
   ("phenomena_name", FStr 36, CText);
   ("phenomena_lat", FStr 8, CText);
   ("phenomena_lon", FStr 8, CText);
   ("pressure", FInt, CNone);
   ("max_wind", FInt, CNone);
   ("free_text", FStr 256, CText);
   ("trend", FStr 8, CText);
   ("movement", FStr 8, CText);
   ("type_indicator", FInt, CNone);
   ("type_time", FStr 20, CText);
   ("flight_level", FInt, CNone);
   ("speed", FInt, CNone);
   ("direction", FStr 4, CText);
   ("tops", FStr 80, CText);
   ("forecaster", FStr 16, CText)].
(** decode/vgf.py:3732-3768 and the assignments of 1255-1426 *)
Definition SigmetElement_sel : list (string * source) :=
  [("subtype", Key "sigmet.subtype");
   ("number_points", Key "sigmet.number_points");
   ("line_type", Key "sigmet.line_type");
   ("line_width", Key "sigmet.line_width");
   ("side_of_line", Key "sigmet.side_of_line");
   ("area", Key "sigmet.area");
   ("flight_info_region", Key "sigmet.flight_info_region");
   ("status", Key "sigmet.area");
   ("distance", Key "sigmet.distance");
   ("message_id", Key "sigmet.message_id");
   ("sequence_number", Key "sigmet.sequence_number");
   ("start_time", Key "sigmet.start_time");
   ("end_time", Key "sigmet.end_time");
   ("remarks", Key "sigmet.remarks");
   ("sonic", Key "sigmet.sonic");
   ("phenomena", Key "sigmet.phenomena");
   ("phenomena2", KeyOr "sigmet.phenomena2" (VText []));
   ("phenomena_name", KeyOr "sigmet.phenomena_name" (VText []));
   ("phenomena_lat", KeyOr "sigmet.phenomena_lat" (VText []));
   ("phenomena_lon", KeyOr "sigmet.phenomena_lon" (VText []));
   ("pressure", KeyOr "sigmet.pressure" (VInt missing_int));
   ("max_wind", KeyOr "sigmet.max_wind" (VInt missing_int));
   ("free_text", KeyOr "sigmet.free_text" (VText []));
   ("trend", Key "sigmet.trend");
   ("movement", Key "sigmet.movement");
   ("type_indicator", Key "sigmet.type_indicator");
   ("type_time", Key "sigmet.type_time");
   ("flight_level", Key "sigmet.flight_level");
   ("speed", Key "sigmet.speed");
   ("direction", Key "sigmet.direction");
   ("tops", Key "sigmet.tops");
   ("forecaster", Key "sigmet.forecaster")].
(** decode/vgf.py:3773-3782 *)
Definition ccf_info : list field :=
  [("subtype", FInt, CNone);
   ("number_points", FInt, CNone);
   ("coverage", FInt, CNone);
   ("storm_tops", FInt, CNone);
   ("probability", FInt, CNone);
   ("growth", FInt, CNone);
   ("speed", FFloat, CRound 2);
   ("direction", FFloat, CRound 2)].
(** decode/vgf.py:3785-3795 *)
Definition ccf_info_noswap : list field :=
  [("text_lat", FFloat, CRound 2);
   ("text_lon", FFloat, CRound 2);
   ("arrow_lat", FFloat, CRound 2);
   ("arrow_lon", FFloat, CRound 2);
   ("high_fill", FInt, CNone);
   ("med_fill", FInt, CNone);
   ("low_fill", FInt, CNone);
   ("line_type", FInt, CNone);
   ("arrow_size", FFloat, CRound 1)].
(** decode/vgf.py:3804-3822 *)
Definition ccf_text_info : list field :=
  [("rotation", FFloat, CRound 1);
   ("text_size", FFloat, CRound 3);
   ("text_type", FInt, CNone);
   ("turbulence_symbol", FInt, CNone);
   ("font", FInt, CSwap);
   ("text_flag", FInt, CSwap);
   ("width", FInt, CSwap);
   ("text_color", FInt, CNone);
   ("line_color", FInt, CNone);
   ("fill_color", FInt, CNone);
   ("align", FInt, CNone);
   ("lat", FFloat, CRound 2);
   ("lon", FFloat, CRound 2);
   ("offset_x", FInt, CNone);
   ("offset_y", FInt, CNone);
   ("text", FStr 255, CText);
   ("", FPad 1, CNone)].
(** decode/vgf.py:3833-3867 and the assignments of 840-987 *)
Definition CollaborativeConvectiveForecastElement_sel : list (string * source) :=
  [("subtype", Key "ccf.subtype");
   ("number_points", Key "ccf.number_points");
   ("coverage", Key "ccf.coverage");
   ("storm_tops", Key "ccf.storm_tops");
   ("probability", Key "ccf.probability");
   ("growth", Key "ccf.growth");
   ("speed", Key "ccf.speed");
   ("direction", Key "ccf.direction");
   ("text_lat", Key "ccf_noswap.text_lat");
   ("text_lon", Key "ccf_noswap.text_lon");
   ("arrow_lat", Key "ccf_noswap.arrow_lat");
   ("arrow_lon", Key "ccf_noswap.arrow_lon");
   ("high_fill", Key "ccf_noswap.high_fill");
   ("med_fill", Key "ccf_noswap.med_fill");
   ("low_fill", Key "ccf_noswap.low_fill");
   ("line_type", Key "ccf_noswap.line_type");
   ("arrow_size", Key "ccf_noswap.arrow_size");
   ("rotation", Key "ccf_text.rotation");
   ("text_size", Key "ccf_text.text_size");
   ("text_type", Key "ccf_text.text_type");
   ("turbulence_symbol", Key "ccf_text.turbulence_symbol");
   ("font", Key "ccf_text.font");
   ("text_flag", Key "ccf_text.text_flag");
   ("width", Key "ccf_text.width");
   ("fill_color", Key "ccf_text.fill_color");
   ("align", Key "ccf_text.align");
   ("offset_x", Key "ccf_text.offset_x");
   ("offset_y", Key "ccf_text.offset_y");
   ("text", Key "ccf_text.text");
   ("text_layout", Key "text_layout")].
(** decode/vgf.py:3873-3907 *)
Definition volcano_info : list field :=
  [("name", FStr 64, CText);
   ("code", FFloat, CRound 1);
   ("size", FFloat, CRound 1);
   ("width", FInt, CNone);
   ("number", FStr 17, CText);
   ("location", FStr 17, CText);
   ("area", FStr 33, CText);
   ("origin_station", FStr 17, CText);
   ("vaac", FStr 33, CText);
   ("wmo_id", FStr 8, CText);
   ("header_number", FStr 9, CText);
   ("elevation", FStr 9, CText);
   ("year", FStr 9, CText);
   ("advisory_number", FStr 9, CText);
   ("correction", FStr 4, CText);
   ("info_source", FStr 256, CText);
   ("additional_source", FStr 256, CText);
   ("aviation_color", FStr 16, CText);
   ("details", FStr 256, CText);
   ("obs_date", FStr 16, CText);
   ("obs_time", FStr 16, CText);
   ("obs_ash", FStr 1024, CText);
   ("forecast_6hr", FStr 1024, CText);
   ("forecast_12hr", FStr 1024, CText);
   ("forecast_18hr", FStr 1024, CText);
   ("remarks", FStr 512, CText);
   ("next_advisory", FStr 128, CText);
   ("forecaster", FStr 64, CText);
   ("", FPad 3, CNone);
   ("lat", FFloat, CRound 2);
   ("lon", FFloat, CRound 2);
   ("offset_x", FInt, CNone);
   ("offset_y", FInt, CNone)].
(** decode/vgf.py:3914-3948 and the assignments of 2305-2444 *)
Definition VolcanoElement_sel : list (string * source) :=
  [("name", Key "volcano.name");
   ("code", Key "volcano.code");
   ("size", Key "volcano.size");
   ("width", Key "volcano.width");
   ("number", Key "volcano.number");
   ("location", Key "volcano.location");
   ("area", Key "volcano.area");
   ("origin_station", Key "volcano.origin_station");
   ("vaac", Key "volcano.vaac");
   ("wmo_id", Key "volcano.wmo_id");
   ("header_number", Key "volcano.header_number");
   ("elevation", Key "volcano.elevation");
   ("year", Key "volcano.year");
   ("advisory_number", Key "volcano.advisory_number");
   ("correction", Key "volcano.correction");
   ("info_source", Key "volcano.info_source");
   ("additional_source", Key "volcano.additional_source");
   ("aviation_color", Key "volcano.aviation_color");
   ("details", Key "volcano.details");
   ("obs_date", Key "volcano.obs_date");
   ("obs_time", Key "volcano.obs_time");
   ("obs_ash", Key "volcano.obs_ash");
   ("forecast_6hr", Key "volcano.forecast_6hr");
   ("forecast_12hr", Key "volcano.forecast_12hr");
   ("forecast_18hr", Key "volcano.forecast_18hr");
   ("remarks", Key "volcano.remarks");
   ("next_advisory", Key "volcano.next_advisory");
   ("forecaster", Key "volcano.forecaster");
   ("lat", Key "volcano.lat");
   ("lon", Key "volcano.lon");
   ("offset_x", Key "volcano.offset_x");
   ("offset_y", Key "volcano.offset_y")].
(** decode/vgf.py:3953-3966 *)
Definition ash_info : list field :=
  [("subtype", FInt, CNone);
   ("number_points", FInt, CNone);
   ("distance", FFloat, CRound 2);
   ("forecast_hour", FInt, CNone);
   ("line_type", FInt, CNone);
   ("line_width", FInt, CNone);
   ("side_of_line", FInt, CNone);
   ("speed", FFloat, CRound 2);
   ("speeds", FStr 16, CText);
   ("direction", FStr 4, CText);
   ("flight_level_1", FStr 16, CText);
   ("flight_level_2", FStr 16, CText)].
(** decode/vgf.py:3999-4031 and the assignments of 649-783 *)
Definition AshCloudElement_sel : list (string * source) :=
  [("subtype", Key "ash.subtype");
   ("number_points", Key "ash.number_points");
   ("distance", Key "ash.distance");
   ("forecast_hour", Key "ash.forecast_hour");
   ("line_type", Key "ash.line_type");
   ("line_width", Key "ash.line_width");
   ("side_of_line", Key "ash.side_of_line");
   ("speed", Key "ash.speed");
   ("speeds", Key "ash.speeds");
   ("direction", Key "ash.direction");
   ("flight_level1", Key "ash.flight_level_1");
   ("flight_level2", Key "ash.flight_level_2");
   ("rotation", Key "text.rotation");
   ("text_size", Key "text.text_size");
   ("text_type", Key "text.text_type");
   ("turbulence_symbol", Key "text.turbulence_symbol");
   ("font", Key "text.font");
   ("text_flag", Key "text.text_flag");
   ("width", Key "text.width");
   ("text_color", Key "text.text_color");
   ("line_color", Key "text.line_color");
   ("fill_color", Key "text.fill_color");
   ("align", Key "text.align");
   ("text_lat", Key "text.lat");
   ("text_lon", Key "text.lon");
   ("offset_x", Key "text.offset_x");
   ("offset_y", Key "text.offset_y");
   ("text", Key "text_string")].
(** decode/vgf.py:4036-4036 *)
Definition gfa_info : list field :=
  [("number_blocks", FInt, CNone);
   ("number_points", FInt, CNone)].
(** decode/vgf.py:4047-4054 and the assignments of 1077-1102 *)
Definition GraphicalForecastAreaElement_sel : list (string * source) :=
  [("number_blocks", Key "gfa.number_blocks");
   ("number_points", Key "gfa.number_points")].
(** decode/vgf.py:4059-4067 *)
Definition jet_line_info : list field :=
  [("line_color", FInt, CNone);
   ("number_points", FInt, CNone);
   ("line_type", FInt, CNone);
   ("stroke", FInt, CNone);
   ("direction", FInt, CNone);
   ("size", FFloat, CRound 1);
   ("width", FInt, CNone)].
(** decode/vgf.py:4088-4117 *)
Definition jet_barb_info : list field :=
  [("wind_color", FInt, CNone);
   ("number_wind", FInt, CNone);
   ("width", FInt, CNone);
   ("size", FFloat, CRound 1);
   ("wind_type", FInt, CNone);
   ("head_size", FFloat, CRound 1);
   ("speed", FFloat, CRound 2);
   ("direction", FFloat, CRound 2);
   ("lat", FFloat, CRound 2);
   ("lon", FFloat, CRound 2);
   ("flight_level_color", FInt, CNone);
   ("text_rotation", FFloat, CRound 1);
   ("text_size", FFloat, CRound 3);
   ("text_type", FInt, CNone);
   ("turbulence_symbol", FInt, CNone);
   ("font", FInt, CNone);
   ("text_flag", FInt, CNone);
   ("text_width", FInt, CNone);
   ("text_color", FInt, CNone);
   ("line_color", FInt, CNone);
   ("fill_color", FInt, CNone);
   ("align", FInt, CNone);
   ("text_lat", FFloat, CRound 2);
   ("text_lon", FFloat, CRound 2);
   ("offset_x", FInt, CNone);
   ("offset_y", FInt, CNone);
   ("text", FStr 255, CText);
   ("", FPad 1, CNone)].
(** decode/vgf.py:4160-4171 *)
Definition jet_hash_info : list field :=
  [("wind_color", FInt, CNone);
   ("number_wind", FInt, CNone);
   ("width", FInt, CNone);
   ("size", FFloat, CRound 1);
   ("wind_type", FInt, CNone);
   ("head_size", FFloat, CRound 1);
   ("speed", FFloat, CRound 2);
   ("direction", FFloat, CRound 2);
   ("lat", FFloat, CRound 2);
   ("lon", FFloat, CRound 2)].
(** decode/vgf.py:4072-4082 and the assignments of 561-597 *)
Definition LineAttribute_sel : list (string * source) :=
  [("line_color", Key "jet_line.line_color");
   ("number_points", Key "jet_line.number_points");
   ("line_type", Key "jet_line.line_type");
   ("stroke", Key "jet_line.stroke");
   ("direction", Key "jet_line.direction");
   ("size", Key "jet_line.size");
   ("width", Key "jet_line.width")].
(** decode/vgf.py:4196-4196 and the assignments of 1105-1138 *)
Definition JetElement_sel : list (string * source) :=
  [("number_barbs", Key "number_barbs");
   ("number_hashes", Key "number_hash")].
(** decode/vgf.py:4125-4153 and the assignments of 306-423 *)
Definition BarbAttribute_sel : list (string * source) :=
  [("wind_color", Key "jet_barb.wind_color");
   ("number_wind", Key "jet_barb.number_wind");
   ("width", Key "jet_barb.width");
   ("size", Key "jet_barb.size");
   ("wind_type", Key "jet_barb.wind_type");
   ("head_size", Key "jet_barb.head_size");
   ("speed", Key "jet_barb.speed");
   ("direction", Key "jet_barb.direction");
   ("lat", Key "jet_barb.lat");
   ("lon", Key "jet_barb.lon");
   ("flight_level_color", Key "jet_barb.flight_level_color");
   ("text_rotation", Key "jet_barb.text_rotation");
   ("text_size", Key "jet_barb.text_size");
   ("text_type", Key "jet_barb.text_type");
   ("turbulence_symbol", Key "jet_barb.turbulence_symbol");
   ("font", Key "jet_barb.font");
   ("text_flag", Key "jet_barb.text_flag");
   ("text_width", Key "jet_barb.text_width");
   ("text_color", Key "jet_barb.text_color");
   ("line_color", Key "jet_barb.line_color");
   ("fill_color", Key "jet_barb.fill_color");
   ("align", Key "jet_barb.align");
   ("text_lat", Key "jet_barb.text_lat");
   ("text_lon", Key "jet_barb.text_lon");
   ("offset_x", Key "jet_barb.offset_x");
   ("offset_y", Key "jet_barb.offset_y");
   ("text", Key "jet_barb.text")].
(** decode/vgf.py:4179-4190 and the assignments of 509-558 *)
Definition HashAttribute_sel : list (string * source) :=
  [("wind_color", Key "jet_hash.wind_color");
   ("number_wind", Key "jet_hash.number_wind");
   ("width", Key "jet_hash.width");
   ("size", Key "jet_hash.size");
   ("wind_type", Key "jet_hash.wind_type");
   ("head_size", Key "jet_hash.head_size");
   ("speed", Key "jet_hash.speed");
   ("direction", Key "jet_hash.direction");
   ("lat", Key "jet_hash.lat");
   ("lon", Key "jet_hash.lon")].
(** decode/vgf.py:4282-4292, 4332-4342, 4415-4425 *)
Definition tc_info : list field :=
  [("storm_number", FStr 5, CText);
   ("issue_status", FStr 2, CText);
   ("basin", FStr 5, CText);
   ("advisory_number", FStr 5, CText);
   ("storm_name", FStr 128, CText);
   ("storm_type", FStr 5, CText);
   ("valid_time", FStr 21, CText);
   ("timezone", FStr 4, CText);
   ("forecast_period", FStr 5, CText)].
(** decode/vgf.py:4296-4302 *)
Definition cone_info : list field :=
  [("line_color", FInt, CNone);
   ("line_type", FInt, CNone);
   ("fill_color", FInt, CNone);
   ("fill_type", FInt, CNone);
   ("number_points", FInt, CNone)].
(** decode/vgf.py:4346-4350 *)
Definition tc_track_track_info : list field :=
  [("line_color", FInt, CNone);
   ("line_type", FInt, CNone);
   ("number_points", FInt, CNone)].
(** decode/vgf.py:4354-4369 *)
Definition track_point_info : list field :=
  [("lat", FFloat, CRound 2);
   ("lon", FFloat, CRound 2);
   ("advisory_date", FStr 50, CText);
   ("tau", FStr 50, CText);
   ("max_wind", FStr 50, CText);
   ("wind_gust", FStr 50, CText);
   ("minimum_pressure", FStr 50, CText);
   ("development_level", FStr 50, CText);
   ("development_label", FStr 50, CText);
   ("direction", FStr 50, CText);
   ("speed", FStr 50, CText);
   ("date_label", FStr 50, CText);
   ("storm_source", FStr 50, CText);
   ("", FPad 2, CNone)].
(** decode/vgf.py:4377-4391 and the assignments of 445-506 *)
Definition TrackAttribute_sel : list (string * source) :=
  [("advisory_date", Key "pt.advisory_date");
   ("tau", Key "pt.tau");
   ("max_wind", Key "pt.max_wind");
   ("wind_gust", Key "pt.wind_gust");
   ("minimum_pressure", Key "pt.minimum_pressure");
   ("development_level", Key "pt.development_level");
   ("development_label", Key "pt.development_label");
   ("direction", Key "pt.direction");
   ("speed", Key "pt.speed");
   ("date_label", Key "pt.date_label");
   ("storm_source", Key "pt.storm_source");
   ("lat", Key "pt.lat");
   ("lon", Key "pt.lon")].
(** decode/vgf.py:4473-4486 *)
Definition sgwx_info : list field :=
  [("subtype", FInt, CNone);
   ("number_points", FInt, CNone);
   ("text_lat", FFloat, CRound 2);
   ("text_lon", FFloat, CRound 2);
   ("arrow_lat", FFloat, CRound 2);
   ("arrow_lon", FFloat, CRound 2);
   ("line_element", FInt, CNone);
   ("line_type", FInt, CNone);
   ("line_width", FInt, CNone);
   ("arrow_size", FFloat, CRound 1);
   ("special_symbol", FInt, CNone);
   ("weather_symbol", FInt, CNone)].
(** decode/vgf.py:4515-4545 and the assignments of 1429-1574 *)
Definition SignificantWeatherElement_sel : list (string * source) :=
  [("subtype", Key "sgwx.subtype");
   ("number_points", Key "sgwx.number_points");
   ("text_lat", Key "sgwx.text_lat");
   ("text_lon", Key "sgwx.text_lon");
   ("arrow_lat", Key "sgwx.arrow_lat");
   ("arrow_lon", Key "sgwx.arrow_lon");
   ("line_element", Key "sgwx.line_element");
   ("line_type", Key "sgwx.line_type");
   ("line_width", Key "sgwx.line_width");
   ("arrow_size", Key "sgwx.arrow_size");
   ("special_symbol", Key "sgwx.special_symbol");
   ("weather_symbol", Key "sgwx.weather_symbol");
   ("text_rotation", Key "text.rotation");
   ("text_size", Key "text.text_size");
   ("text_type", Key "text.text_type");
   ("turbulence_symbol", Key "text.turbulence_symbol");
   ("font", Key "text.font");
   ("text_flag", Key "text.text_flag");
   ("text_width", Key "text.text_width");
   ("text_color", Key "text.text_color");
   ("line_color", Key "text.line_color");
   ("fill_color", Key "text.fill_color");
   ("text_align", Key "text.text_align");
   ("offset_x", Key "text.offset_x");
   ("offset_y", Key "text.offset_y");
   ("text", Key "text.text")].
(** decode/vgf.py:4554-4561 *)
Definition watch_info_0 : list field :=
  [("number_points", FInt, CNone);
   ("style", FInt, CNone);
   ("watch_type", FInt, CNone);
   ("number", FInt, CNone);
   ("filename", FStr 128, CText);
   ("shape", FInt, CNone)].
(** decode/vgf.py:4581-4609 *)
Definition watch_info_1 : list field :=
  [("number_points", FInt, CNone);
   ("style", FInt, CNone);
   ("shape", FInt, CNone);
   ("status", FInt, CNone);
   ("number", FInt, CNone);
   ("issue_time", FStr 20, CText);
   ("expire_time", FStr 20, CText);
   ("watch_type", FInt, CNone);
   ("severity", FInt, CNone);
   ("timezone", FStr 4, CText);
   ("max_hail", FStr 8, CText);
   ("max_wind", FStr 8, CText);
   ("max_tops", FStr 8, CText);
   ("mean_storm_direction", FStr 8, CText);
   ("mean_storm_speed", FStr 8, CText);
   ("states", FStr 20, CText);
   ("adjacent_areas", FStr 20, CText);
   ("replacing", FStr 24, CText);
   ("forecaster", FStr 64, CText);
   ("filename", FStr 128, CText);
   ("issue_flag", FInt, CNone);
   ("wsm_issue_time", FStr 20, CText);
   ("wsm_expire_time", FStr 20, CText);
   ("wsm_reference_direction", FStr 32, CText);
   ("wsm_recent_from_line", FStr 128, CText);
   ("wsm_md_number", FStr 8, CText);
   ("wsm_forecaster", FStr 64, CText)].
(** decode/vgf.py:4629-4659 *)
Definition watch_info_2 : list field :=
  [("number_points", FInt, CNone);
   ("style", FInt, CNone);
   ("shape", FInt, CNone);
   ("status", FInt, CNone);
   ("number", FInt, CNone);
   ("issue_time", FStr 20, CText);
   ("expire_time", FStr 20, CText);
   ("watch_type", FInt, CNone);
   ("severity", FInt, CNone);
   ("timezone", FStr 4, CText);
   ("max_hail", FStr 8, CText);
   ("max_wind", FStr 8, CText);
   ("max_tops", FStr 8, CText);
   ("mean_storm_direction", FStr 8, CText);
   ("mean_storm_speed", FStr 8, CText);
   ("states", FStr 20, CText);
   ("adjacent_areas", FStr 20, CText);
   ("replacing", FStr 24, CText);
   ("forecaster", FStr 64, CText);
   ("filename", FStr 128, CText);
   ("issue_flag", FInt, CNone);
   ("wsm_issue_time", FStr 20, CText);
   ("wsm_expire_time", FStr 20, CText);
   ("wsm_reference_direction", FStr 32, CText);
   ("wsm_recent_from_line", FStr 128, CText);
   ("wsm_md_number", FStr 8, CText);
   ("wsm_forecaster", FStr 64, CText);
   ("number_counties", FInt, CNone);
   ("plot_counties", FInt, CNone)].
(** decode/vgf.py:4685-4725 *)
Definition watch_info_3 : list field :=
  [("number_points", FInt, CNone);
   ("style", FInt, CNone);
   ("shape", FInt, CNone);
   ("anchor0_station", FStr 8, CText);
   ("anchor0_lat", FFloat, CRound 2);
   ("anchor0_lon", FFloat, CRound 2);
   ("anchor0_distance", FInt, CNone);
   ("anchor0_direction", FStr 4, CText);
   ("anchor1_station", FStr 8, CText);
   ("anchor1_lat", FFloat, CRound 2);
   ("anchor1_lon", FFloat, CRound 2);
   ("anchor1_distance", FInt, CNone);
   ("anchor1_direction", FStr 4, CText);
   ("status", FInt, CNone);
   ("number", FInt, CNone);
   ("issue_time", FStr 20, CText);
   ("expire_time", FStr 20, CText);
   ("watch_type", FInt, CNone);
   ("severity", FInt, CNone);
   ("timezone", FStr 4, CText);
   ("max_hail", FStr 8, CText);
   ("max_wind", FStr 8, CText);
   ("max_tops", FStr 8, CText);
   ("mean_storm_direction", FStr 8, CText);
   ("mean_storm_speed", FStr 8, CText);
   ("states", FStr 20, CText);
   ("adjacent_areas", FStr 20, CText);
   ("replacing", FStr 24, CText);
   ("forecaster", FStr 64, CText);
   ("filename", FStr 128, CText);
   ("issue_flag", FInt, CNone);
   ("wsm_issue_time", FStr 20, CText);
   ("wsm_expire_time", FStr 20, CText);
   ("wsm_reference_direction", FStr 32, CText);
   ("wsm_recent_from_line", FStr 128, CText);
   ("wsm_md_number", FStr 8, CText);
   ("wsm_forecaster", FStr 64, CText);
   ("number_counties", FInt, CNone);
   ("plot_counties", FInt, CNone)].
(** decode/vgf.py:4751-4791 *)
Definition watch_info_4 : list field :=
  [("number_points", FInt, CNone);
   ("style", FInt, CNone);
   ("shape", FInt, CNone);
   ("anchor0_station", FStr 8, CText);
   ("anchor0_lat", FFloat, CRound 2);
   ("anchor0_lon", FFloat, CRound 2);
   ("anchor0_distance", FInt, CNone);
   ("anchor0_direction", FStr 4, CText);
   ("anchor1_station", FStr 8, CText);
   ("anchor1_lat", FFloat, CRound 2);
   ("anchor1_lon", FFloat, CRound 2);
   ("anchor1_distance", FInt, CNone);
   ("anchor1_direction", FStr 4, CText);
   ("status", FInt, CNone);
   ("number", FInt, CNone);
   ("issue_time", FStr 20, CText);
   ("expire_time", FStr 20, CText);
   ("watch_type", FInt, CNone);
   ("severity", FInt, CNone);
   ("timezone", FStr 4, CText);
   ("max_hail", FStr 8, CText);
   ("max_wind", FStr 8, CText);
   ("max_tops", FStr 8, CText);
   ("mean_storm_direction", FStr 8, CText);
   ("mean_storm_speed", FStr 8, CText);
   ("states", FStr 80, CText);
   ("adjacent_areas", FStr 80, CText);
   ("replacing", FStr 24, CText);
   ("forecaster", FStr 64, CText);
   ("filename", FStr 128, CText);
   ("issue_flag", FInt, CNone);
   ("wsm_issue_time", FStr 20, CText);
   ("wsm_expire_time", FStr 20, CText);
   ("wsm_reference_direction", FStr 32, CText);
   ("wsm_recent_from_line", FStr 128, CText);
   ("wsm_md_number", FStr 8, CText);
   ("wsm_forecaster", FStr 64, CText);
   ("number_counties", FInt, CNone);
   ("plot_counties", FInt, CNone)].
(** decode/vgf.py:4819-4859 *)
Definition watch_info_5 : list field :=
  [("number_points", FInt, CNone);
   ("style", FInt, CNone);
   ("shape", FInt, CNone);
   ("anchor0_station", FStr 8, CText);
   ("anchor0_lat", FFloat, CRound 2);
   ("anchor0_lon", FFloat, CRound 2);
   ("anchor0_distance", FInt, CNone);
   ("anchor0_direction", FStr 4, CText);
   ("anchor1_station", FStr 8, CText);
   ("anchor1_lat", FFloat, CRound 2);
   ("anchor1_lon", FFloat, CRound 2);
   ("anchor1_distance", FInt, CNone);
   ("anchor1_direction", FStr 4, CText);
   ("status", FInt, CNone);
   ("number", FInt, CNone);
   ("issue_time", FStr 20, CText);
   ("expire_time", FStr 20, CText);
   ("watch_type", FInt, CNone);
   ("severity", FInt, CNone);
   ("timezone", FStr 4, CText);
   ("max_hail", FStr 8, CText);
   ("max_wind", FStr 8, CText);
   ("max_tops", FStr 8, CText);
   ("mean_storm_direction", FStr 8, CText);
   ("mean_storm_speed", FStr 8, CText);
   ("states", FStr 80, CText);
   ("adjacent_areas", FStr 80, CText);
   ("replacing", FStr 24, CText);
   ("forecaster", FStr 64, CText);
   ("filename", FStr 128, CText);
   ("issue_flag", FInt, CNone);
   ("wsm_issue_time", FStr 20, CText);
   ("wsm_expire_time", FStr 20, CText);
   ("wsm_reference_direction", FStr 32, CText);
   ("wsm_recent_from_line", FStr 128, CText);
   ("wsm_md_number", FStr 8, CText);
   ("wsm_forecaster", FStr 64, CText);
   ("number_counties", FInt, CNone);
   ("plot_counties", FInt, CNone)].
(** decode/vgf.py:4883-4926 *)
Definition watch_info_6 : list field :=
  [("number_points", FInt, CNone);
   ("style", FInt, CNone);
   ("shape", FInt, CNone);
   ("marker_type", FInt, CNone);
   ("marker_size", FFloat, CRound 1);
   ("marker_width", FInt, CNone);
   ("anchor0_station", FStr 8, CText);
   ("anchor0_lat", FFloat, CRound 2);
   ("anchor0_lon", FFloat, CRound 2);
   ("anchor0_distance", FInt, CNone);
   ("anchor0_direction", FStr 4, CText);
   ("anchor1_station", FStr 8, CText);
   ("anchor1_lat", FFloat, CRound 2);
   ("anchor1_lon", FFloat, CRound 2);
   ("anchor1_distance", FInt, CNone);
   ("anchor1_direction", FStr 4, CText);
   ("status", FInt, CNone);
   ("number", FInt, CNone);
   ("issue_time", FStr 20, CText);
   ("expire_time", FStr 20, CText);
   ("watch_type", FInt, CNone);
   ("severity", FInt, CNone);
   ("timezone", FStr 4, CText);
   ("max_hail", FStr 8, CText);
   ("max_wind", FStr 8, CText);
   ("max_tops", FStr 8, CText);
   ("mean_storm_direction", FStr 8, CText);
   ("mean_storm_speed", FStr 8, CText);
   ("states", FStr 80, CText);
   ("adjacent_areas", FStr 80, CText);
   ("replacing", FStr 24, CText);
   ("forecaster", FStr 64, CText);
   ("filename", FStr 128, CText);
   ("issue_flag", FInt, CNone);
   ("wsm_issue_time", FStr 20, CText);
   ("wsm_expire_time", FStr 20, CText);
   ("wsm_reference_direction", FStr 32, CText);
   ("wsm_recent_from_line", FStr 128, CText);
   ("wsm_md_number", FStr 8, CText);
   ("wsm_forecaster", FStr 64, CText);
   ("number_counties", FInt, CNone);
   ("plot_counties", FInt, CNone)].
(** decode/vgf.py:4951-5007 and the assignments of 2545-2796 *)
Definition WatchBoxElement_sel : list (string * source) :=
  [("number_points", Key "watch.number_points");
   ("style", Key "watch.style");
   ("shape", Key "watch.shape");
   ("marker_type", KeyOr "watch.marker_type" (VInt 1));
   ("marker_size", KeyOr "watch.marker_size" (VFloat (of_Z 1)));
   ("marker_width", KeyOr "watch.marker_width" (VInt 1));
   ("anchor0_station", KeyOr "watch.anchor0_station" (VText []));
   ("anchor0_lat", KeyOr "watch.anchor0_lat" (VFloat missing_float));
   ("anchor0_lon", KeyOr "watch.anchor0_lon" (VFloat missing_float));
   ("anchor0_distance", KeyOr "watch.anchor0_distance" (VFloat missing_float));
   ("anchor0_direction", KeyOr "watch.anchor0_direction" (VText []));
   ("anchor1_station", KeyOr "watch.anchor1_station" (VText []));
   ("anchor1_lat", KeyOr "watch.anchor1_lat" (VFloat missing_float));
   ("anchor1_lon", KeyOr "watch.anchor1_lon" (VFloat missing_float));
   ("anchor1_distance", KeyOr "watch.anchor1_distance" (VFloat missing_float));
   ("anchor1_direction", KeyOr "watch.anchor1_direction" (VText []));
   ("status", KeyOr "watch.status" (VInt 0));
   ("number", Key "watch.number");
   ("issue_time", KeyOr "watch.issue_time" (VInt 0));
   ("expire_time", KeyOr "watch.expire_time" (VInt 0));
   ("watch_type", Key "watch.watch_type");
   ("severity", KeyOr "watch.severity" (VInt 0));
   ("timezone", KeyOr "watch.timezone" (VText []));
   ("max_hail", KeyOr "watch.max_hail" (VText []));
   ("max_wind", KeyOr "watch.max_wind" (VText []));
   ("max_tops", KeyOr "watch.max_tops" (VText []));
   ("mean_storm_speed", KeyOr "watch.mean_storm_speed" (VText []));
   ("mean_storm_direction", KeyOr "watch.mean_storm_direction" (VText []));
   ("states", KeyOr "watch.states" (VText []));
   ("adjacent_areas", KeyOr "watch.adjacent_areas" (VText []));
   ("replacing", KeyOr "watch.replacing" (VText []));
   ("forecaster", KeyOr "watch.forecaster" (VText []));
   ("filename", Key "watch.filename");
   ("issue_flag", KeyOr "watch.issue_flag" (VInt 0));
   ("wsm_issue_time", KeyOr "watch.wsm_issue_time" (VText []));
   ("wsm_expire_time", KeyOr "watch.wsm_expire_time" (VText []));
   ("wsm_reference_direction", KeyOr "watch.wsm_reference_direction" (VText []));
   ("wsm_recent_from_line", KeyOr "watch.wsm_recent_from_line" (VText []));
   ("wsm_md_number", KeyOr "watch.wsm_md_number" (VText []));
   ("wsm_forecaster", KeyOr "watch.wsm_forecaster" (VText []));
   ("number_counties", KeyOr "watch.number_counties" (VInt 0));
   ("plot_counties", KeyOr "watch.plot_counties" (VInt 1))].
(** decode/vgf.py:5012-5022 *)
Definition wind_info : list field :=
  [("number_wind", FInt, CNone);
   ("width", FInt, CNone);
   ("size", FFloat, CRound 1);
   ("wind_type", FInt, CNone);
   ("head_size", FFloat, CRound 1);
   ("speed", FFloat, CRound 2);
   ("direction", FFloat, CRound 2);
   ("lat", FFloat, CRound 2);
   ("lon", FFloat, CRound 2)].
(** decode/vgf.py:5026-5037 and the assignments of 2485-2542 *)
Definition WindElement_sel : list (string * source) :=
  [("number_wind", Key "wind.number_wind");
   ("width", Key "wind.width");
   ("size", Key "wind.size");
   ("wind_type", Key "wind.wind_type");
   ("head_size", Key "wind.head_size");
   ("speed", Key "wind.speed");
   ("direction", Key "wind.direction");
   ("lat", Key "wind.lat");
   ("lon", Key "wind.lon")].
(** decode/vgf.py:5216-5233 *)
Definition vgf_header_info : list field :=
  [("delete", FUByte, CNone);
   ("vg_type", FUByte, CNone);
   ("vg_class", FUByte, CNone);
   ("filled", FSByte, CNone);
   ("closed", FUByte, CNone);
   ("smooth", FUByte, CNone);
   ("version", FUByte, CNone);
   ("group_type", FUByte, CNone);
   ("group_number", FInt, CNone);
   ("major_color", FInt, CNone);
   ("minor_color", FInt, CNone);
   ("record_size", FInt, CNone);
   ("min_lat", FFloat, CRound 2);
   ("min_lon", FFloat, CRound 2);
   ("max_lat", FFloat, CRound 2);
   ("max_lon", FFloat, CRound 2)].
