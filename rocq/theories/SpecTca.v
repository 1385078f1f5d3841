(** What the text of a tropical cyclone advisory says and which element shows it. *)
From Coq Require Import Ascii String QArith.
From Verif Require Import Base Floats Strings Structs VgfBase VgfRead SpecNearest.
From Coq Require Import List.
Import ListNotations.
Open Scope string_scope.
Open Scope list_scope.
Open Scope Z_scope.

(** ** Numbers as they are written *)

(** The value of decimal digits *)
Definition digits_value (l : list Z) : Z := fold_left (fun v d => 10 * v + d) l 0.
Definition digits_ok (l : list Z) : Prop := Forall (fun d => 0 <= d <= 9) l.
Definition digits_text (l : list Z) : str := map (fun d => 48 + d) l.
Definition sign_text (minus : bool) : str := if minus then [45] else [].

(** -012 *)
Record number := mk_number { n_minus : bool; n_digits : list Z }.
Definition number_ok (n : number) : Prop := n_digits n <> [] /\ digits_ok (n_digits n).
Definition number_text (n : number) : str := sign_text (n_minus n) ++ digits_text (n_digits n).
Definition number_value (n : number) : Z := if n_minus n then - digits_value (n_digits n) else digits_value (n_digits n).

(** -12.50 or -12 *)
Record decimal := mk_decimal { d_minus : bool; d_whole : list Z; d_fraction : list Z }.
Definition decimal_ok (d : decimal) : Prop :=
  d_whole d <> [] /\ (length (d_whole d) <= 300)%nat /\ digits_ok (d_whole d) /\ digits_ok (d_fraction d).
Definition decimal_text (d : decimal) : str :=
  sign_text (d_minus d) ++ digits_text (d_whole d) ++
  match d_fraction d with [] => [] | f => 46 :: digits_text f end.
Definition decimal_value (d : decimal) : Q :=
  let v := digits_value (d_whole d ++ d_fraction d) in
  (if d_minus d then - v else v) # Z.to_pos (10 ^ Zlen (d_fraction d)).

(** ** An advisory *)
Record point := mk_point { p_lat : decimal; p_lon : decimal; p_name : str }.
Record warning := mk_warning {
  w_severity : number; w_type : number; w_geography : number; w_count : number; w_points : list point }.
Record advisory := mk_advisory {
  a_storm_number : number; a_issue_status : str; a_basin : number; a_number : number; a_storm_name : str;
  a_storm_type : number; a_valid : str; a_timezone : str; a_text_lat : decimal; a_text_lon : decimal;
  a_text_font : number; a_text_size : decimal; a_text_width : number;
  a_count : number; a_warnings : list warning }.

(** Text that can stand between two tags *)
Definition plain (s : str) : Prop := s <> [] /\ ~ In 60 s /\ ~ In 10 s.
Definition point_ok (p : point) : Prop :=
  decimal_ok (p_lat p) /\ decimal_ok (p_lon p) /\ ~ In 60 (p_name p) /\ ~ In 10 (p_name p) /\ ~ In 124 (p_name p).
Definition warning_ok (w : warning) : Prop :=
  number_ok (w_severity w) /\ 0 <= number_value (w_severity w) <= 1 /\
  number_ok (w_type w) /\ 0 <= number_value (w_type w) <= 1 /\
  number_ok (w_geography w) /\ 0 <= number_value (w_geography w) <= 2 /\
  number_ok (w_count w) /\ number_value (w_count w) = Zlen (w_points w) /\
  w_points w <> [] /\ Forall point_ok (w_points w).
Definition advisory_ok (a : advisory) : Prop :=
  number_ok (a_storm_number a) /\ plain (a_issue_status a) /\ number_ok (a_basin a) /\ number_ok (a_number a) /\
  plain (a_storm_name a) /\ number_ok (a_storm_type a) /\ plain (a_valid a) /\ plain (a_timezone a) /\
  decimal_ok (a_text_lat a) /\ decimal_ok (a_text_lon a) /\ number_ok (a_text_font a) /\ decimal_ok (a_text_size a) /\
  number_ok (a_text_width a) /\ number_ok (a_count a) /\ number_value (a_count a) = Zlen (a_warnings a) /\
  Forall warning_ok (a_warnings a).

(** ** Its text: fields <tag>value *)
Definition ascii_text (s : string) : str := map (fun c => Z.of_nat (nat_of_ascii c)) (list_ascii_of_string s).
Fixpoint bar (l : list str) : str :=
  match l with [] => [] | [s] => s | s :: r => s ++ 124 :: bar r end.
Definition numbered (tag : string) (i : nat) : str := ascii_text tag ++ dec (Z.of_nat i).
Definition warning_fields (i : nat) (w : warning) : list (str * str) :=
  [(numbered "tca_tcawwStr_" i, bar [number_text (w_severity w); number_text (w_type w); number_text (w_geography w)]);
   (numbered "tca_numBreakPts_" i, number_text (w_count w));
   (numbered "tca_breakPts_" i,
    bar (concat (map (fun p => [decimal_text (p_lat p); decimal_text (p_lon p); p_name p]) (w_points w))))].
Fixpoint all_warnings (i : nat) (l : list warning) : list (str * str) :=
  match l with [] => [] | w :: r => warning_fields i w ++ all_warnings (S i) r end.
Definition fields_of (a : advisory) : list (str * str) :=
  [(ascii_text "tca_stormNum", number_text (a_storm_number a)); (ascii_text "tca_issueStatus", a_issue_status a);
   (ascii_text "tca_basin", number_text (a_basin a)); (ascii_text "tca_advisoryNum", number_text (a_number a));
   (ascii_text "tca_stormName", a_storm_name a); (ascii_text "tca_stormType", number_text (a_storm_type a));
   (ascii_text "tca_validTime", a_valid a); (ascii_text "tca_timezone", a_timezone a);
   (ascii_text "tca_textLat", decimal_text (a_text_lat a)); (ascii_text "tca_textLon", decimal_text (a_text_lon a));
   (ascii_text "tca_textFont", number_text (a_text_font a)); (ascii_text "tca_textSize", decimal_text (a_text_size a));
   (ascii_text "tca_textWidth", number_text (a_text_width a)); (ascii_text "tca_wwNum", number_text (a_count a))]
  ++ all_warnings 0 (a_warnings a).
Definition tagged (fs : list (str * str)) : str := concat (map (fun f => 60 :: fst f ++ 62 :: snd f) fs).

(** The fields of an advisory in some order, perhaps among others: no tag twice, values between
    two tags, a list of break points at the end. *)
Definition writes (a : advisory) (fs : list (str * str)) : Prop :=
  NoDup (map fst fs) /\ incl (fields_of a) fs /\
  Forall (fun f => plain (snd f) /\ ~ In 60 (fst f) /\ ~ In 62 (fst f)) fs /\
  exists fs' i v, fs = fs' ++ [(numbered "tca_breakPts_" i, v)].

(** ** The element that shows it *)
Definition shows_float (e : env) (k : string) (q : Q) : Prop := exists f, lookup k e = Some (VFloat f) /\ nearest q f.
Definition shows_point (p : point) (s : string * env) : Prop :=
  fst s = "break_point" /\ shows_float (snd s) "lat" (decimal_value (p_lat p)) /\
  shows_float (snd s) "lon" (decimal_value (p_lon p)) /\ lookup "name" (snd s) = Some (VText (p_name p)).
Definition shows_warning (w : warning) (l : list (string * env)) : Prop :=
  exists x ps, l = ("ww", x) :: ps /\
    lookup "severity" x = Some (VInt (number_value (w_severity w))) /\
    lookup "advisory_type" x = Some (VInt (number_value (w_type w))) /\
    lookup "special_geography" x = Some (VInt (number_value (w_geography w))) /\
    lookup "number_breaks" x = Some (VInt (Zlen (w_points w))) /\
    Forall2 shows_point (w_points w) ps.
Record shows_advisory (h : vhdr) (a : advisory) (e : velem) : Prop := {
  sa_kind : ve_kind e = "TropicalCycloneAdvisoryElement";
  sa_header : ve_hdr e = h;
  sa_storm_number : lookup "storm_number" (ve_attrs e) = Some (VInt (number_value (a_storm_number a)));
  sa_issue_status : lookup "issue_status" (ve_attrs e) = Some (VText (a_issue_status a));
  sa_basin : lookup "basin" (ve_attrs e) = Some (VInt (number_value (a_basin a)));
  sa_number : lookup "advisory_number" (ve_attrs e) = Some (VInt (number_value (a_number a)));
  sa_storm_name : lookup "storm_name" (ve_attrs e) = Some (VText (a_storm_name a));
  sa_storm_type : lookup "storm_type" (ve_attrs e) = Some (VInt (number_value (a_storm_type a)));
  sa_valid : lookup "valid_time" (ve_attrs e) = Some (VText (a_valid a));
  sa_timezone : lookup "timezone" (ve_attrs e) = Some (VText (a_timezone a));
  sa_text_lat : shows_float (ve_attrs e) "text_lat" (decimal_value (a_text_lat a));
  sa_text_lon : shows_float (ve_attrs e) "text_lon" (decimal_value (a_text_lon a));
  sa_text_font : lookup "text_font" (ve_attrs e) = Some (VInt (number_value (a_text_font a)));
  sa_text_size : shows_float (ve_attrs e) "text_size" (decimal_value (a_text_size a));
  sa_text_width : lookup "text_width" (ve_attrs e) = Some (VInt (number_value (a_text_width a)));
  sa_number_ww : lookup "number_ww" (ve_attrs e) = Some (VInt (Zlen (a_warnings a)));
  sa_ww : exists parts, ve_subs e = concat parts /\ Forall2 shows_warning (a_warnings a) parts }.
