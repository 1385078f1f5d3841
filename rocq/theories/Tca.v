(** Tropical cyclone advisories: the parsing of the text inside a record, which [VgfRead] takes
    as a parameter.  Source: /repo/src/gempakio/decode/vgf.py:4199-4278 ([_decode_tca]) and
    2010-2083 ([TropicalCycloneAdvisoryElement]).  Definitions only.

    Simplifications: int() and float() know the ASCII digits only; float() knows no underscores
    between digits.  numpy strings are strings.  The watches of an element, a Python list of
    dictionaries each with a list of break points, are flattened: a sub-record "ww" for each watch,
    followed by a sub-record "break_point" for each of its break points. *)
From Coq Require Import Ascii String.
From Verif Require Import Base Floats Strings Structs VgfBase VgfTables VgfRead.
From Coq Require Import List.
Import ListNotations.
Open Scope string_scope.
Open Scope list_scope.
Open Scope Z_scope.

(** A Python literal as a str *)
Definition codes (s : string) : str := map (fun a => Z.of_nat (nat_of_ascii a)) (list_ascii_of_string s).

(** ** Regular expressions [(?<=<tag>)(.+?)(?=<)] and [(?<=<tag>)(.+?)(?=<|$)] *)

(** The text after a literal prefix. *)
Fixpoint after_prefix (p s : str) : option str :=
  match p, s with
  | [], _ => Some s
  | a :: p', c :: s' => if a =? c then after_prefix p' s' else None
  | _ :: _, [] => None
  end.

(** [.+?] past its first character, up to the first place where the lookahead holds: before '<',
    or, for the second pattern ([eos]), at the end of the text or before a newline that ends it.
    A dot does not match a newline. *)
Fixpoint lazily (eos : bool) (s : str) : option str :=
  match s with
  | [] => if eos then Some [] else None
  | c :: r =>
      if c =? 60 then Some []
      else if c =? 10 then (if eos && match r with [] => true | _ => false end then Some [] else None)
      else option_map (cons c) (lazily eos r)
  end.
Definition group (eos : bool) (s : str) : option str :=
  match s with
  | [] => None
  | c :: r => if c =? 10 then None else option_map (cons c) (lazily eos r)
  end.

(** re.search: the leftmost match *)
Fixpoint search (eos : bool) (tag s : str) : option str :=
  match match after_prefix (60 :: tag ++ [62]) s with Some r => group eos r | None => None end with
  | Some g => Some g
  | None => match s with [] => None | _ :: r => search eos tag r end
  end.
(** re.search(...).group(): AttributeError of None *)
Definition field (eos : bool) (tag : str) (s : str) : res str :=
  match search eos tag s with Some g => Ok g | None => Err AttributeError end.

(** ** float() of a text *)

(** A run of digits: its value after [acc], the number of its digits, the rest *)
Fixpoint digit_run (s : str) (acc : Z) (n : nat) : Z * nat * str :=
  match s with
  | c :: r => if is_digit c then digit_run r (10 * acc + (c - 48)) (S n) else (acc, n, s)
  | [] => (acc, n, [])
  end.

(** The double nearest to m * 10^k, as a quotient of two integers rounded once *)
Definition scaled (neg : bool) (m k : Z) : flt :=
  match m with
  | Zpos p => SFdiv p64 e64 (S754_finite neg (p * Z.to_pos (10 ^ Z.max 0 k)) 0)
                            (S754_finite false (Z.to_pos (10 ^ Z.max 0 (- k))) 0)
  | _ => S754_zero neg
  end.

(** The exponent of a decimal number, with nothing after it *)
Definition exponent (s : str) : res Z :=
  match s with
  | [] => Ok 0
  | c :: r =>
      if (c =? 101) || (c =? 69) then
        let '(neg, r') := match r with
                          | x :: t => if x =? 45 then (true, t) else if x =? 43 then (false, t) else (false, r)
                          | [] => (false, []) end in
        let '(v, n, rest) := digit_run r' 0 0%nat in
        match n, rest with
        | S _, [] => Ok (if neg : bool then - v else v)
        | _, _ => Err ValueError
        end
      else Err ValueError
  end.

(** float(s) without its sign *)
Definition unsigned_float (neg : bool) (s : str) : res flt :=
  let low := map (fun c => if between 65 90 c then c + 32 else c) s in
  if str_eqb low (codes "inf") || str_eqb low (codes "infinity") then Ok (S754_infinity neg)
  else if str_eqb low (codes "nan") then Ok S754_nan
  else
    let '(m, n, r) := digit_run s 0 0%nat in
    let '(m', f, r') := match r with
                        | c :: t => if c =? 46 then digit_run t m 0%nat else (m, 0%nat, r)
                        | [] => (m, 0%nat, r) end in
    match (n + f)%nat with
    | O => Err ValueError
    | _ => e <- exponent r' ;; Ok (scaled neg m' (e - Z.of_nat f))
    end.
Definition py_float (s : str) : res flt :=
  match strip s with
  | c :: r => if c =? 45 then unsigned_float true r
              else if c =? 43 then unsigned_float false r
              else unsigned_float false (c :: r)
  | [] => Err ValueError
  end.

(** ** numpy.array_split(l, n): the first len(l) mod n parts are one longer; ValueError for n <= 0 *)
Fixpoint cut {A} (sizes : list nat) (l : list A) : list (list A) :=
  match sizes with
  | [] => []
  | k :: r => firstn k l :: cut r (skipn k l)
  end.
Definition array_split {A} (l : list A) (n : Z) : res (list (list A)) :=
  if n <=? 0 then Err ValueError
  else
    let each := Z.to_nat (Zlen l / n) in
    let extras := Z.to_nat (Zlen l mod n) in
    Ok (cut (repeat (S each) extras ++ repeat each (Z.to_nat n - extras)) l).

(** ** The record *)

Definition bars (s : str) : list str := fst (split_on (Z.eqb 124) s).

(** 4245-4247: one break point; the unpacking of other than three parts is a ValueError *)
Definition break_point (l : list str) : res (string * env) :=
  match l with
  | [lat; lon; name] =>
      a <- py_float lat ;; b <- py_float lon ;;
      Ok ("break_point", [("lat", VFloat a); ("lon", VFloat b); ("name", VText name)])
  | _ => Err ValueError
  end.

(** 4235-4257: one watch or warning.  Severity and AdvisoryType have the values 0 and 1,
    SpecialGeography 0, 1 and 2 (246-276). *)
Definition tca_tag (name : string) (n : Z) : str := codes name ++ dec n.
Definition watch (text : str) (n : Z) : res (list (string * env)) :=
  wwstr <- field false (tca_tag "tca_tcawwStr_" n) text ;;
  nb <- field false (tca_tag "tca_numBreakPts_" n) text ;;
  nbreaks <- py_int nb ;;
  breakpts <- field true (tca_tag "tca_breakPts_" n) text ;;
  match bars wwstr with
  | [severity; advisory_type; special_geog] =>
      parsed <- array_split (bars breakpts) nbreaks ;;
      points <- mapM break_point parsed ;;
      sv <- py_int severity ;; s' <- enum 0 1 sv ;;
      av <- py_int advisory_type ;; a' <- enum 0 1 av ;;
      gv <- py_int special_geog ;; g' <- enum 0 2 gv ;;
      Ok (("ww", [("severity", s'); ("advisory_type", a'); ("special_geography", g');
                  ("number_breaks", VInt nbreaks)]) :: points)
  | _ => Err ValueError
  end.

Fixpoint zcount (k : nat) (from : Z) : list Z :=
  match k with O => [] | S k' => from :: zcount k' (from + 1) end.

(** 4199-4278.  An element is appended in every round of the loop over the watches; all of them
    hold the same list [ww], which is complete when the loop ends. *)
Definition tca_elements (h : vhdr) (text : str) : res (list velem) :=
  let int_field name := s <- field false (codes name) text ;; v <- py_int s ;; Ok (VInt v) in
  let float_field name := s <- field false (codes name) text ;; v <- py_float s ;; Ok (VFloat v) in
  let text_field name := s <- field false (codes name) text ;; Ok (VText s) in
  storm_number <- int_field "tca_stormNum" ;;
  issue_status <- text_field "tca_issueStatus" ;;
  basin <- int_field "tca_basin" ;;
  advisory_number <- int_field "tca_advisoryNum" ;;
  storm_name <- text_field "tca_stormName" ;;
  storm_type <- int_field "tca_stormType" ;;
  valid <- text_field "tca_validTime" ;;
  tz <- text_field "tca_timezone" ;;
  text_lat <- float_field "tca_textLat" ;;
  text_lon <- float_field "tca_textLon" ;;
  text_font <- int_field "tca_textFont" ;;
  text_size <- float_field "tca_textSize" ;;
  text_width <- int_field "tca_textWidth" ;;
  s <- field false (codes "tca_wwNum") text ;;
  wwnum <- py_int s ;;
  let rounds := zcount (Z.to_nat wwnum) 0 in
  ww <- mapM (watch text) rounds ;;
  let e := mk_velem "TropicalCycloneAdvisoryElement" h
             [("storm_number", storm_number); ("issue_status", issue_status); ("basin", basin);
              ("advisory_number", advisory_number); ("storm_name", storm_name);
              ("storm_type", storm_type); ("valid_time", valid); ("timezone", tz);
              ("text_lat", text_lat); ("text_lon", text_lon); ("text_font", text_font);
              ("text_size", text_size); ("text_width", text_width); ("number_ww", VInt wwnum)]
             (concat ww) [] CoNone CoNone in
  Ok (map (fun _ => e) rounds).
