(** What a sounding or surface file should give back, in terms of the calls that filled it.
    Nothing here mentions rows, columns, pointers or words. *)
From Coq Require Import Permutation QArith Qabs.
From Verif Require Import Base Floats Strings Dates SpecDates Headers Order Station StationRead.
Open Scope Z_scope.

(** Every call of a history succeeded, the last state being [o']. *)
Definition add_all (o : sfile) (calls : list call) : res sfile :=
  foldM (fun o c => match add_entry o c with (o', Ok _) => Ok o' | (_, Err x) => Err x end) calls o.

(** ** Words about calls *)
(** First occurrences, in order. *)
Fixpoint uniq (l : list str) : list str :=
  match l with [] => [] | x :: r => x :: filter (fun y => negb (str_eqb x y)) (uniq r) end.
(** The parameter names of a file built from [params]. *)
Definition param_names (params : list str) : list str := uniq (map upper params).
(** A four-character text field, and a station id of up to eight characters. *)
Definition field4 (s : str) : str := strip (firstn 4 s).
Definition text_arg (f : sinfo -> option str) (c : call) : str :=
  match c_info c with
  | Some i => upper (match f i with Some s => s | None => [] end)
  | None => []
  end.
Definition int_arg (f : sinfo -> option numarg) (c : call) : Z :=
  match c_info c with
  | Some i => match int_of_arg (f i) with Ok z => z | Err _ => 0 end
  | None => -9999
  end.
Definition pri_arg (k : kind) (c : call) : pynum :=
  match k, c_info c with
  | KSurface, Some i => match si_priority i with Some p => p | None => PInt 0 end
  | _, _ => PInt 0
  end.
Definition num_arg (n : option pynum) : pynum := match n with Some n => n | None => PInt 0 end.
(** The time of a call: the datetime given, or what the string stands for (see C63). *)
Definition time_arg (c : call) : dtime :=
  match sounding_time (c_time c) with Ok t => t | Err _ => mk_dt 0 0 0 0 0 0 0 end.

(** Two calls address the same entry: same time (down to the microsecond) and same station. *)
Definition same_num (a b : pynum) : bool := is_eq (num_cmp a b).
Definition same_time (a b : dtime) : bool :=
  (dt_y a =? dt_y b) && (dt_mo a =? dt_mo b) && (dt_d a =? dt_d b) && (dt_h a =? dt_h b) &&
  (dt_mi a =? dt_mi b) && (dt_s a =? dt_s b) && (dt_us a =? dt_us b).
Definition same_entry (k : kind) (a b : call) : bool :=
  same_time (time_arg a) (time_arg b) &&
  str_eqb (firstn 8 (text_arg si_id a)) (firstn 8 (text_arg si_id b)) &&
  (int_arg si_number a =? int_arg si_number b) && (int_arg si_elev a =? int_arg si_elev b) &&
  same_num (num_arg (c_lat a)) (num_arg (c_lat b)) && same_num (num_arg (c_lon a)) (num_arg (c_lon b)) &&
  str_eqb (firstn 4 (text_arg si_state a)) (firstn 4 (text_arg si_state b)) &&
  str_eqb (firstn 4 (text_arg si_country a)) (firstn 4 (text_arg si_country b)) &&
  same_num (pri_arg k a) (pri_arg k b).
(** A call is superseded by any later call for the same entry. *)
Fixpoint keep_last {A} (same : A -> A -> bool) (l : list A) : list A :=
  match l with
  | [] => []
  | x :: r => if existsb (same x) r then keep_last same r else x :: keep_last same r
  end.

(** ** What should come back *)
Record entry := mk_entry {
  en_time : dtime; en_id : str; en_number : Z; en_lat : flt; en_lon : flt; en_elev : Z;
  en_state : str; en_country : str; en_values : list (option dval);
  en_header : list (option dval)    (* the record's own copy of the metadata *)
}.
(** Coordinates are kept in hundredths of a degree (see C31). *)
Definition stored_coord (n : pynum) : flt :=
  match enc_coord n with Ok z => dec_coord z | Err _ => S754_nan end.
(** The values passed under a name, in any letter case (the last key wins). *)
Definition given (n : str) (c : call) : list flt :=
  match find (fun '(k, _) => str_eqb (upper k) n) (rev (c_data c)) with
  | Some (_, v) => v
  | None => []
  end.
(** NaN becomes -9999, then 32-bit floats; a surface value is a single number. *)
Definition stored_value (x : flt) : flt := np32 (if fnan x then missing_float else x).
Definition stored_values (k : kind) (v : list flt) : dval :=
  match k with
  | KSounding => DArr (map stored_value v)
  | KSurface => DFlt (stored_value (nth 0 v S754_nan))
  end.
(** The metadata inside the decoded record, except keys taken over by a parameter of that name. *)
Definition record_header (k : kind) (c : call) : list (str * hval) :=
  let t := to_minute (time_arg c) in
  [(k_STID, HText (field4 (text_arg si_id c))); (k_STNM, HInt (int_arg si_number c));
   (k_SLAT, HFlt (stored_coord (num_arg (c_lat c)))); (k_SLON, HFlt (stored_coord (num_arg (c_lon c))));
   (k_SELV, HInt (int_arg si_elev c)); (k_STAT, HText (field4 (text_arg si_state c)));
   (k_COUN, HText (field4 (text_arg si_country c)));
   (k_DATE, HDate (date_of t)); (k_TIME, HTime (time_of t))]
  ++ match k with
     | KSounding => []
     | KSurface => [(k_STD2, HText (field4 (skipn 4 (text_arg si_id c))));
                    (k_SPRI, HInt (match pri_arg k c with PInt z => z | PFloat _ => 0 end))]
     end.
Definition header_keys (k : kind) : list str :=
  [k_STID; k_STNM; k_SLAT; k_SLON; k_SELV; k_STAT; k_COUN; k_DATE; k_TIME]
  ++ match k with KSounding => [] | KSurface => [k_STD2; k_SPRI] end.
Definition is_param (names : list str) (key : str) : bool := existsb (fun n => str_eqb key (firstn 4 n)) names.
Definition expected (k : kind) (names : list str) (c : call) : entry :=
  mk_entry (to_minute (time_arg c))
    (match k with
     | KSounding => field4 (text_arg si_id c)
     | KSurface => field4 (text_arg si_id c) ++ field4 (skipn 4 (text_arg si_id c))
     end)
    (int_arg si_number c) (stored_coord (num_arg (c_lat c))) (stored_coord (num_arg (c_lon c)))
    (int_arg si_elev c) (field4 (text_arg si_state c)) (field4 (text_arg si_country c))
    (map (fun n => Some (stored_values k (given n c))) names)
    (map (fun '(key, v) => if is_param names key then None else Some (DHead v)) (record_header k c)).

(** What the reader reports: the listing and, for each name (its first four characters), the value
    in the decoded record. *)
Definition reported (k : kind) (names : list str) (x : listing * record) : entry :=
  let '(l, r) := x in
  mk_entry (ls_time l) (ls_id l) (ls_number l) (ls_lat l) (ls_lon l) (ls_elev l) (ls_state l) (ls_country l)
    (map (fun n => get (firstn 4 n) r) names)
    (map (fun key => if is_param names key then None else get key r) (header_keys k)).

(** ** Calls covered *)
(** Real coordinates: an int or a finite binary64 number of moderate size. *)
Definition coord_ok (n : pynum) : Prop :=
  match n with
  | PInt z => Z.abs z < 2 ^ 45
  | PFloat f => finite f = true /\ valid64 f = true /\ (Qabs (q_of f) < inject_Z (2 ^ 45))%Q
  end.
(** A proper datetime in the years the two-digit date can express, proper coordinates, and for a
    surface report one value per parameter and an integer priority. *)
Definition call_ok (k : kind) (c : call) : Prop :=
  match c_time c with ADDt t => valid_dt t = true | _ => True end /\
  in_window (dt_y (time_arg c)) /\
  coord_ok (num_arg (c_lat c)) /\ coord_ok (num_arg (c_lon c)) /\
  match k with KSounding => True | KSurface => Forall (fun '(_, v) => length v = 1%nat) (c_data c) end /\
  match pri_arg k c with PInt _ => True | PFloat _ => False end.
Definition names_ok (k : kind) (names : list str) : Prop :=
  NoDup (map (firstn 4) names) /\
  match k with
  | KSounding => True
  | KSurface => ~ In k_TEXT (map (firstn 4) names) /\ ~ In k_SPCL (map (firstn 4) names)
  end.
