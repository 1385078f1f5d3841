(** Specification side: what is stored for one sounding of an unmerged file. *)
From Coq Require Import QArith String.
From Verif Require Import Base Floats Structs Strings Dates Headers Order DmFile Station StationRead Query SnOut SpecSnOut Unmerged.
From Verif Require Calc Merge.
From Coq Require Import List.
Open Scope Z_scope.

(** The last element of [l] with the property *)
Definition last_with {X} (P : X -> Prop) (l : list X) (x : X) : Prop :=
  exists before after, l = before ++ x :: after /\ P x /\ forall y, In y after -> ~ P y.
(** A part called [name] is stored for the cell: the file's pointer table has a block for it *)
Definition stored_at (f : rfile) (i j : Z) (name : str) (x : Z * (rpart * rparams)) : Prop :=
  rp_name (fst (snd x)) = name /\ data_ptr f i j (fst x) <> 0.
Definition file_parts (f : rfile) : list (Z * (rpart * rparams)) :=
  indexed (combine (gf_parts (rf_file f)) (gf_parameters (rf_file f))).
(** The numbers of a stored block: reals, or unpacked reals *)
Definition numbers (of_q : Q -> flt) (f : rfile) (part : rpart) (q : rparams) (ptr : Z) (vals : list flt) : Prop :=
  rp_data_type part <> 3 /\
  (read_block f part q ptr = Ok (BReal vals) \/
   exists l, read_block f part q ptr = Ok (BPack l) /\
     vals = map (fun o => match o with Some x => of_q x | None => lb_missing_float (gf_label (rf_file f)) end) l).
(** Values are stored level by level: the array [l] of the parameter [param] of part [name] *)
Definition stored_array (of_q : Q -> flt) (f : rfile) (i j : Z) (name param : str) (l : list flt) : Prop :=
  exists iprt part q vals m, last_with (stored_at f i j name) (file_parts f) (iprt, (part, q)) /\
    numbers of_q f part q (data_ptr f i j iprt) vals /\
    last_with (fun x => snd x = param) (indexed (rq_name q)) (m, param) /\
    forall level, nth_error l level = nth_error vals (level * length (rq_name q) + Z.to_nat m).

(** A character part: one text per block, after the length word (four bytes, fewer at the end of the file) and the header
    words of the block *)
Definition stored_text (f : rfile) (i j : Z) (name : str) (s : str) : Prop :=
  exists iprt part q b, last_with (stored_at f i j name) (file_parts f) (iprt, (part, q)) /\ rp_data_type part = 3 /\ rq_name q = [[84;69;88;84]] /\
    let pos := 4 * (data_ptr f i j iprt - 1) in
    let words := rd_uint (gf_endian (rf_file f)) (gf_data (rf_file f)) pos - rp_header_length part in
    let next := pos + Zlen (py_slice (gf_data (rf_file f)) pos (pos + 4)) in
    rd_struct (gf_endian (rf_file f)) [FStr (Z.to_nat (4 * words))] (gf_data (rf_file f)) (next + 4 * rp_header_length part) = Ok [VBytes b] /\
    0 <= words /\ decode_strip b = Ok s.
(** The parts given to the merging are those stored: an array is there exactly when it is stored *)
Definition parts_of {W} (num_of : flt -> Calc.num W) (of_q : Q -> flt) (f : rfile) (i j : Z) (ps : Merge.parts_t W) : Prop :=
  forall name param, is_ascii name = true -> is_ascii param = true ->
    forall a, (exists p, Merge.assoc (name_string name) ps = Some p /\ Merge.assoc (name_string param) p = Some a) <->
    exists l, stored_array of_q f i j name param l /\ a = map num_of l.
Definition reads_headers (r : record) (x : listing) : Prop :=
  entry r k_STID (DHead (HText (ls_id x))) /\ entry r k_STNM (DHead (HInt (ls_number x))) /\
  entry r k_SLAT (DHead (HFlt (ls_lat x))) /\ entry r k_SLON (DHead (HFlt (ls_lon x))) /\
  entry r k_SELV (DHead (HInt (ls_elev x))) /\ entry r k_STAT (DHead (HText (ls_state x))) /\
  entry r k_COUN (DHead (HText (ls_country x))) /\ at_time r (ls_time x).
(** The record of a listed sounding: its own headers, and its own parts merged *)
Definition merged_of {W} (num_of : flt -> Calc.num W) (flt_of : Calc.num W -> flt) (of_q : Q -> flt) (fuel : nat)
    (f : rfile) (x : listing) (o : option record) : Prop :=
  exists ps m, parts_of num_of of_q f (ls_row x) (ls_col x) ps /\
    Merge.merge_sounding W (num_of (lb_missing_float (gf_label (rf_file f)))) fuel ps (num_of (of_Z (ls_elev x))) = Ok m /\
    match m, o with
    | None, None => True
    | Some s, Some r =>
        reads_headers r x /\
        (forall k name, In (name, k) [(k_PRES, Calc.PRES); (k_HGHT, Calc.HGHT); ([84;69;77;80], Calc.TEMP);
                                     ([68;87;80;84], Calc.DWPT); ([68;82;67;84], Calc.DRCT); ([83;80;69;68], Calc.SPED)] ->
          entry r name (DArr (map flt_of (Calc.get s k)))) /\
        (forall k t, In k text_keys -> (entry r k (DStr t) <-> stored_text f (ls_row x) (ls_col x) k t))
    | _, _ => False
    end.
(** Every part called [name] stores all six quantities *)
Definition stores_all (f : rfile) (name : str) : Prop :=
  forall n part q, In (n, (part, q)) (file_parts f) -> rp_name part = name ->
    forall k, In k [k_PRES; k_HGHT; [84;69;77;80]; [68;87;80;84]; [68;82;67;84]; [83;80;69;68]] -> In k (rq_name q).

(** ** Listing *)
(** A cell of the table with a header for its row and column *)
Definition is_cell (f : rfile) (i j : Z) : Prop := 0 <= i < Zlen (rf_rows f) /\ 0 <= j < Zlen (rf_cols f).
(** The file has a block for the [iprt]-th part of the cell *)
Definition block_at (f : rfile) (i j iprt : Z) : Prop := 0 <= iprt < Zlen (gf_parts (rf_file f)) /\ data_ptr f i j iprt <> 0.
Definition is_listed (l : list listing) (i j : Z) : Prop := exists x, In x l /\ ls_row x = i /\ ls_col x = j.
