(** What a grid file should give back, in terms of the add_grid calls that filled it.
    Nothing here mentions header words, pointers or blocks. *)
From Coq Require Import QArith Qabs.
From Verif Require Import Base Floats Strings Dates SpecDates Headers Order Station SpecStation Grid GridRead.
Open Scope Z_scope.

(** Every call of a history succeeded, the last state being [o']. *)
Definition add_grids (o : gridfile) (calls : list gcall) : res gridfile :=
  foldM (fun o c => match add_grid o c with (o', Ok _) => Ok o' | (_, Err x) => Err x end) calls o.

(** ** The header of a call *)
Definition ok_or {A} (d : A) (r : res A) : A := match r with Ok x => x | Err _ => d end.
(** A date_time argument: forecast type, reference time, forecast hours and minutes. *)
Definition when_key (w : Z * dtime * Z * Z) : list Z :=
  let '(g, d, h, m) := w in [g; dt_y d; dt_mo d; dt_d d; dt_h d; dt_mi d; dt_s d; dt_us d; g; h; m].
Definition when_of (a : dtarg) : list Z := ok_or [] (w <- parse_date_time a ;; Ok (when_key w)).
(** Levels are cut to integers; no second level is -1. *)
Definition level_of (l : lvarg) : Z :=
  match l with LNum n => ok_or 0 (int_of_num n) | _ => -1 end.
Definition coord_arg (v : vcarg) : option str := match v with VCStr s => Some s | _ => None end.
(** The parameter name: upper case, blanks to twelve characters. *)
Definition name_of (q : gcall) : str :=
  ljust 12 (upper (match q_parm q with Some s => s | None => [] end)).
(** The whole header as a list of numbers: first time, second time (none sorts first), levels,
    coordinate, name. *)
Definition header (q : gcall) : list Z :=
  when_of (q_time q) ++
  match q_time2 q with Some a => 1 :: when_of a | None => repeat 0 12 end ++
  [level_of (q_level q); level_of (q_level2 q); ok_or 0 (enc_vcoord (coord_arg (q_vcoord q)))] ++
  name_of q.
Definition same_header (a b : gcall) : bool := str_eqb (header a) (header b).
(** Headers are in dictionary order. *)
Definition before (a b : gcall) : Prop := str_cmp (header a) (header b) = Lt.

(** ** What is listed *)
Definition listed_level (z : Z) : option Z := if z <? 0 then None else Some z.
Definition no_time : dtime := mk_dt 0 0 0 0 0 0 0.
Definition reported (a : dtarg) : ftype * dtime :=
  ok_or (analysis, no_time) (' (z1, z2) <- stored_time a ;; listed_time z1 z2).
Definition expected_listing (n : Z) (q : gcall) : glisting :=
  mk_gl n (fst (reported (q_time q))) (snd (reported (q_time q)))
    (match q_time2 q with Some a => Some (snd (reported a)) | None => None end)
    (field4 (name_of q) ++ field4 (skipn 4 (name_of q)) ++ field4 (skipn 8 (name_of q)))
    (listed_level (level_of (q_level q))) (listed_level (level_of (q_level2 q)))
    (match q_vcoord q with VCStr s => upper s | _ => [78;79;78;69] (* NONE *) end).

(** ** The data of a call: NaN is replaced by -9999 *)
Definition cells_of (q : gcall) : list flt :=
  map (fun x => if fnan x then missing_float else x) (match q_grid q with Some a => snd a | None => [] end).

(** A time that can be read back (see C21-C27 for which can). *)
Definition time_readable (a : dtarg) : Prop :=
  exists ty t, (' (z1, z2) <- stored_time a ;; listed_time z1 z2) = Ok (ty, t).
(** A binary64 number that is NaN or in the range of binary32. *)
Definition value_ok (x : flt) : Prop :=
  valid64 x = true /\ (x = S754_nan \/ (finite x = true /\ (Qabs (q_of x) < inject_Z (2 ^ 127))%Q)).
(** The calls considered: readable times; an array with as many cells as its shape says, of
    numbers in range. *)
Definition call_ok (g : geom) (q : gcall) : Prop :=
  time_readable (q_time q) /\ (forall a, q_time2 q = Some a -> time_readable a) /\
  (forall a, q_grid q = Some a -> Zlen (snd a) = gm_nx g * gm_ny g /\ Forall value_ok (snd a)).
