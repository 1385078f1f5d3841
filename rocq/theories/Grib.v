(** GRIB packing (encode/gempak.py:38-141 [pack_grib]) and unpacking
    (decode/gempak.py:149-209 [_unpack_grib]).  Definitions only.
    Simplification: floating-point arithmetic on the grid is exact (rationals [Q]); all
    scalings are by powers of two, so the only roundings left out are those of
    [grid - qmin], [qmax - qmin] and of the decoder's [reference + u * scale]. *)
From Coq Require Export QArith Qround Qpower.
From Verif Require Import Base.
Open Scope Z_scope.

(** np.arange(k) *)
Definition zrange (k : Z) : list Z := map Z.of_nat (seq 0 (Z.to_nat k)).

(** Wrap-around of numpy int32 and its unsigned view. *)
Definition wrap32 (v : Z) : Z := to_signed32 (v mod two32).

(** encode/gempak.py:93 and decode/gempak.py:153 (without the minus sign):
    ((33 - ((i + 1) * nbits)) % 32 - 1) % 32 *)
Definition word_shift (nbits i : Z) : Z := ((33 - (i + 1) * nbits) mod 32 - 1) mod 32.

(** encode/gempak.py:94-95 *)
Definition word_start_idxs (nbits kxky : Z) : list Z :=
  filter (fun i => word_shift nbits i >=? 32 - nbits) (zrange kxky).

(** np.diff(l).max(): ValueError on an empty array *)
Fixpoint diffs (l : list Z) : list Z :=
  match l with
  | x :: ((y :: _) as r) => (y - x) :: diffs r
  | _ => []
  end.
Definition list_max (l : list Z) : res Z :=
  match l with [] => Err ValueError | x :: r => Ok (fold_left Z.max r x) end.

(** encode/gempak.py:99-100; 32 / nbits (float) <> 32 // nbits iff nbits does not divide 32 *)
Definition n_input_words (nbits : Z) (starts : list Z) : res Z :=
  d <- list_max (diffs starts) ;;
  Ok (d + (if 32 mod nbits =? 0 then 0 else 1)).

(** encode/gempak.py:116-126 for one output word: the list of (index, shift) pairs, one per
    input word; an unneeded entry is (-1, 0). *)
Fixpoint row_entries (nbits : Z) (n : nat) (idx_max idx shift : Z) : list (Z * Z) :=
  match n with
  | O => []
  | S k =>
      (idx, shift) ::
      (let idx' := idx + 1 in
       let shift' := shift - nbits in
       if (idx' >? idx_max) || (idx =? -1)
       then row_entries nbits k idx_max (-1) 0
       else row_entries nbits k idx_max idx' shift')
  end.

(** encode/gempak.py:129-135: one shifted input word (int32 arithmetic) *)
Definition row_term (vals : list Z) (e : Z * Z) : Z :=
  let '(idx, shift) := e in
  if idx >=? 0 then
    let v := nth (Z.to_nat idx) vals 0 in
    if shift >? 0 then wrap32 (Z.shiftl v shift) else Z.shiftr v (Z.abs shift)
  else 0.

(** encode/gempak.py:113-114: the start of the next word, or the last input index *)
Fixpoint row_maxes (starts : list Z) (kxky : Z) : list Z :=
  match starts with
  | [] => []
  | [_] => [kxky - 1]
  | _ :: ((y :: _) as r) => y :: row_maxes r kxky
  end.

(** encode/gempak.py:91-137: all output words.  [vals] is rgrid_round. *)
Definition pack_words (nbits : Z) (vals : list Z) : res (list Z) :=
  let kxky := Zlen vals in
  let starts := word_start_idxs nbits kxky in
  n <- n_input_words nbits starts ;;
  Ok (map (fun sm => fold_left Z.add
              (map (row_term vals)
                 (row_entries nbits (Z.to_nat n) (snd sm) (fst sm) (word_shift nbits (fst sm)))) 0)
        (combine starts (row_maxes starts kxky))).

(** Number of output words, encode/gempak.py:45-47 *)
Definition packed_length (nbits kxky : Z) : Z :=
  let l := (nbits * kxky) / 32 in
  if l * 32 =? nbits * kxky then l else l + 1.

(** round() and numpy.round: to nearest, ties to even *)
Definition round_half_even (q : Q) : Z :=
  let f := Qfloor q in
  match Qcompare (q - inject_Z f)%Q (1 # 2) with
  | Lt => f
  | Gt => f + 1
  | Eq => if Z.even f then f else f + 1
  end.

Definition qmin2 (a b : Q) : Q := if Qle_bool a b then a else b.
Definition qmax2 (a b : Q) : Q := if Qle_bool a b then b else a.
Definition list_qmin (x : Q) (l : list Q) : Q := fold_left qmin2 l x.
Definition list_qmax (x : Q) (l : list Q) : Q := fold_left qmax2 l x.

Definition Qltb (a b : Q) : bool := negb (Qle_bool b a).
Definition pow2 (n : Z) : Q := Qpower (2 # 1) n.

(** encode/gempak.py:75-77: while idat >= imax: nnnn -= 1; idat = qdiff * 2**nnnn *)
Fixpoint scale_down (fuel : nat) (qdiff imax idat : Q) (nnnn : Z) : res Z :=
  match fuel with
  | O => Err OutOfFuel
  | S k => if Qle_bool imax idat
           then scale_down k qdiff imax (qdiff * pow2 (nnnn - 1)) (nnnn - 1)
           else Ok nnnn
  end.
(** encode/gempak.py:79-80: while round(qdiff * 2**(nnnn + 1)) < imax: nnnn += 1 *)
Fixpoint scale_up (fuel : nat) (qdiff : Q) (imax nnnn : Z) : res Z :=
  match fuel with
  | O => Err OutOfFuel
  | S k => if round_half_even (qdiff * pow2 (nnnn + 1)) <? imax
           then scale_up k qdiff imax (nnnn + 1)
           else Ok nnnn
  end.
Definition scale_fuel : nat := 200.

(** encode/gempak.py:71-80: the exponent of the scale *)
Definition find_scale (qdiff : Q) (nbits : Z) : res Z :=
  let imax := 2 ^ nbits - 1 in
  let idat := round_half_even qdiff in
  if Qltb (pow2 (-126) * inject_Z imax) (if Qle_bool 0 qdiff then qdiff else - qdiff)%Q then
    if idat >=? imax then scale_down scale_fuel qdiff (inject_Z imax) (inject_Z idat) 0
    else scale_up scale_fuel qdiff imax 0
  else Ok 0.

(** encode/gempak.py:84-89: quantized values ([imax] for missing cells) *)
Definition quantize (missing qmin scale : Q) (imax : Z) (x : Q) : Z :=
  if Qeq_bool x missing then imax
  else wrap32 (round_half_even (qmax2 (x - qmin) 0 * scale)%Q).

(** encode/gempak.py:38-141: (reference, scale, words) *)
Definition pack_grib (grid : list Q) (missing : Q) (nbits : Z) : res (Q * Q * list Z) :=
  let kxky := Zlen grid in
  if (nbits <? 1) || (nbits >? 31) then Err ValueError else
  let has_missing := existsb (fun x => Qeq_bool x missing) grid in
  let all_missing := forallb (fun x => Qeq_bool x missing) grid in
  let '(qmin, qmax) :=
    if all_missing then (missing, missing)
    else match grid with
         | [] => (missing, missing)
         | x :: r => (list_qmin x r, list_qmax x r)
         end in
  let qdiff := (qmax - qmin)%Q in
  let idat := round_half_even qdiff in
  if Qltb qdiff 0 || (idat >? 2147483647) then Err ValueError else
  if Qeq_bool qdiff 0 && negb has_missing then
    Ok (qmin, 1%Q, repeat 0 (Z.to_nat (packed_length nbits kxky)))
  else
    nnnn <- find_scale qdiff nbits ;;
    let imax := 2 ^ nbits - 1 in
    let scale := pow2 nnnn in
    let vals := map (quantize missing qmin scale imax) grid in
    out <- pack_words nbits vals ;;
    Ok (qmin, pow2 (- nnnn), out).

(** ** decode/gempak.py:149-209 [_unpack_grib] *)

(** decode/gempak.py:153-156 *)
Definition u_shift (nbits i : Z) : Z := - word_shift nbits i.
Definition is_split (nbits i : Z) : bool := u_shift nbits i <? nbits - 32.
(** decode/gempak.py:160-161: np.roll by one, first element forced to False *)
Definition is_even (nbits i : Z) : bool := negb (i =? 0) && (u_shift nbits (i - 1) =? 0).

(** decode/gempak.py:172: running sum of the increments *)
Fixpoint cumsum_from (acc : Z) (l : list Z) : list Z :=
  match l with [] => [] | x :: r => (acc + x) :: cumsum_from (acc + x) r end.
Definition u_index (nbits kxky : Z) : list Z :=
  cumsum_from 0 (map (fun i => if is_split nbits i || is_even nbits i then 1 else 0) (zrange kxky)).

(** decode/gempak.py:187-194: one shifted word; an int32 word is shifted left with
    wrap-around, or its unsigned view is shifted right; then masked with imax (197). *)
Definition u_term (words : list Z) (imax idx shift : Z) : res Z :=
  if idx >=? 0 then
    w <- py_index words idx ;;
    Ok (Z.land (if shift >? 0 then wrap32 (Z.shiftl w shift)
                else Z.shiftr (w mod two32) (Z.abs shift)) imax)
  else Ok 0.

(** decode/gempak.py:149-198: the unpacked integers.  When no word is split only the first
    column exists; the second column's entries for unsplit words are 0 either way. *)
Definition unpack_words (words : list Z) (nbits kxky : Z) : res (list Z) :=
  let imax := 2 ^ nbits - 1 in
  mapM (fun p => let '(i, ii) := p in
          a <- u_term words imax ii (u_shift nbits i) ;;
          b <- (if is_split nbits i then u_term words imax (ii - 1) (u_shift nbits i + 32) else Ok 0) ;;
          Ok (a + b))
       (combine (zrange kxky) (u_index nbits kxky)).

(** decode/gempak.py:200-209 *)
Definition reconstruct (missing : option Q) (imax : Z) (reference scale : Q) (u : Z) : Q :=
  match missing with
  | Some m => if u =? imax then m else (reference + inject_Z u * scale)%Q
  | None => (reference + inject_Z u * scale)%Q
  end.
Definition unpack_grib (words : list Z) (nbits kxky : Z) (reference scale : Q) (missing : option Q)
  : res (list Q) :=
  us <- unpack_words words nbits kxky ;;
  Ok (map (reconstruct missing (2 ^ nbits - 1) reference scale) us).

(** decode/gempak.py:905-937, the GRIB branch of [_unpack_grid] for one grid: a grid of at most
    one packed word is dropped ([None]). *)
Definition read_grib_grid (words : list Z) (nbits kxky : Z) (reference scale : Q) (missing : option Q)
  : res (option (list Q)) :=
  if Zlen words >? 1 then
    g <- unpack_grib words nbits kxky reference scale missing ;; Ok (Some g)
  else Ok None.
