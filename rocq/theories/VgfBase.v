(** Python number rounding and UTF-8 text as used by decode/vgf.py and encode/vgf.py.
    Definitions only. *)
From Verif Require Import Base Floats Strings.

(** ** Rounding *)

(** The integer nearest to m * 2^e * 10^n, ties to the even one. *)
Definition nearest_mag (m : positive) (e n : Z) : Z :=
  let N := Z.pos m * 10 ^ n in
  if e <? 0 then
    let D := 2 ^ (- e) in
    let q := N / D in
    let r := N mod D in
    if 2 * r <? D then q else if D <? 2 * r then q + 1 else if Z.even q then q else q + 1
  else N * 2 ^ e.

(** Whether m * 2^e is an integer. *)
Definition integral (m : positive) (e : Z) : bool := (0 <=? e) || (Z.pos m mod 2 ^ (- e) =? 0).

Definition signed (s : bool) (f : flt) : flt :=
  if s then SFopp f else f.

(** Python's round(x, n) for a float x (CPython float.__round__: the exact value rounded to n
    decimals, ties to even, then converted back to the nearest double; integers, infinities and
    NaN are returned unchanged). *)
Definition py_round (n : Z) (x : flt) : flt :=
  match x with
  | S754_finite s m e =>
      if integral m e then x
      else signed s (fdiv (of_Z (nearest_mag m e n)) (of_Z (10 ^ n)))
  | _ => x
  end.

(** binary32 arithmetic of numpy float32 arrays *)
Definition mul32 := SFmul p32 e32.
Definition div32 := SFdiv p32 e32.
Definition of_Z32 (n : Z) : flt := binary_normalize p32 e32 n 0 false.
(** numpy.rint: to the nearest integer, ties to even *)
Definition rint32 (x : flt) : flt :=
  match x with
  | S754_finite s m e => if integral m e then x else signed s (of_Z32 (nearest_mag m e 0))
  | _ => x
  end.
(** numpy.around(x, 2) on a float32: rint(x * 100) / 100, every step in float32 *)
Definition around2 (x : flt) : flt := div32 (rint32 (mul32 x (of_Z32 100))) (of_Z32 100).

(** ** UTF-8 *)

Definition cont (b : Z) : bool := (128 <=? b) && (b <=? 191).
Definition between (lo hi b : Z) : bool := (lo <=? b) && (b <=? hi).

(** One step of CPython's UTF-8 decoder: the code point and its length, or the length of the
    invalid piece (the longest prefix that could still begin a character, at least one byte). *)
Inductive ustep := UChar (c : Z) (len : nat) | UBad (len : nat).

(** Second byte allowed after first byte b0 of a 3- or 4-byte form. *)
Definition second_ok (b0 b1 : Z) : bool :=
  if b0 =? 224 then between 160 191 b1          (* E0 *)
  else if b0 =? 237 then between 128 159 b1     (* ED *)
  else if b0 =? 240 then between 144 191 b1     (* F0 *)
  else if b0 =? 244 then between 128 143 b1     (* F4 *)
  else cont b1.

Definition utf8_step (b0 : Z) (r : bytes) : ustep :=
  if b0 <? 128 then UChar b0 1
  else if between 194 223 b0 then
    match r with
    | b1 :: _ => if cont b1 then UChar ((b0 - 192) * 64 + (b1 - 128)) 2 else UBad 1
    | [] => UBad 1
    end
  else if between 224 239 b0 then
    match r with
    | b1 :: r1 =>
        if second_ok b0 b1 then
          match r1 with
          | b2 :: _ => if cont b2 then UChar ((b0 - 224) * 4096 + (b1 - 128) * 64 + (b2 - 128)) 3
                       else UBad 2
          | [] => UBad 2
          end
        else UBad 1
    | [] => UBad 1
    end
  else if between 240 244 b0 then
    match r with
    | b1 :: r1 =>
        if second_ok b0 b1 then
          match r1 with
          | b2 :: r2 =>
              if cont b2 then
                match r2 with
                | b3 :: _ =>
                    if cont b3 then
                      UChar ((b0 - 240) * 262144 + (b1 - 128) * 4096 + (b2 - 128) * 64 + (b3 - 128)) 4
                    else UBad 3
                | [] => UBad 3
                end
              else UBad 2
          | [] => UBad 2
          end
        else UBad 1
    | [] => UBad 1
    end
  else UBad 1.

(** bytes.decode() (strict: UnicodeDecodeError at the first invalid piece) and
    bytes.decode('utf-8', errors='ignore') (invalid pieces dropped).  [fuel] is the number of
    bytes. *)
Fixpoint utf8_strict (fuel : nat) (l : bytes) : res str :=
  match fuel, l with
  | _, [] => Ok []
  | O, _ :: _ => Ok []
  | S f, b :: r => match utf8_step b r with
                   | UChar c n => s <- utf8_strict f (skipn n l) ;; Ok (c :: s)
                   | UBad _ => Err UnicodeError
                   end
  end.
Fixpoint utf8_ignore (fuel : nat) (l : bytes) : str :=
  match fuel, l with
  | _, [] => []
  | O, _ :: _ => []
  | S f, b :: r => match utf8_step b r with
                   | UChar c n => c :: utf8_ignore f (skipn n l)
                   | UBad n => utf8_ignore f (skipn n l)
                   end
  end.
Definition decode_strict (l : bytes) : res str := utf8_strict (length l) l.
Definition decode_ignore (l : bytes) : str := utf8_ignore (length l) l.

(** str.encode(): UnicodeEncodeError for surrogates. *)
Definition utf8_char (c : Z) : res bytes :=
  if c <? 128 then Ok [c]
  else if c <? 2048 then Ok [192 + c / 64; 128 + c mod 64]
  else if c <? 65536 then
    if between 55296 57343 c then Err UnicodeError
    else Ok [224 + c / 4096; 128 + c / 64 mod 64; 128 + c mod 64]
  else Ok [240 + c / 262144; 128 + c / 4096 mod 64; 128 + c / 64 mod 64; 128 + c mod 64].
Fixpoint utf8_encode (s : str) : res bytes :=
  match s with
  | [] => Ok []
  | c :: r => a <- utf8_char c ;; b <- utf8_encode r ;; Ok (a ++ b)
  end.

(** ** Text clean-up *)

(** str.strip() over all Unicode white space *)
Definition uspace (c : Z) : bool :=
  is_space c || (c =? 133) || (c =? 160) || (c =? 5760) || between 8192 8202 c ||
  (c =? 8232) || (c =? 8233) || (c =? 8239) || (c =? 8287) || (c =? 12288).
Fixpoint ulstrip (s : str) : str :=
  match s with c :: r => if uspace c then ulstrip r else s | [] => [] end.
Definition ustrip (s : str) : str := rev (ulstrip (rev (ulstrip s))).

(** l.split(b'\x00')[0]: what precedes the first NUL byte, everything if there is none *)
Fixpoint before_nul (l : bytes) : bytes :=
  match l with [] => [] | b :: r => if b =? 0 then [] else b :: before_nul r end.

(** s.find('\x00'): -1 when absent *)
Fixpoint find_nul (s : str) : Z :=
  match s with
  | [] => -1
  | c :: r => if c =? 0 then 0 else let k := find_nul r in if k <? 0 then -1 else k + 1
  end.

(** decode/vgf.py:5287-5308 [_decode_strip_null] *)
Definition decode_strip_null (x : bytes) : str :=
  let decoded := decode_ignore x in
  ustrip (py_upto decoded (find_nul decoded)).

(** s.replace('$$', '\n'): from the left, without overlaps *)
Fixpoint replace_dollars (s : str) : str :=
  match s with
  | [] => []
  | c :: r =>
      if c =? 36 then
        match r with
        | [] => [c]
        | d :: t => if d =? 36 then 10 :: replace_dollars t else c :: replace_dollars r
        end
      else c :: replace_dollars r
  end.

(** decode/vgf.py:5311-5322 [_swap32]: OverflowError for negative numbers *)
Definition swap32 (x : Z) : res Z :=
  if x <? 0 then Err OverflowError else Ok (dec_uint BE (enc_uint LE 4 x)).
