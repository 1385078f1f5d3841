(** IEEE floats as the code uses them: Python floats / numpy float64 are binary64,
    GEMPAK words and numpy float32 are binary32.  Values are [spec_float] from the
    standard library (one NaN).  Definitions only. *)
From Coq Require Export Floats.SpecFloat.
From Verif Require Import Base.

Definition flt := spec_float.

(** binary64 and binary32 parameters *)
Definition p64 : Z := 53.   Definition e64 : Z := 1024.
Definition p32 : Z := 24.   Definition e32 : Z := 128.

Definition valid64 (x : flt) : bool := valid_binary p64 e64 x.
Definition valid32 (x : flt) : bool := valid_binary p32 e32 x.

(** Bit pattern of a binary32 value (NaN is the quiet NaN 0x7fc00000) and its inverse. *)
Definition f32_bits (x : flt) : Z :=
  let sg (s : bool) := if s then two31 else 0 in
  match x with
  | S754_zero s => sg s
  | S754_infinity s => sg s + 2139095040            (* 0x7f800000 *)
  | S754_nan => 2143289344                          (* 0x7fc00000 *)
  | S754_finite s m e =>
      if Z.pos m <? 8388608 then sg s + Z.pos m       (* subnormal: exponent field 0 *)
      else sg s + (e + 150) * 8388608 + (Z.pos m - 8388608)
  end.

Definition f32_of_bits (b : Z) : flt :=
  let s := two31 <=? b in
  let ex := (b / 8388608) mod 256 in
  let fr := b mod 8388608 in
  if ex =? 255 then (if fr =? 0 then S754_infinity s else S754_nan)
  else if ex =? 0 then
    match fr with Z.pos m => S754_finite s m (-149) | _ => S754_zero s end
  else match fr + 8388608 with
       | Z.pos m => S754_finite s m (ex - 150)
       | _ => S754_nan
       end.

(** C's (float)x as used by struct.pack('f', x): round to nearest even; OverflowError if
    a finite value becomes infinite (CPython PyFloat_Pack4). *)
Definition to32 (x : flt) : res flt :=
  match x with
  | S754_finite s m e =>
      match binary_round p32 e32 s m e with
      | S754_infinity _ => Err OverflowError
      | r => Ok r
      end
  | _ => Ok x
  end.

(** numpy's astype(float32): same rounding, overflow gives infinity. *)
Definition np32 (x : flt) : flt :=
  match x with
  | S754_finite s m e => binary_round p32 e32 s m e
  | _ => x
  end.

(** struct.pack(order + 'f', x) and struct.unpack *)
Definition pack_f32 (e : endian) (x : flt) : res bytes :=
  y <- to32 x ;; Ok (enc_uint e 4 (f32_bits y)).
Definition unpack_f32 (e : endian) (l : bytes) : flt := f32_of_bits (dec_uint e l).

(** Python float arithmetic (binary64). *)
Definition fadd := SFadd p64 e64.
Definition fsub := SFsub p64 e64.
Definition fmul := SFmul p64 e64.
Definition fdiv := SFdiv p64 e64.
(** float(n) for a Python int n (correctly rounded). *)
Definition of_Z (n : Z) : flt := binary_normalize p64 e64 n 0 false.

Definition fnan (x : flt) : bool := match x with S754_nan => true | _ => false end.

(** int(x) for a Python float: truncation toward zero; ValueError for NaN,
    OverflowError for infinities. *)
Definition trunc_mag (m : positive) (e : Z) : Z :=
  if e <? 0 then Z.pos m / 2 ^ (- e) else Z.pos m * 2 ^ e.
Definition int_of_float (x : flt) : res Z :=
  match x with
  | S754_zero _ => Ok 0
  | S754_nan => Err ValueError
  | S754_infinity _ => Err OverflowError
  | S754_finite s m e => let t := trunc_mag m e in Ok (if s then - t else t)
  end.

(** MISSING_FLOAT = -9999.0 and MISSING_INT = -9999 (common.py:45-46). *)
Definition missing_float : flt := of_Z (-9999).
Definition missing_int : Z := -9999.
