(** Python's [struct] module as used by the code: fixed layouts of 4-byte integers, 4-byte
    floats, byte strings and padding, without alignment (prefix '<' or '>'; native '@' is
    only used by the code for layouts made of 4-byte items, where it adds no padding on a
    little-endian host).  Definitions only. *)
From Verif Require Import Base Floats.

(** Values that travel through structs, and what converters return. *)
Inductive pyval :=
| VInt (z : Z)              (* int, or IntEnum member *)
| VFloat (f : flt)
| VBytes (b : bytes)
| VText (s : list Z)        (* str: code points *)
| VNone.

(** One format item: i, f, B, b, <n>s, <n>x *)
Inductive fmtc :=
| FInt | FFloat | FUByte | FSByte | FStr (n : nat) | FPad (n : nat).

Definition fmtc_size (c : fmtc) : nat :=
  match c with FInt | FFloat => 4 | FUByte | FSByte => 1 | FStr n | FPad n => n end%nat.
(** struct.calcsize *)
Fixpoint calcsize (fmt : list fmtc) : nat :=
  match fmt with [] => 0 | c :: r => fmtc_size c + calcsize r end%nat.

(** 'Ns': truncated to N bytes or padded with NUL bytes. *)
Definition fit (n : nat) (b : bytes) : bytes := firstn n b ++ repeat 0 (n - length b).

(** struct.pack for one value-consuming item.  An int is accepted for 'f'. *)
Definition pack_item (e : endian) (c : fmtc) (v : pyval) : res bytes :=
  match c, v with
  | FInt, VInt z => pack_i32 e z
  | FFloat, VFloat f => pack_f32 e f
  | FFloat, VInt z => pack_f32 e (of_Z z)
  | FUByte, VInt z => if (0 <=? z) && (z <? 256) then Ok [z] else Err StructError
  | FSByte, VInt z => if (-128 <=? z) && (z <? 128) then Ok [z mod 256] else Err StructError
  | FStr n, VBytes b => Ok (fit n b)
  | _, _ => Err StructError
  end.

(** struct.pack(fmt, *vals) *)
Fixpoint struct_pack (e : endian) (fmt : list fmtc) (vals : list pyval) : res bytes :=
  match fmt with
  | [] => match vals with [] => Ok [] | _ => Err StructError end
  | FPad n :: r => b <- struct_pack e r vals ;; Ok (repeat 0 n ++ b)
  | c :: r => match vals with
              | [] => Err StructError
              | v :: vs => a <- pack_item e c v ;; b <- struct_pack e r vs ;; Ok (a ++ b)
              end
  end.

(** Decoding of one value-consuming item from exactly its bytes. *)
Definition unpack_item (e : endian) (c : fmtc) (l : bytes) : pyval :=
  match c with
  | FInt => VInt (unpack_i32 e l)
  | FFloat => VFloat (unpack_f32 e l)
  | FUByte => VInt (nth 0 l 0)
  | FSByte => VInt (let b := nth 0 l 0 in if b <? 128 then b else b - 256)
  | FStr _ => VBytes l
  | FPad _ => VNone
  end.

(** struct.unpack(fmt, buffer): the values (padding yields none). *)
Fixpoint unpack_vals (e : endian) (fmt : list fmtc) (l : bytes) : list pyval :=
  match fmt with
  | [] => []
  | FPad n :: r => unpack_vals e r (skipn n l)
  | c :: r => unpack_item e c (firstn (fmtc_size c) l) :: unpack_vals e r (skipn (fmtc_size c) l)
  end.
Definition struct_unpack (e : endian) (fmt : list fmtc) (l : bytes) : res (list pyval) :=
  if Nat.eqb (length l) (calcsize fmt) then Ok (unpack_vals e fmt l) else Err StructError.

(** struct.unpack_from(fmt, buffer, offset): a negative offset counts from the end;
    struct.error unless the item fits in the buffer. *)
Definition struct_unpack_from (e : endian) (fmt : list fmtc) (l : bytes) (off : Z)
  : res (list pyval) :=
  let sz := Z.of_nat (calcsize fmt) in
  let n := Zlen l in
  if off <? 0 then
    if 0 <? off + sz then Err StructError
    else if off + n <? 0 then Err StructError
    else Ok (unpack_vals e fmt (skipn (Z.to_nat (off + n)) l))
  else if n - off <? sz then Err StructError
  else Ok (unpack_vals e fmt (skipn (Z.to_nat off) l)).
