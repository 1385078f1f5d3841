(** Base definitions: exceptions as values, Python list/bytes slicing, integer
    encodings.  Definitions only; lemmas are in BaseFacts.v. *)
From Coq Require Export List ZArith Bool.
Export ListNotations.
Open Scope Z_scope.

(** Python exceptions raised by the modelled code. *)
Inductive exn : Type :=
| ValueError | TypeError | KeyError | IndexError | AttributeError
| StructError | OverflowError | NotImplementedError | UnicodeError
| StopIteration | ZeroDivisionError
| UnboundLocal          (* UnboundLocalError / NameError *)
| OutOfFuel.            (* not a Python exception: the model's loop bound ran out *)

Inductive res (A : Type) : Type :=
| Ok (a : A)
| Err (e : exn).
Arguments Ok {A} a.
Arguments Err {A} e.

Definition bind {A B} (m : res A) (f : A -> res B) : res B :=
  match m with Ok a => f a | Err e => Err e end.

Declare Scope res_scope.
Delimit Scope res_scope with res.
Notation "x <- m ;; k" := (bind m (fun x => k))
  (at level 61, m at next level, right associativity) : res_scope.
Notation "'do' m ;; k" := (bind m (fun _ => k))
  (at level 61, m at next level, right associativity) : res_scope.
Notation "' p <- m ;; k" := (bind m (fun p => k))
  (at level 61, p pattern, m at next level, right associativity) : res_scope.
Open Scope res_scope.

Definition is_ok {A} (r : res A) : bool := match r with Ok _ => true | Err _ => false end.

(** [mapM f l]: a Python for-loop that appends f(x) and stops at the first exception. *)
Fixpoint mapM {A B} (f : A -> res B) (l : list A) : res (list B) :=
  match l with
  | [] => Ok []
  | x :: r => y <- f x ;; ys <- mapM f r ;; Ok (y :: ys)
  end.

(** [foldM f l s]: a Python for-loop updating a state. *)
Fixpoint foldM {A S} (f : S -> A -> res S) (l : list A) (s : S) : res S :=
  match l with
  | [] => Ok s
  | x :: r => s' <- f s x ;; foldM f r s'
  end.

Definition Zlen {A} (l : list A) : Z := Z.of_nat (length l).

(** Python's l[a:b] for a sequence (negative bounds count from the end, then clamp). *)
Definition py_bound (n i : Z) : Z := if i <? 0 then Z.max 0 (i + n) else Z.min i n.
Definition py_slice {A} (l : list A) (a b : Z) : list A :=
  let n := Zlen l in
  let a' := py_bound n a in
  let b' := py_bound n b in
  firstn (Z.to_nat (b' - a')) (skipn (Z.to_nat a') l).
(** Python's l[a:] and l[:b]. *)
Definition py_from {A} (l : list A) (a : Z) : list A := py_slice l a (Zlen l).
Definition py_upto {A} (l : list A) (b : Z) : list A := py_slice l 0 b.

(** Python's l[i] (IndexError outside, negative from the end). *)
Definition py_index {A} (l : list A) (i : Z) : res A :=
  let j := if i <? 0 then i + Zlen l else i in
  if j <? 0 then Err IndexError else
  match nth_error l (Z.to_nat j) with Some x => Ok x | None => Err IndexError end.

(** Bytes are integers 0..255 in lists. *)
Definition bytes := list Z.
Definition is_byte (b : Z) : bool := (0 <=? b) && (b <? 256).
Definition valid_bytes (l : bytes) : bool := forallb is_byte l.

Inductive endian := LE | BE.

(** Little-endian fixed-width encoding of v mod 256^n, and its inverse. *)
Fixpoint le_enc (n : nat) (v : Z) : bytes :=
  match n with O => [] | S k => v mod 256 :: le_enc k (v / 256) end.
Fixpoint le_dec (l : bytes) : Z :=
  match l with [] => 0 | b :: r => b + 256 * le_dec r end.

Definition enc_uint (e : endian) (n : nat) (v : Z) : bytes :=
  match e with LE => le_enc n v | BE => rev (le_enc n v) end.
Definition dec_uint (e : endian) (l : bytes) : Z :=
  match e with LE => le_dec l | BE => le_dec (rev l) end.

Definition two31 : Z := 2147483648.
Definition two32 : Z := 4294967296.

Definition to_signed32 (u : Z) : Z := if u <? two31 then u else u - two32.
Definition in_i32 (v : Z) : bool := (- two31 <=? v) && (v <? two31).

(** struct.pack('<i', v) / ('>i', v): struct.error outside the signed 32-bit range. *)
Definition pack_i32 (e : endian) (v : Z) : res bytes :=
  if in_i32 v then Ok (enc_uint e 4 (v mod two32)) else Err StructError.
Definition unpack_i32 (e : endian) (l : bytes) : Z := to_signed32 (dec_uint e l).

(** Byte at index i, reading 0 outside (only used in specifications and proofs). *)
Definition byte_at (l : bytes) (i : Z) : Z := if i <? 0 then 0 else nth (Z.to_nat i) l 0.
