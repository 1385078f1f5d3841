(** Python strings used by the code, restricted to ASCII: lists of code points 0..127.
    Non-ASCII text is outside the model (str.upper and UTF-8 encoding differ there); where
    text is encoded to bytes a non-ASCII code point gives [Err UnicodeError], meaning "not
    modelled".  Definitions only. *)
From Verif Require Import Base.

Definition str := list Z.

Definition is_ascii (s : str) : bool := forallb (fun c => (0 <=? c) && (c <? 128)) s.

Fixpoint str_eqb (a b : str) : bool :=
  match a, b with
  | [], [] => true
  | x :: r, y :: t => (x =? y) && str_eqb r t
  | _, _ => false
  end.

(** str < str: lexicographic by code point. *)
Fixpoint str_cmp (a b : str) : comparison :=
  match a, b with
  | [], [] => Eq
  | [], _ => Lt
  | _, [] => Gt
  | x :: r, y :: t => match x ?= y with Eq => str_cmp r t | c => c end
  end.

(** str.upper / str.lower *)
Definition upper_c (c : Z) : Z := if (97 <=? c) && (c <=? 122) then c - 32 else c.
Definition lower_c (c : Z) : Z := if (65 <=? c) && (c <=? 90) then c + 32 else c.
Definition upper (s : str) : str := map upper_c s.
Definition lower (s : str) : str := map lower_c s.

(** Python's ASCII whitespace for str.strip(): 9..13, 28..31, 32. *)
Definition is_space (c : Z) : bool :=
  ((9 <=? c) && (c <=? 13)) || ((28 <=? c) && (c <=? 32)).
Fixpoint lstrip (s : str) : str :=
  match s with c :: r => if is_space c then lstrip r else s | [] => [] end.
Definition rstrip (s : str) : str := rev (lstrip (rev s)).
Definition strip (s : str) : str := rstrip (lstrip s).

(** f'{s:<4s}' etc.: padded on the right with spaces to at least n characters. *)
Definition ljust (n : nat) (s : str) : str := s ++ repeat 32 (n - length s).

(** bytes(s, 'utf-8') for ASCII *)
Definition str_bytes (s : str) : res bytes := if is_ascii s then Ok s else Err UnicodeError.
(** bytes.decode() (UTF-8) for ASCII *)
Definition bytes_str (b : bytes) : res str := if is_ascii b then Ok b else Err UnicodeError.

(** Decimal digits of n >= 0, most significant first; [fuel] bounds the number of digits. *)
Fixpoint dec_digits (fuel : nat) (n : Z) (acc : str) : str :=
  match fuel with
  | O => acc
  | S f => let acc' := (48 + n mod 10) :: acc in
           if n <? 10 then acc' else dec_digits f (n / 10) acc'
  end.
(** str(n) for n >= 0 *)
Definition dec (n : Z) : str := dec_digits (Z.to_nat (Z.log2 n + 2)) n [].
(** f'{z:0wd}' *)
Definition fmt_d (w : nat) (z : Z) : str :=
  let ds := dec (Z.abs z) in
  if z <? 0 then 45 :: repeat 48 (w - S (length ds)) ++ ds
  else repeat 48 (w - length ds) ++ ds.

Definition is_digit (c : Z) : bool := (48 <=? c) && (c <=? 57).

(** int(s) for str s: surrounding whitespace, one sign, digits with single underscores
    between them; ValueError otherwise. *)
Fixpoint int_digits (s : str) (acc : Z) (after_digit : bool) : res Z :=
  match s with
  | [] => if after_digit then Ok acc else Err ValueError
  | c :: r => if is_digit c then int_digits r (10 * acc + (c - 48)) true
              else if (c =? 95) && after_digit then int_digits r acc false
              else Err ValueError
  end.
Definition py_int (s : str) : res Z :=
  match strip s with
  | c :: r => if c =? 45 then v <- int_digits r 0 false ;; Ok (- v)
              else if c =? 43 then int_digits r 0 false
              else int_digits (c :: r) 0 false
  | [] => Err ValueError
  end.

(** re.split('([letters])', s) with a single-character class: the pieces between the
    letters, and the letters. *)
Fixpoint split_on (p : Z -> bool) (s : str) : list str * list Z :=
  match s with
  | [] => ([[]], [])
  | c :: r =>
      let '(pieces, seps) := split_on p r in
      if p c then ([] :: pieces, c :: seps)
      else match pieces with
           | h :: t => ((c :: h) :: t, seps)
           | [] => ([[c]], seps)   (* unreachable: pieces is never empty *)
           end
  end.
