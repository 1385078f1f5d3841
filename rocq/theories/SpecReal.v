(** Independent specification of the packed-real and difference-packed formats. *)
From Coq Require Import QArith.
From Verif Require Import Base.
Open Scope Z_scope.

(** A record of 32-bit words as one number, first word least significant. *)
Definition lsb_number (ws : list Z) : Z := fold_right (fun w a => w mod 2 ^ 32 + 2 ^ 32 * a) 0 ws.

(** [bits] bits of [n] starting at bit [start] (bit 0 is the least significant). *)
Definition bit_field (n start bits : Z) : Z := (n / 2 ^ start) mod 2 ^ bits.

(** Consecutive fields (bits, value), first field least significant, as one number. *)
Definition fields_number (l : list (Z * Z)) : Z := fold_right (fun bv a => snd bv + 2 ^ fst bv * a) 0 l.

Definition total (l : list Z) : Z := fold_right Z.add 0 l.

(** Meaning of a field: all ones is missing, otherwise (field + offset) * 10^scale. *)
Definition field_value (bits offset scale f : Z) : option Q :=
  if f =? 2 ^ bits - 1 then None
  else Some (inject_Z (f + offset) * Qpower (10 # 1) scale)%Q.

(** Value differences: the last present value of a list of cells, and the first one. *)
Fixpoint first_present (l : list (option Q)) : option Q :=
  match l with [] => None | Some v :: _ => Some v | None :: r => first_present r end.
Definition last_present (l : list (option Q)) : option Q := first_present (rev l).
(** the first present value of the nearest row (going backwards) that has one *)
Definition last_row_start (rows : list (list (option Q))) : option Q :=
  last_present (map first_present rows).
