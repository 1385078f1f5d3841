(** Independent specification of the GRIB packing: what the packed words mean. *)
From Coq Require Import QArith.
From Verif Require Import Base.
Open Scope Z_scope.

(** The number whose b-bit digits are [l], most significant digit first: the packed bit
    string read as one big-endian integer. *)
Definition concat_bits (b : Z) (l : list Z) : Z := fold_left (fun a v => a * 2 ^ b + v) l 0.

(** [v] is an unsigned [b]-bit number *)
Definition fits (b : Z) (v : Z) : Prop := 0 <= v < 2 ^ b.

(** Number of 32-bit words needed for [bits] bits. *)
Definition words_for (bits : Z) : Z := - ((- bits) / 32).

(** [m] is (equal to) the least cell of [grid] *)
Definition is_minimum (m : Q) (grid : list Q) : Prop :=
  (exists x, In x grid /\ x == m)%Q /\ (forall x, In x grid -> m <= x)%Q.
Definition is_maximum (m : Q) (grid : list Q) : Prop :=
  (exists x, In x grid /\ x == m)%Q /\ (forall x, In x grid -> x <= m)%Q.

(** 2 to the power k, as a rational *)
Definition two_to (k : Z) : Q := Qpower (2 # 1) k.

(** nearest integer, ties to even: the unique integer at distance below one half, or the even
    one of the two at distance one half *)
Definition is_nearest_even (q : Q) (z : Z) : Prop :=
  (inject_Z z - (1#2) <= q <= inject_Z z + (1#2))%Q /\
  ((inject_Z z - (1#2) == q \/ q == inject_Z z + (1#2))%Q -> Z.even z = true).
