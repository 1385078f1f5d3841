(** Word/position conversion and record arithmetic.  Definitions only. *)
From Verif Require Import Base.

(** common.py:44 *)
Definition MBLKSZ : Z := 128.

(** common.py:126-128 [_position_to_word] (bytes_per_word = 4). *)
Definition position_to_word (position : Z) : Z := (position + 4) / 4.

(** common.py:131-133 [_word_to_position]. *)
Definition word_to_position (word : Z) : Z := word * 4 - 4.

(** encode/gempak.py:293-304 [_dmword]: (record, start word within record). *)
Definition dmword (word : Z) : Z * Z :=
  let record := (word - 1) / MBLKSZ + 1 in
  let start := word - (record - 1) * MBLKSZ in
  (record, start).
