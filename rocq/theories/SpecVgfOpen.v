(** Which vector graphics records can be read.

    SpecVgfFields.v gives the layout of a record: where each attribute is stored.  Here: what the
    bytes at those places have to be for the record to be read at all. *)
From Verif Require Import Base Floats Strings Order VgfBase VgfRead SpecVgf SpecVgfLoop SpecVgfFields.
From Coq Require Import List.
Import ListNotations.
Open Scope string_scope.
Open Scope list_scope.
Open Scope Z_scope.

(** Well-formed UTF-8 (RFC 3629, section 4) *)
Definition trailing (b : Z) : Prop := 128 <= b <= 191.
Inductive utf8 : bytes -> Prop :=
| utf8_end : utf8 []
| utf8_one a l : 0 <= a <= 127 -> utf8 l -> utf8 (a :: l)
| utf8_two a b l : 194 <= a <= 223 -> trailing b -> utf8 l -> utf8 (a :: b :: l)
| utf8_three a b c l :
    (a = 224 /\ 160 <= b <= 191 \/ 225 <= a <= 236 /\ trailing b \/ a = 237 /\ 128 <= b <= 159 \/ 238 <= a <= 239 /\ trailing b) ->
    trailing c -> utf8 l -> utf8 (a :: b :: c :: l)
| utf8_four a b c e l :
    (a = 240 /\ 144 <= b <= 191 \/ 241 <= a <= 243 /\ trailing b \/ a = 244 /\ 128 <= b <= 143) ->
    trailing c -> trailing e -> utf8 l -> utf8 (a :: b :: c :: e :: l).

(** What is stored at a place has a value: whole numbers are made of finite floats; texts that are
    not fields are UTF-8 up to their NUL; the three little-endian numbers of convective forecasts
    are only read when their first byte is below 128. *)
Definition legible (d : bytes) (p : nat) (pl : place) : Prop :=
  match pl with
  | Whole o => finite (f32_at d (at_byte p o)) = true
  | NatLE o => nth (at_byte p o) d 0 < 128
  | Text o n | Clean o n => utf8 (before_nul (bytes_at d p o n))
  | _ => True
  end.

(** The numbers of points and the codes that have a meaning *)
Definition meaningful (d : bytes) (p : nat) : Prop :=
  let c := class_at d p in let t := type_at d p in
  (* fronts: points and front code *)
  (c = 1 -> int_at d p 40 <= 500 /\ 0 <= int_at d p 44) /\
  (* lines and circles: points and line type *)
  (c = 3 /\ t = 1 \/ c = 12 -> int_at d p 40 <= 500 /\ 0 <= int_at d p 44) /\
  (* special lines: points and line type *)
  (c = 3 /\ t = 20 -> int_at d p 40 <= 500 /\ 1 <= int_at d p 44 <= 26) /\
  (* lists: list type and marker *)
  (c = 14 -> 1 <= int_at d p 40 <= 5 /\ 0 <= int_at d p 44 <= 24) /\
  (* graphical forecast areas: points *)
  (c = 15 /\ t = 38 -> int_at d p 44 <= 500) /\
  (* watch boxes with a marker *)
  (c = 2 /\ version_at d p = 6 -> 0 <= int_at d p 52 <= 24).

(** The record at byte [p], laid out as [L] *)
Definition sound (d : bytes) (p : nat) (L : layout) : Prop :=
  Forall (fun f => legible d p (snd f)) (l_fields L) /\
  Forall (fun s => Forall (fun f => legible d (at_byte p (snd (fst s))) (snd f)) (snd s)) (l_subs L) /\
  meaningful d p.
