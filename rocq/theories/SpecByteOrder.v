(** C09: a GEMPAK file as a sequence of 32-bit words, each a number or four characters of text, and its two byte orders.
    The places of the sections are taken from the words of the file itself.  Definitions only. *)
From Coq Require Import ZArith List.
From Verif Require Import Base.
Import ListNotations.
Open Scope Z_scope.

Inductive word := Num (z : Z) | Txt (b : bytes).
Definition sound_word (w : word) : Prop := match w with Num z => 0 <= z < 4294967296 | Txt b => length b = 4%nat /\ Forall (fun c => 0 <= c < 256) b end.
(** A number has its lowest byte first or last; text is the same in both orders. *)
Definition stored (e : endian) (w : word) : bytes :=
  match w with
  | Num z =>
      let b0 := z mod 256 in let b1 := z / 256 mod 256 in let b2 := z / 65536 mod 256 in let b3 := z / 16777216 mod 256 in
      match e with LE => [b0; b1; b2; b3] | BE => [b3; b2; b1; b0] end
  | Txt b => b
  end.
Definition image (e : endian) (F : list word) : bytes := concat (map (stored e) F).

(** Words are counted from 1. *)
Definition at_word (F : list word) (i : Z) : option word := if i <? 1 then None else nth_error F (Z.to_nat (i - 1)).
Definition unsigned (F : list word) (i : Z) : Z := match at_word F i with Some (Num z) => z | _ => 0 end.
Definition signed (F : list word) (i : Z) : Z := let z := unsigned F i in if z <? 2147483648 then z else z - 4294967296.
(** From word i on, n words none of which is text (or none a number); words behind the end of the file do not matter. *)
Definition numbers (F : list word) (i n : Z) : Prop := 1 <= i /\ forall j b, i <= j < i + n -> at_word F j <> Some (Txt b).
Definition texts (F : list word) (i n : Z) : Prop := 1 <= i /\ forall j z, i <= j < i + n -> at_word F j <> Some (Num z).

(** The label: text in words 1 to 7, then numbers; the version is 1. *)
Section Label.
Variable F : list word.
Definition n_file_headers := signed F 9.  Definition file_keys := signed F 10.
Definition n_rows := signed F 11.         Definition n_row_keys := signed F 12.
Definition row_keys := signed F 13.       Definition row_headers := signed F 14.
Definition n_columns := signed F 15.      Definition n_column_keys := signed F 16.
Definition column_keys := signed F 17.    Definition column_headers := signed F 18.
Definition n_parts := signed F 19.        Definition parts := signed F 20.
Definition management := signed F 21.     Definition pointers := signed F 23.
(** The table of parts: names, lengths of the data header, data types, numbers of parameters *)
Definition part_header (i : Z) : Z := signed F (parts + n_parts + i).
Definition part_type (i : Z) : Z := signed F (parts + 2 * n_parts + i).
Definition part_count (i : Z) : Z := signed F (parts + 3 * n_parts + i).
Definition all_parameters : Z := fold_right Z.add 0 (map (fun i => Z.max 0 (part_count (Z.of_nat i))) (seq 0 (Z.to_nat n_parts))).

(** Navigation: key names, lengths and types; a block of 256 words whose second word is text; a block of analysis numbers *)
Definition navigation : Prop :=
  let w := file_keys + 3 * n_file_headers in
  texts F file_keys n_file_headers /\ numbers F (file_keys + n_file_headers) (2 * n_file_headers) /\
  numbers F w 2 /\ texts F (w + 2) 1 /\ numbers F (w + 3) 11 /\ numbers F (w + 257) 20.
Definition base_file : Prop :=
  texts F 1 7 /\ numbers F 8 24 /\ at_word F 8 = Some (Num 1) /\
  (0 < n_file_headers -> navigation) /\
  numbers F management 32 /\
  texts F row_keys n_row_keys /\ texts F column_keys n_column_keys /\
  texts F parts n_parts /\ numbers F (parts + n_parts) (3 * n_parts) /\
  texts F (parts + 4 * n_parts) all_parameters /\ numbers F (parts + 4 * n_parts + all_parameters) (3 * all_parameters).

(** The words of one header, from word i on: [texty] are the names of the keys whose word is text. *)
Definition header (texty : list bytes) (keys n i : Z) : Prop :=
  forall j b, 0 <= j < n -> at_word F (keys + j) = Some (Txt b) ->
    (In b texty -> texts F (i + j) 1) /\ (~ In b texty -> numbers F (i + j) 1).
(** A block of header slots from word i on, each a flag and one word for each of n keys: a slot in use begins with the number 9999,
    and in a slot not in use nothing has its bytes. *)
Definition no_flag (w : option word) : Prop :=
  match w with Some (Num z) => z <> 9999 | Some (Txt b) => b <> [15; 39; 0; 0] /\ b <> [0; 0; 39; 15] | None => True end.
Definition headers (holds : Z -> Prop) (slots n i : Z) : Prop :=
  1 <= i /\
  forall s, 0 <= s < slots -> let w := i + s * (Z.max 0 n + 1) in
    (at_word F w = Some (Num 9999) /\ holds (w + 1)) \/ (forall j, 0 <= j <= Z.max 0 n -> no_flag (at_word F (w + j))).

(** ** Sounding and surface files *)
Definition station_texts : list bytes := [[83;84;73;68]; [83;84;65;84]; [67;79;85;78]; [83;84;68;50]].   (* STID STAT COUN STD2 *)
(** The pointer of a part of a report, and its block: length, header, and numbers or (type 3) text *)
Definition pointer (row column part : Z) : Z := unsigned F (pointers + row * n_columns * n_parts + column * n_parts + part).
Definition block (part p : Z) : Prop :=
  let h := part_header part in
  numbers F p 1 /\ 0 <= h /\
  if part_type part =? 3 then texts F (p + 1 + h) (unsigned F p - h) else numbers F (p + 1 + h) (unsigned F p - h).
Definition station_file (row_texts : list bytes) : Prop :=
  base_file /\
  headers (header row_texts row_keys n_row_keys) n_rows n_row_keys row_headers /\
  headers (header station_texts column_keys n_column_keys) n_columns n_column_keys column_headers /\
  (forall r c p, 0 <= r < n_rows -> 0 <= c < n_columns -> 0 <= p < n_parts ->
     numbers F (pointers + r * n_columns * n_parts + c * n_parts + p) 1 /\
     (pointer r c p <> 0 -> block p (pointer r c p))).

(** ** Grid files *)
Definition grid_texts : list bytes := [[71;80;77;49]; [71;80;77;50]; [71;80;77;51]].   (* GPM1 GPM2 GPM3 *)
Definition coordinate_key : bytes := [71;86;67;68].   (* GVCD *)
(** The word of the vertical coordinate: a number up to 8, or the name of the coordinate as text of ASCII characters *)
Definition coordinate (w : option word) : Prop :=
  match w with
  | Some (Num z) => z <= 8 \/ 2147483648 <= z
  | Some (Txt b) => Forall (fun c => 0 < c < 128) b
  | None => True
  end.
Definition grid_header (i : Z) : Prop :=
  forall j b, 0 <= j < n_column_keys -> at_word F (column_keys + j) = Some (Txt b) ->
    (In b grid_texts -> texts F (i + j) 1) /\ (b = coordinate_key -> coordinate (at_word F (i + j))) /\
    (~ In b grid_texts -> b <> coordinate_key -> numbers F (i + j) 1).
(** A grid: length, header, then numbers *)
Definition grid_block (part p : Z) : Prop :=
  let h := part_header part in numbers F p 1 /\ 0 <= h /\ numbers F (p + 1 + h) (Z.max 9 (unsigned F p - h)).
Definition grid_file : Prop :=
  base_file /\
  headers (header [] row_keys n_row_keys) n_rows n_row_keys row_headers /\
  headers grid_header n_columns n_column_keys column_headers /\
  (forall c p, 0 <= c < n_columns -> 0 <= p < n_parts ->
     numbers F (pointers + c * n_parts + p) 1 /\
     if pointer 0 c p =? 0 then 0 <= part_header p < 8 else grid_block p (pointer 0 c p)).
End Label.
