(** File layout: [DataManagementFile._set_pointers].  Definitions only. *)
From Verif Require Import Base Words.

(** The quantities _set_pointers reads from the object: number of row/column keys, rows,
    columns, the 'length' of each file header and the number of parameters of each part. *)
Record shape := mk_shape {
  sh_row_keys : Z; sh_rows : Z; sh_column_keys : Z; sh_columns : Z;
  sh_fh_lengths : list Z;
  sh_part_nparms : list Z
}.

Record pointers := mk_pointers {
  row_keys_ptr : Z; column_keys_ptr : Z; file_keys_ptr : Z;
  row_headers_ptr : Z; column_headers_ptr : Z;
  parts_ptr : Z; data_block_ptr : Z; next_free_word : Z
}.

(** encode/gempak.py:272-273 *)
Definition data_mgmt_ptr : Z := 129.
Definition data_mgmt_length : Z := MBLKSZ.

(** The repeated pattern at encode/gempak.py:342-346, 354-360, 363-367, 370-374:
    the start of the next record unless [w] already starts one. *)
Definition record_start (w : Z) : Z :=
  let '(rec, word) := dmword w in
  if negb (word =? 1) then rec * MBLKSZ + 1 else w.

(** encode/gempak.py:323-374 [_set_pointers] *)
Definition set_pointers (s : shape) : pointers :=
  let row_keys_ptr := data_mgmt_ptr + data_mgmt_length in
  let column_keys_ptr := row_keys_ptr + sh_row_keys s in
  let file_keys_ptr := column_keys_ptr + sh_column_keys s in
  let lenfil := fold_left (fun a l => a + (l + 1)) (sh_fh_lengths s) 0 in
  let nfh := Zlen (sh_fh_lengths s) in
  let row_headers_ptr := record_start (file_keys_ptr + 3 * nfh + lenfil) in
  let column_headers_ptr := row_headers_ptr + sh_rows s * (sh_row_keys s + 1) in
  let nparts := Zlen (sh_part_nparms s) in
  let lenpart := fold_left Z.add (sh_part_nparms s) 0 in
  let parts_ptr := record_start (column_headers_ptr + sh_columns s * (sh_column_keys s + 1)) in
  let data_block_ptr := record_start (parts_ptr + 4 * nparts + 4 * lenpart) in
  let next_free_word := record_start (data_block_ptr + nparts * sh_rows s * sh_columns s) in
  mk_pointers row_keys_ptr column_keys_ptr file_keys_ptr row_headers_ptr column_headers_ptr
    parts_ptr data_block_ptr next_free_word.
