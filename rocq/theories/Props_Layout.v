(** C01, C02: word numbers and file layout. *)
From Coq Require Import Lia.
From Verif Require Import Base BaseFacts Words Layout LayoutFacts SpecLayout.

(** C01. Word -> byte position -> word is the identity, for all words. *)
Theorem C01_word_position_inverse : forall w, position_to_word (word_to_position w) = w.
Proof. exact word_position_inverse. Qed.
Print Assumptions C01_word_position_inverse.

(** C01. Word w occupies bytes 4(w-1) .. 4(w-1)+3, and position_to_word names the only word
    that contains a byte position. *)
Theorem C01_position_in_word : forall p w,
  position_to_word p = w <-> 4 * (w - 1) <= p < 4 * (w - 1) + 4.
Proof.
  intros p w. split.
  - intros <-. pose proof (position_in_word p) as H. unfold word_to_position in H. lia.
  - intros H. symmetry. apply position_word_unique. unfold word_to_position. lia.
Qed.
Print Assumptions C01_position_in_word.

Theorem C01_word_to_position_value : forall w, word_to_position w = 4 * (w - 1).
Proof. intros w. unfold word_to_position. lia. Qed.
Print Assumptions C01_word_to_position_value.

Lemma fold_add_sum l : fold_left Z.add l 0 = sum l.
Proof. induction l as [|x l IH]; cbn [fold_left sum]; [reflexivity|]. rewrite fold_add_acc. lia. Qed.
Lemma fold_add1_sum l : fold_left (fun a l => a + (l + 1)) l 0 = sum l + Zlen l.
Proof.
  induction l as [|x l IH]; cbn [fold_left sum]; [reflexivity|].
  rewrite fold_add1_acc, Zlen_cons. lia.
Qed.

(** The sections of a file, with the number of words each writer puts there: 31-word label,
    128-word data management record, keys, 3 words per file header (name, length, type) plus
    its length word and data, one used-flag word plus the keys per row/column header, 4 words
    per part and 4 per parameter, one pointer per (part, row, column). *)
Definition sections (s : shape) : list section :=
  let p := set_pointers s in
  let nparts := Zlen (sh_part_nparms s) in
  [ (1, 31); (129, 128);
    (row_keys_ptr p, sh_row_keys s);
    (column_keys_ptr p, sh_column_keys s);
    (file_keys_ptr p, 3 * Zlen (sh_fh_lengths s) + (sum (sh_fh_lengths s) + Zlen (sh_fh_lengths s)));
    (row_headers_ptr p, sh_rows s * (sh_row_keys s + 1));
    (column_headers_ptr p, sh_columns s * (sh_column_keys s + 1));
    (parts_ptr p, 4 * nparts + 4 * sum (sh_part_nparms s));
    (data_block_ptr p, nparts * sh_rows s * sh_columns s);
    (next_free_word p, 0) ].

Definition nonneg_shape (s : shape) : Prop :=
  0 <= sh_row_keys s /\ 0 <= sh_rows s /\ 0 <= sh_column_keys s /\ 0 <= sh_columns s /\
  Forall (fun x => 0 <= x) (sh_fh_lengths s) /\ Forall (fun x => 0 <= x) (sh_part_nparms s).

Lemma sections_disjoint s : nonneg_shape s -> disjoint_increasing (sections s).
Proof.
  intros (H1 & H2 & H3 & H4 & H5 & H6).
  unfold sections, set_pointers, disjoint_increasing.
  cbn [row_keys_ptr column_keys_ptr file_keys_ptr row_headers_ptr column_headers_ptr parts_ptr
       data_block_ptr next_free_word].
  rewrite fold_add_sum, fold_add1_sum.
  assert (S1 : 0 <= sum (sh_fh_lengths s)) by (rewrite <- fold_add_sum; apply fold_add_nonneg; assumption).
  assert (S2 : 0 <= sum (sh_part_nparms s)) by (rewrite <- fold_add_sum; apply fold_add_nonneg; assumption).
  unfold data_mgmt_ptr, data_mgmt_length, MBLKSZ.
  pose proof (Zlen_nonneg (sh_fh_lengths s)). pose proof (Zlen_nonneg (sh_part_nparms s)).
  set (nf := Zlen (sh_fh_lengths s)) in *. set (np := Zlen (sh_part_nparms s)) in *.
  set (sf := sum (sh_fh_lengths s)) in *. set (sp := sum (sh_part_nparms s)) in *.
  assert (R1 : 0 <= sh_rows s * (sh_row_keys s + 1)) by nia.
  assert (R2 : 0 <= sh_columns s * (sh_column_keys s + 1)) by nia.
  assert (R3 : 0 <= np * sh_rows s * sh_columns s) by (apply Z.mul_nonneg_nonneg; nia).
  pose proof (record_start_spec (129 + 128 + sh_row_keys s + sh_column_keys s + 3 * nf + (sf + nf))) as [A1 _].
  set (rh := record_start (129 + 128 + sh_row_keys s + sh_column_keys s + 3 * nf + (sf + nf))) in *.
  set (r1 := sh_rows s * (sh_row_keys s + 1)) in *.
  set (r2 := sh_columns s * (sh_column_keys s + 1)) in *.
  set (r3 := np * sh_rows s * sh_columns s) in *.
  pose proof (record_start_spec (rh + r1 + r2)) as [A2 _].
  set (pp := record_start (rh + r1 + r2)) in *.
  pose proof (record_start_spec (pp + 4 * np + 4 * sp)) as [A3 _].
  set (db := record_start (pp + 4 * np + 4 * sp)) in *.
  pose proof (record_start_spec (db + r3)) as [A4 _].
  set (nw := record_start (db + r3)) in *.
  clearbody nf np sf sp rh r1 r2 r3 pp db nw.
  split.
  - repeat (apply FOP_cons; [repeat (apply Forall_cons; [cbn [fst snd]; lia|]); apply Forall_nil|]).
    apply FOP_nil.
  - repeat (apply Forall_cons; [cbn [fst snd]; lia|]); apply Forall_nil.
Qed.

(** C02. Sections are pairwise disjoint and in increasing order, for every file shape. *)
Theorem C02_sections_disjoint : forall s, nonneg_shape s -> disjoint_increasing (sections s).
Proof. exact sections_disjoint. Qed.
Print Assumptions C02_sections_disjoint.

Lemma sections_aligned s : nonneg_shape s ->
  let p := set_pointers s in
  let np := Zlen (sh_part_nparms s) in
  let e1 := file_keys_ptr p + (3 * Zlen (sh_fh_lengths s) + (sum (sh_fh_lengths s) + Zlen (sh_fh_lengths s))) in
  let e2 := column_headers_ptr p + sh_columns s * (sh_column_keys s + 1) in
  let e3 := parts_ptr p + (4 * np + 4 * sum (sh_part_nparms s)) in
  let e4 := data_block_ptr p + np * sh_rows s * sh_columns s in
  Forall (fun x => starts_record (fst x) /\ snd x <= fst x < snd x + 128)
    [(row_headers_ptr p, e1); (parts_ptr p, e2); (data_block_ptr p, e3); (next_free_word p, e4)].
Proof.
  intros (H1 & H2 & H3 & H4 & H5 & H6).
  unfold set_pointers.
  cbn [row_keys_ptr column_keys_ptr file_keys_ptr row_headers_ptr column_headers_ptr parts_ptr
       data_block_ptr next_free_word].
  rewrite fold_add_sum, fold_add1_sum.
  assert (S1 : 0 <= sum (sh_fh_lengths s)) by (rewrite <- fold_add_sum; apply fold_add_nonneg; assumption).
  assert (S2 : 0 <= sum (sh_part_nparms s)) by (rewrite <- fold_add_sum; apply fold_add_nonneg; assumption).
  unfold data_mgmt_ptr, data_mgmt_length, MBLKSZ.
  pose proof (Zlen_nonneg (sh_fh_lengths s)). pose proof (Zlen_nonneg (sh_part_nparms s)).
  assert (G : forall w e, 1 <= w -> w = e ->
            starts_record (record_start w) /\ e <= record_start w < e + 128).
  { intros w e Hw ->. pose proof (record_start_spec e) as [Hr Hm]. split; [|lia].
    exists (record_start e / 128). split; [apply Z.div_pos; lia|].
    pose proof (Z_div_mod_eq_full (record_start e) 128). lia. }
  set (nf := Zlen (sh_fh_lengths s)) in *. set (np := Zlen (sh_part_nparms s)) in *.
  set (sf := sum (sh_fh_lengths s)) in *. set (sp := sum (sh_part_nparms s)) in *.
  assert (R1 : 0 <= sh_rows s * (sh_row_keys s + 1)) by nia.
  assert (R2 : 0 <= sh_columns s * (sh_column_keys s + 1)) by nia.
  assert (R3 : 0 <= np * sh_rows s * sh_columns s) by (apply Z.mul_nonneg_nonneg; nia).
  set (r1 := sh_rows s * (sh_row_keys s + 1)) in *.
  set (r2 := sh_columns s * (sh_column_keys s + 1)) in *.
  set (r3 := np * sh_rows s * sh_columns s) in *.
  clearbody nf np sf sp r1 r2 r3.
  destruct (G (129 + 128 + sh_row_keys s + sh_column_keys s + 3 * nf + (sf + nf))
              (129 + 128 + sh_row_keys s + sh_column_keys s + (3 * nf + (sf + nf)))) as [A1 B1]; try lia.
  set (rh := record_start (129 + 128 + sh_row_keys s + sh_column_keys s + 3 * nf + (sf + nf))) in *.
  clearbody rh.
  destruct (G (rh + r1 + r2) (rh + r1 + r2)) as [A2 B2]; try lia.
  set (pp := record_start (rh + r1 + r2)) in *. clearbody pp.
  destruct (G (pp + 4 * np + 4 * sp) (pp + (4 * np + 4 * sp))) as [A3 B3]; try lia.
  set (db := record_start (pp + 4 * np + 4 * sp)) in *. clearbody db.
  destruct (G (db + r3) (db + r3)) as [A4 B4]; try lia.
  repeat (apply Forall_cons; [cbn [fst snd]; split; assumption|]). apply Forall_nil.
Qed.

(** C02. Row headers, parts, pointer table and free space start a record, with less than one
    record of padding after the end of the previous section. *)
Theorem C02_sections_aligned : forall s, nonneg_shape s ->
  let p := set_pointers s in
  let np := Zlen (sh_part_nparms s) in
  let e1 := file_keys_ptr p + (3 * Zlen (sh_fh_lengths s) + (sum (sh_fh_lengths s) + Zlen (sh_fh_lengths s))) in
  let e2 := column_headers_ptr p + sh_columns s * (sh_column_keys s + 1) in
  let e3 := parts_ptr p + (4 * np + 4 * sum (sh_part_nparms s)) in
  let e4 := data_block_ptr p + np * sh_rows s * sh_columns s in
  Forall (fun x => starts_record (fst x) /\ snd x <= fst x < snd x + 128)
    [(row_headers_ptr p, e1); (parts_ptr p, e2); (data_block_ptr p, e3); (next_free_word p, e4)].
Proof. exact sections_aligned. Qed.
Print Assumptions C02_sections_aligned.

(** A grid file with 1 row, 2 columns, 2 file headers and one part meets the hypothesis. *)
Example C02_example : nonneg_shape (mk_shape 2 1 8 2 [256; 128] [1]).
Proof. repeat split; cbn; try lia; repeat constructor; lia. Qed.
Example C02_example_value :
  sections (mk_shape 2 1 8 2 [256; 128] [1]) =
  [(1,31);(129,128);(257,2);(259,8);(267,392);(769,3);(772,18);(897,8);(1025,2);(1153,0)].
Proof. reflexivity. Qed.
