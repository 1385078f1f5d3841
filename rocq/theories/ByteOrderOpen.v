(** Opening either image of a file (C09). *)
From Coq Require Import ZArith List Lia ZifyBool ZifyNat.
From Verif Require Import Base BaseFacts Words Floats Structs StructsFacts Strings Headers DmFile SpecByteOrder ByteOrderFacts.
Import ListNotations.
Open Scope Z_scope.
Ltac Zify.zify_post_hook ::= Z.to_euclidean_division_equations.

Lemma Forall2_nth {A B} (R : A -> B -> Prop) l l' j y : Forall2 R l l' -> nth_error l' j = Some y -> exists x, nth_error l j = Some x /\ R x y.
Proof. intros H. revert j. induction H as [|a b l l' HR H IH]; intros [|j] E; try discriminate; [injection E as <-; exists a; split; [reflexivity|exact HR]|exact (IH j E)]. Qed.

Section Open.
Variable F : list word.
Hypothesis S : Forall sound_word F.

Lemma struct_same e fmt p : 0 <= p -> fits F p fmt -> rd_struct e fmt (image e F) p = rd_struct LE fmt (image LE F) p.
Proof. intros P H. rewrite !rd_view by auto. reflexivity. Qed.
Lemma struct_ok fmt p vs : 0 <= p -> fits F p fmt -> rd_struct LE fmt (image LE F) p = Ok vs -> vs = view F p fmt /\ p + Z.of_nat (calcsize fmt) <= 4 * Zlen F.
Proof. intros P H. rewrite rd_view by auto. destruct (Z.ltb_spec (4 * Zlen F - p) (Z.of_nat (calcsize fmt))); [discriminate|]. intros [= <-]. split; [reflexivity|lia]. Qed.
Lemma uint_same e w : numbers F w 1 -> rd_uint e (image e F) (word_to_position w) = rd_uint LE (image LE F) (word_to_position w).
Proof. intros N. rewrite !uint_view by auto. reflexivity. Qed.

(** ** Header and label *)
Lemma check_same e : texts F 1 7 -> check_header (image e F) = check_header (image LE F).
Proof.
  intros T. unfold check_header. replace (rd_struct LE [FStr 28] (image e F) 0) with (rd_struct e [FStr 28] (image e F) 0) by (destruct e; reflexivity).
  rewrite struct_same; [reflexivity|lia|]. split; [|exact I]. exact (text_words F 1 7 T).
Qed.
Lemma swap_image e : at_word F 8 = Some (Num 1) -> swap_check (image e F) = e.
Proof.
  intros E. unfold swap_check. assert (N : nth_error F 7 = Some (Num 1)) by exact E. pose proof (nth_error_Some F 7) as L. rewrite N in L. assert (L7 : (7 < length F)%nat) by (apply L; discriminate).
  rewrite py_slice_in by (rewrite ?image_Zlen by auto; unfold Zlen; lia).
  change (Z.to_nat (32 - 28)) with 4%nat. change (Z.to_nat 28) with (4 * 7)%nat. rewrite (image_word e F S 7 _ N). destruct e; reflexivity.
Qed.
Lemma label_fits : numbers F 8 24 -> fits F 28 rlabel_fmt.
Proof.
  intros N. unfold rlabel_fmt. apply fits_app; [apply (fits_num F 8 FInt 20 (or_introl eq_refl)); apply (numbers_part _ _ _ _ _ N); lia|].
  cbn [fits]. split; [reflexivity|]. split; [apply (numbers_part _ _ _ _ _ N); cbn; lia|exact I].
Qed.
Lemma label_same e : numbers F 8 24 -> read_label e (image e F) 28 = read_label LE (image LE F) 28.
Proof. intros N. unfold read_label. rewrite struct_same; [reflexivity|lia|apply label_fits, N]. Qed.
Record label_is (lb : dmlabel) : Prop := {
  li_fh : lb_file_headers lb = n_file_headers F; li_fk : lb_file_keys_ptr lb = file_keys F;
  li_rows : lb_rows lb = n_rows F; li_rk : lb_row_keys lb = n_row_keys F; li_rkp : lb_row_keys_ptr lb = row_keys F;
  li_rh : lb_row_headers_ptr lb = row_headers F; li_cols : lb_columns lb = n_columns F; li_ck : lb_column_keys lb = n_column_keys F;
  li_ckp : lb_column_keys_ptr lb = column_keys F; li_ch : lb_column_headers_ptr lb = column_headers F;
  li_parts : lb_parts lb = n_parts F; li_pp : lb_parts_ptr lb = parts F; li_dm : lb_data_mgmt_ptr lb = management F;
  li_db : lb_data_block_ptr lb = pointers F }.
Lemma label_ok lb : numbers F 8 24 -> read_label LE (image LE F) 28 = Ok lb -> label_is lb.
Proof.
  intros N. unfold read_label. destruct (rd_struct LE rlabel_fmt (image LE F) 28) as [vs|x] eqn:E; [|discriminate].
  apply struct_ok in E as [-> _]; [|lia|apply label_fits, N].
  assert (V : view F 28 rlabel_fmt = [VInt (signed F 8); VInt (signed F 9); VInt (signed F 10); VInt (signed F 11); VInt (signed F 12); VInt (signed F 13); VInt (signed F 14); VInt (signed F 15); VInt (signed F 16); VInt (signed F 17); VInt (signed F 18); VInt (signed F 19); VInt (signed F 20); VInt (signed F 21); VInt (signed F 22); VInt (signed F 23); VInt (signed F 24); VInt (signed F 25); VInt (signed F 26); VInt (signed F 27); VFloat (f32_of_bits (unsigned F 31))]) by reflexivity.
  rewrite V. cbn [bind as_ints mapM as_int firstn nth_error as_float].
  destruct (is_file_type _); [|discriminate]. intros [= <-]. constructor; reflexivity.
Qed.

(** ** Navigation *)
Lemma nav_same e : 0 < n_file_headers F -> navigation F ->
  read_nav e (image e F) (file_keys F) (n_file_headers F) = read_nav LE (image LE F) (file_keys F) (n_file_headers F).
Proof.
  intros P. unfold navigation. set (n := n_file_headers F) in *. set (fk := file_keys F). cbv zeta. intros (T & N & A & B & C & D).
  assert (K : 1 <= fk) by apply T. set (w := fk + 3 * n) in *.
  assert (X0 : fits F (word_to_position fk) (file_keys_fmt (Z.to_nat n))).
  { unfold word_to_position, file_keys_fmt. apply fits_app; [apply fits_str, T|]. rewrite calcsize_repeat. cbn [fmtc_size].
    replace (fk * 4 - 4 + Z.of_nat (Z.to_nat n * 4)) with ((fk + n) * 4 - 4) by lia.
    apply fits_app; [apply fits_num; [auto|]; apply (numbers_part _ _ _ _ _ N); lia|]. rewrite calcsize_repeat. cbn [fmtc_size].
    replace ((fk + n) * 4 - 4 + Z.of_nat (Z.to_nat n * 4)) with ((fk + 2 * n) * 4 - 4) by lia. apply fits_num; [auto|]. apply (numbers_part _ _ _ _ _ N); lia. }
  assert (E1 : word_to_position fk + Z.of_nat (calcsize (file_keys_fmt (Z.to_nat n))) = word_to_position w).
  { unfold file_keys_fmt, word_to_position, w. rewrite !calcsize_app, !calcsize_repeat. cbn [fmtc_size]. lia. }
  assert (X1 : fits F (word_to_position w + 4) rnav_fmt).
  { unfold rnav_fmt, word_to_position. apply fits_app.
    - cbn [fits]. split; [lia|]. split; [apply (numbers_part _ _ _ _ _ A); lia|]. split; [|exact I].
      intros q z Q. apply (proj2 B). lia.
    - cbn [calcsize fmtc_size]. replace (w * 4 - 4 + 4 + Z.of_nat (4 + (3 + (1 + 0)))) with ((w + 3) * 4 - 4) by lia.
      apply fits_app; [exact (fits_num F (w + 3) FFloat 11 (or_intror eq_refl) C)|exact I]. }
  assert (E2 : word_to_position w + 4 + Z.of_nat (calcsize rnav_fmt) = word_to_position (w + 257)).
  { unfold word_to_position. change (Z.of_nat (calcsize rnav_fmt)) with 1024. lia. }
  assert (X2 : fits F (word_to_position (w + 257) + 4) [FFloat]).
  { unfold word_to_position. cbn [fits]. split; [lia|]. split; [apply (numbers_part _ _ _ _ _ D); lia|exact I]. }
  assert (X3 : fits F (word_to_position (w + 257) + 4) ranl_fmt1).
  { replace (word_to_position (w + 257) + 4) with ((w + 258) * 4 - 4) by (unfold word_to_position; lia).
    unfold ranl_fmt1. apply fits_app; [apply (fits_num F (w + 258) FFloat 4); [auto|]; apply (numbers_part _ _ _ _ _ D); lia|].
    rewrite calcsize_repeat. cbn [fmtc_size]. apply (fits_app F [FPad 4]); [exact I|]. cbn [calcsize fmtc_size].
    replace ((w + 258) * 4 - 4 + Z.of_nat (4 * 4) + Z.of_nat (4 + 0)) with ((w + 263) * 4 - 4) by lia.
    apply fits_app; [|exact I]. apply (fits_num F (w + 263) FFloat 12); [auto|]; apply (numbers_part _ _ _ _ _ D); lia. }
  assert (X4 : fits F (word_to_position (w + 257) + 4) ranl_fmt2).
  { replace (word_to_position (w + 257) + 4) with ((w + 258) * 4 - 4) by (unfold word_to_position; lia).
    unfold ranl_fmt2. apply fits_app; [|exact I]. apply (fits_num F (w + 258) FFloat 18); [auto|]; apply (numbers_part _ _ _ _ _ D); lia. }
  unfold read_nav. cbv zeta. rewrite !E1, !E2. rewrite !(struct_same e) by (auto; unfold word_to_position; lia).
  rewrite !(uint_same e) by (first [apply (numbers_part _ _ _ _ _ A); lia | apply (numbers_part _ _ _ _ _ D); lia]). reflexivity.
Qed.

(** ** Keys *)
Lemma keys_same e ptr n : texts F ptr n -> read_keys e (image e F) ptr n = read_keys LE (image LE F) ptr n.
Proof.
  intros T. unfold read_keys. rewrite struct_same; [reflexivity| |apply fits_str, T]. unfold word_to_position. pose proof (proj1 T). lia.
Qed.
Lemma view_strs w : forall k j, (j < k)%nat -> nth_error (view F (w * 4 - 4) (repeat (FStr 4) k)) j = Some (VBytes (raw F ((w + Z.of_nat j) * 4 - 4) 4)).
Proof.
  intros k. revert w. induction k as [|k IH]; intros w j H; [lia|]. cbn [repeat view]. destruct j as [|j].
  - cbn [nth_error]. replace (w + Z.of_nat 0) with w by lia. reflexivity.
  - cbn [nth_error]. replace (w * 4 - 4 + Z.of_nat 4) with ((w + 1) * 4 - 4) by lia. rewrite IH by lia. do 3 f_equal. lia.
Qed.
Lemma view_strs_length p k : length (view F p (repeat (FStr 4) k)) = k.
Proof. revert p. induction k; intros p; cbn; auto. Qed.
Lemma raw_word w b : at_word F w = Some (Txt b) -> raw F (w * 4 - 4) 4 = b.
Proof.
  unfold at_word. destruct (Z.ltb_spec w 1); [discriminate|]. intros E. unfold raw. replace (Z.to_nat (w * 4 - 4)) with (4 * Z.to_nat (w - 1))%nat by lia.
  exact (image_word LE F S _ _ E).
Qed.
Definition keys_are (ptr n : Z) (ks : list str) : Prop :=
  length ks = Z.to_nat n /\ forall j k, nth_error ks j = Some k -> exists b, at_word F (ptr + Z.of_nat j) = Some (Txt b) /\ length b = 4%nat /\ decode_strip b = Ok k.
Lemma keys_ok ptr n ks : texts F ptr n -> read_keys LE (image LE F) ptr n = Ok ks -> keys_are ptr n ks.
Proof.
  intros T. unfold read_keys. pose proof (proj1 T) as P. destruct (rd_struct _ _ _ _) as [vs|x] eqn:E; [|discriminate]. cbn [bind].
  apply struct_ok in E as [-> L]; [|unfold word_to_position; lia|apply fits_str, T]. rewrite calcsize_repeat in L. unfold word_to_position in *. cbn [fmtc_size] in L.
  intros M. pose proof (mapM_ok_length _ _ _ M) as LEN. rewrite view_strs_length in LEN. split; [exact LEN|]. intros j k J.
  assert (JN : (j < Z.to_nat n)%nat) by (rewrite <- LEN; apply nth_error_Some; rewrite J; discriminate).
  pose proof (view_strs ptr _ j JN) as V. apply mapM_ok_Forall2 in M. destruct (Forall2_nth _ _ _ _ _ M J) as (v & V' & D).
  rewrite V in V'. injection V' as <-. cbn [as_bytes bind] in D.
  destruct (at_word F (ptr + Z.of_nat j)) as [[z|b]|] eqn:A.
  - exfalso. apply (proj2 T (ptr + Z.of_nat j) z); [lia|exact A].
  - exists b. rewrite (raw_word _ _ A) in D. split; [reflexivity|]. split; [|exact D].
    unfold at_word in A. destruct (_ <? 1); [discriminate|]. apply nth_error_In in A. rewrite Forall_forall in S. exact (proj1 (S _ A)).
  - exfalso. unfold at_word in A. destruct (Z.ltb_spec (ptr + Z.of_nat j) 1); [lia|]. apply nth_error_None in A. unfold Zlen in L. lia.
Qed.

(** ** Parts *)
Lemma part_fits i : texts F (parts F) (n_parts F) -> numbers F (parts F + n_parts F) (3 * n_parts F) -> 0 <= i < n_parts F ->
  fits F (word_to_position (parts F + i)) (parts_fmt (n_parts F)).
Proof.
  intros T N I. pose proof (proj1 T) as P. unfold parts_fmt, word_to_position. set (n := n_parts F) in *. set (w := parts F) in *. cbv zeta. cbn [fits].
  split; [apply (text_words F (w + i) 1); apply (texts_part _ _ _ _ _ T); lia|].
  split; [lia|]. split; [apply (numbers_part _ _ _ _ _ N); lia|].
  split; [lia|]. split; [apply (numbers_part _ _ _ _ _ N); lia|].
  split; [lia|]. split; [apply (numbers_part _ _ _ _ _ N); lia|exact Logic.I].
Qed.
Definition parts_are (ps : list rpart) : Prop :=
  1 <= n_parts F /\ length ps = Z.to_nat (n_parts F) /\
  forall i p, nth_error ps i = Some p ->
    rp_header_length p = part_header F (Z.of_nat i) /\ rp_data_type p = part_type F (Z.of_nat i) /\ rp_count p = part_count F (Z.of_nat i).
Lemma zrange_length n : length (zrange n) = Z.to_nat n.
Proof. unfold zrange. rewrite map_length, seq_length. reflexivity. Qed.
Lemma nth_seq k : forall n i, (i < n)%nat -> nth_error (seq k n) i = Some (k + i)%nat.
Proof.
  intros n. revert k. induction n as [|n IH]; intros k [|i] H; try lia; cbn [seq nth_error]; [f_equal; lia|]. rewrite IH by lia. f_equal. lia.
Qed.
Lemma zrange_nth n i : (i < Z.to_nat n)%nat -> nth_error (zrange n) i = Some (Z.of_nat i).
Proof. intros H. unfold zrange. rewrite nth_error_map, nth_seq by auto. reflexivity. Qed.
Lemma zrange_in n i : In i (zrange n) -> 0 <= i < n.
Proof. unfold zrange. rewrite in_map_iff. intros (k & <- & K). apply in_seq in K. lia. Qed.
Lemma parts_same e : texts F (parts F) (n_parts F) -> numbers F (parts F + n_parts F) (3 * n_parts F) ->
  read_parts e (image e F) (parts F) (n_parts F) = read_parts LE (image LE F) (parts F) (n_parts F).
Proof.
  intros T N. unfold read_parts. destruct (_ <? 1); [reflexivity|]. apply mapM_ext. intros i I. apply zrange_in in I. unfold read_part.
  rewrite struct_same; [reflexivity| |apply part_fits; auto]. pose proof (proj1 T). unfold word_to_position. lia.
Qed.
Lemma parts_ok ps : texts F (parts F) (n_parts F) -> numbers F (parts F + n_parts F) (3 * n_parts F) ->
  read_parts LE (image LE F) (parts F) (n_parts F) = Ok ps -> parts_are ps.
Proof.
  intros T N. pose proof (proj1 T) as P. unfold read_parts. destruct (Z.ltb_spec (n_parts F) 1); [discriminate|]. intros M.
  pose proof (mapM_ok_length _ _ _ M) as LEN. rewrite zrange_length in LEN. split; [assumption|]. split; [exact LEN|]. intros i p J.
  assert (JN : (i < Z.to_nat (n_parts F))%nat) by (rewrite <- LEN; apply nth_error_Some; rewrite J; discriminate).
  apply mapM_ok_Forall2 in M. destruct (Forall2_nth _ _ _ _ _ M J) as (v & V & D). rewrite zrange_nth in V by auto. injection V as <-.
  unfold read_part in D. destruct (rd_struct _ _ _ _) as [vs|x] eqn:E; [|discriminate]. apply struct_ok in E as [-> _].
  2: unfold word_to_position; lia. 2: apply part_fits; auto; lia.
  cbn [bind parts_fmt view] in D. destruct (decode_strip _); [|discriminate]. cbn [bind] in D. destruct (is_data_type _); [|discriminate].
  injection D as <-. cbn [rp_header_length rp_data_type rp_count]. unfold part_header, part_type, part_count, word_to_position.
  repeat split; f_equal; lia.
Qed.

(** ** Parameters *)
Definition kind_at (c : fmtc) (w n : Z) : Prop := (c = FInt /\ numbers F w n) \/ (c = FStr 4 /\ texts F w n).
Definition total (l : list Z) : Z := fold_right Z.add 0 (map (Z.max 0) l).
Lemma total_nonneg l : 0 <= total l.
Proof. unfold total. induction l as [|x l IH]; cbn [map fold_right]; [lia|]. generalize dependent (fold_right Z.add 0 (map (Z.max 0) l)). lia. Qed.
Lemma kind_part c w n v m : kind_at c w n -> w <= v -> v + m <= w + n -> kind_at c v m.
Proof. intros [[-> N]|[-> N]] A B; [left; split; [reflexivity|exact (numbers_part _ _ _ _ _ N A B)]|right; split; [reflexivity|exact (texts_part _ _ _ _ _ N A B)]]. Qed.
Lemma kind_pos c w n : kind_at c w n -> 1 <= w.
Proof. intros [[_ N]|[_ N]]; apply N. Qed.
Lemma items_same e c w n : kind_at c w n -> read_items e c (image e F) (w * 4 - 4) n = read_items LE c (image LE F) (w * 4 - 4) n.
Proof.
  intros K. pose proof (kind_pos _ _ _ K). unfold read_items. apply mapM_ext. intros i I. apply zrange_in in I. rewrite struct_same; [reflexivity|lia|].
  replace (w * 4 - 4 + 4 * i) with ((w + i) * 4 - 4) by lia. apply (kind_part _ _ _ (w + i) 1) in K; [|lia|lia].
  destruct K as [[-> N]|[-> N]]; cbn [fits].
  - split; [lia|]. split; [|exact Logic.I]. apply (numbers_part _ _ _ _ _ N); lia.
  - split; [|exact Logic.I]. apply (text_words F (w + i) 1 N).
Qed.
Lemma attr_same {A} e c (conv : pyval -> res A) : forall counts w, kind_at c w (total counts) ->
  read_attr e c conv (image e F) (w * 4 - 4) counts = read_attr LE c conv (image LE F) (w * 4 - 4) counts.
Proof.
  induction counts as [|n r IH]; intros w K; [reflexivity|]. cbn [read_attr]. pose proof (total_nonneg r) as NN.
  assert (K1 : kind_at c w (Z.max 0 n)) by (apply (kind_part _ _ _ _ _ K); [lia|]; unfold total; cbn [map fold_right]; fold (total r); lia).
  assert (K2 : kind_at c (w + Z.max 0 n) (total r)) by (apply (kind_part _ _ _ _ _ K); [lia|]; unfold total; cbn [map fold_right]; fold (total r); lia).
  rewrite (items_same e c w n) by (apply (kind_part _ _ _ _ _ K1); lia).
  replace (w * 4 - 4 + 4 * Z.max 0 n) with ((w + Z.max 0 n) * 4 - 4) by lia. rewrite (IH _ K2). reflexivity.
Qed.
Lemma attr_pos {A} e c (conv : pyval -> res A) d : forall counts p l p', read_attr e c conv d p counts = Ok (l, p') -> p' = p + 4 * total counts.
Proof.
  induction counts as [|n r IH]; intros p l p'; cbn [read_attr]; [intros [= <- <-]; cbn; lia|].
  destruct (read_items _ _ _ _ _); [|discriminate]. cbn [bind]. destruct (mapM _ _); [|discriminate]. cbn [bind].
  destruct (read_attr _ _ _ _ _ r) as [[rest q]|] eqn:E; [|discriminate]. cbn [bind]. intros [= _ <-]. rewrite (IH _ _ _ E).
  unfold total; cbn [map fold_right]; fold (total r). lia.
Qed.
Lemma parameters_same e ptr counts : texts F ptr (total counts) -> numbers F (ptr + total counts) (3 * total counts) ->
  read_parameters e (image e F) ptr counts = read_parameters LE (image LE F) ptr counts.
Proof.
  intros T N. unfold read_parameters, word_to_position. cbv zeta. pose proof (total_nonneg counts) as NN.
  rewrite (attr_same e) by (right; auto). destruct (read_attr LE (FStr 4) _ _ _ _) as [[l1 p1]|] eqn:E1; [|reflexivity]. cbn [bind].
  apply attr_pos in E1. replace p1 with ((ptr + total counts) * 4 - 4) by lia.
  rewrite (attr_same e) by (left; split; [reflexivity|]; apply (numbers_part _ _ _ _ _ N); lia). destruct (read_attr LE FInt _ _ _ _) as [[l2 p2]|] eqn:E2; [|reflexivity]. cbn [bind].
  apply attr_pos in E2. replace p2 with ((ptr + 2 * total counts) * 4 - 4) by lia.
  rewrite (attr_same e) by (left; split; [reflexivity|]; apply (numbers_part _ _ _ _ _ N); lia). destruct (read_attr LE FInt _ _ _ _) as [[l3 p3]|] eqn:E3; [|reflexivity]. cbn [bind].
  apply attr_pos in E3. replace p3 with ((ptr + 3 * total counts) * 4 - 4) by lia.
  rewrite (attr_same e) by (left; split; [reflexivity|]; apply (numbers_part _ _ _ _ _ N); lia). reflexivity.
Qed.
Lemma counts_total ps : parts_are ps -> total (map rp_count ps) = all_parameters F.
Proof.
  intros (_ & L & P). unfold total, all_parameters. f_equal. apply nth_error_ext. intros i. rewrite !nth_error_map.
  destruct (nth_error ps i) as [p|] eqn:E.
  - assert (I : (i < Z.to_nat (n_parts F))%nat) by (rewrite <- L; apply nth_error_Some; rewrite E; discriminate).
    rewrite nth_seq by auto. destruct (P _ _ E) as (_ & _ & Q). cbn [option_map]. rewrite Q. reflexivity.
  - apply nth_error_None in E. replace (nth_error (seq 0 (Z.to_nat (n_parts F))) i) with (@None nat); [reflexivity|].
    symmetry. apply nth_error_None. rewrite seq_length. lia.
Qed.

(** ** The whole file *)
Definition twin (e : endian) (g : gfile) : gfile :=
  mk_gfile (image e F) e (gf_label g) (gf_nav g) (gf_data_management g) (gf_row_keys g) (gf_column_keys g) (gf_parts g) (gf_parameters g).
Record opened (g : gfile) : Prop := {
  od_data : gf_data g = image LE F; od_endian : gf_endian g = LE; od_label : label_is (gf_label g);
  od_rows : keys_are (row_keys F) (n_row_keys F) (gf_row_keys g);
  od_cols : keys_are (column_keys F) (n_column_keys F) (gf_column_keys g); od_parts : parts_are (gf_parts g) }.
Lemma open_same e : base_file F ->
  open_gempak (image e F) = (g <- open_gempak (image LE F) ;; Ok (twin e g)) /\ forall g, open_gempak (image LE F) = Ok g -> opened g.
Proof.
  intros (T1 & N8 & V & NAV & DM & RK & CK & PT & PN & QT & QN). unfold open_gempak. cbv zeta. rewrite !(check_same e), !(swap_image e), !(swap_image LE) by auto.
  destruct (check_header (image LE F)) as [u|x]; [|split; [reflexivity|discriminate]]. cbn [bind].
  rewrite (label_same e) by auto. destruct (read_label LE (image LE F) 28) as [lb|x] eqn:LB; [|split; [reflexivity|discriminate]]. cbn [bind].
  pose proof (label_ok lb N8 LB) as L. pose proof L as [a b c d ee f g h i j k l m n]. rewrite a, b, d, ee, h, i, k, l, m.
  assert (E1 : (if n_file_headers F >? 0 then nv <- read_nav e (image e F) (file_keys F) (n_file_headers F) ;; Ok (Some nv) else Ok None)
             = (if n_file_headers F >? 0 then nv <- read_nav LE (image LE F) (file_keys F) (n_file_headers F) ;; Ok (Some nv) else Ok None)).
  { destruct (n_file_headers F >? 0) eqn:P; [|reflexivity]. rewrite nav_same; [reflexivity|lia|apply NAV; lia]. }
  rewrite E1. clear E1. destruct (if n_file_headers F >? 0 then _ else _) as [nv|x]; [|split; [reflexivity|discriminate]]. cbn [bind].
  rewrite (struct_same e (repeat FInt 32)); [|unfold word_to_position; pose proof (proj1 DM); lia|exact (fits_num F _ FInt 32 (or_introl eq_refl) DM)].
  destruct (bind (rd_struct LE (repeat FInt 32) _ _) _) as [dm|x]; [|split; [reflexivity|discriminate]]. cbn [bind].
  rewrite !(keys_same e) by auto. destruct (read_keys LE (image LE F) (row_keys F) (n_row_keys F)) as [rk|x] eqn:R; [|split; [reflexivity|discriminate]]. cbn [bind].
  destruct (read_keys LE (image LE F) (column_keys F) (n_column_keys F)) as [ck|x] eqn:C; [|split; [reflexivity|discriminate]]. cbn [bind].
  rewrite (parts_same e) by auto. destruct (read_parts LE (image LE F) (parts F) (n_parts F)) as [ps|x] eqn:P; [|split; [reflexivity|discriminate]]. cbn [bind].
  pose proof (parts_ok ps PT PN P) as PA. pose proof (counts_total ps PA) as TT.
  rewrite (parameters_same e); [|rewrite TT; replace (parts F + n_parts F * 4) with (parts F + 4 * n_parts F) by lia; auto..].
  destruct (read_parameters LE _ _ _) as [q|x]; [|split; [reflexivity|discriminate]]. cbn [bind]. split; [reflexivity|].
  intros g0 [= <-]. constructor; cbn [gf_data gf_endian gf_label gf_row_keys gf_column_keys gf_parts]; auto; [exact (keys_ok _ _ _ RK R)|exact (keys_ok _ _ _ CK C)].
Qed.
End Open.
