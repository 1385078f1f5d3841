(** What to_gempak leaves in the file: every section is where its pointer says and no later
    write damages it. *)
From Coq Require Import Lia ZifyBool ZifyNat.
From Verif Require Import Base BaseFacts Words Layout LayoutFacts Floats FloatsFacts Structs StructsFacts
  Strings StringsFacts Headers HeadersFacts SpecLayout Props_Layout DmFile StreamFacts.
Ltac Zify.zify_post_hook ::= Z.div_mod_to_equations.

(** Bytes of words lo .. hi-1 *)
Definition inside (lo hi : Z) (q : Z) (bs : bytes) : Prop := 4 * (lo - 1) <= q /\ q + Zlen bs <= 4 * (hi - 1).
Definition outside (lo hi : Z) (q : Z) (bs : bytes) : Prop := q + Zlen bs <= 4 * (lo - 1) \/ 4 * (hi - 1) <= q.
(** [b'] differs from [b] only in words lo .. hi-1 (and may be longer). *)
Definition changes (lo hi : Z) (b b' : bytes) : Prop :=
  forall q bs, outside lo hi q bs -> has_at b q bs -> has_at b' q bs.
(** [P] depends on words lo .. hi-1 only. *)
Definition stable (lo hi : Z) (P : bytes -> Prop) : Prop :=
  forall b b', (forall q bs, inside lo hi q bs -> has_at b q bs -> has_at b' q bs) -> P b -> P b'.

Lemma stable_changes lo hi lo' hi' P b b' : stable lo hi P -> changes lo' hi' b b' ->
  hi <= lo' \/ hi' <= lo -> P b -> P b'.
Proof.
  intros HS HC HD HP. apply (HS b b'); [|exact HP]. intros q bs [I1 I2] HA. apply HC; [|exact HA].
  unfold outside. lia.
Qed.
Lemma changes_refl lo hi b : changes lo hi b b.
Proof. intros q bs _ H. exact H. Qed.
Lemma changes_trans lo hi a b c : changes lo hi a b -> changes lo hi b c -> changes lo hi a c.
Proof. intros H1 H2 q bs O H. apply H2; [exact O|]. apply H1; assumption. Qed.
Lemma changes_mono lo hi lo' hi' a b : changes lo hi a b -> lo' <= lo -> hi <= hi' -> changes lo' hi' a b.
Proof. intros H L1 L2 q bs O HA. apply H; [unfold outside in *; lia|exact HA]. Qed.
Lemma stable_has lo hi q bs : inside lo hi q bs -> stable lo hi (fun b => has_at b q bs).
Proof. intros HI b b' H HA. apply H; assumption. Qed.
Lemma stable_mono lo hi lo' hi' P : stable lo hi P -> lo' <= lo -> hi <= hi' -> stable lo' hi' P.
Proof.
  intros HS L1 L2 b b' H. apply HS. intros q bs [I1 I2]. apply H. unfold inside. lia.
Qed.

Lemma st_write_changes s bs lo hi : 0 <= st_pos s -> inside lo hi (st_pos s) bs ->
  changes lo hi (st_buf s) (st_buf (st_write bs s)).
Proof.
  intros Hs [I1 I2] q d O HA. unfold st_write. cbn [st_buf]. apply overwrite_keep; [lia|exact HA|].
  unfold outside, apart in *. lia.
Qed.
Lemma st_write_has s bs : 0 <= st_pos s -> bs <> [] \/ st_pos s <= Zlen (st_buf s) ->
  has_at (st_buf (st_write bs s)) (st_pos s) bs.
Proof.
  intros Hs Hb. unfold st_write. cbn [st_buf]. destruct bs as [|x bs].
  - destruct Hb as [Hb|Hb]; [congruence|]. split; [lia|]. split; [cbn; lia|]. intros i Hi. cbn in Hi. lia.
  - apply overwrite_has; [lia|discriminate].
Qed.
Lemma st_jump_ok w s s' : st_jump w s = Ok s' -> st_buf s' = st_buf s /\ st_pos s' = 4 * (w - 1) /\ 1 <= w.
Proof.
  unfold st_jump, word_to_position. destruct (Z.ltb_spec (w * 4 - 4) 0); [discriminate|].
  intros H'. inv_ok. cbn [st_buf st_pos]. split; [reflexivity|]. split; lia.
Qed.
Lemma st_jump_at w s : 1 <= w -> st_jump w s = Ok (mk_st (st_buf s) (4 * (w - 1))).
Proof.
  intros H. unfold st_jump, word_to_position. destruct (Z.ltb_spec (w * 4 - 4) 0); [lia|].
  do 2 f_equal. lia.
Qed.

(** Words packed one by one, as one struct. *)
Inductive packed (e : endian) : list fmtc -> list pyval -> list bytes -> Prop :=
| packed_nil : packed e [] [] []
| packed_cons c v w fmt vs ws : pack_item e c v = Ok w -> packed e fmt vs ws ->
    packed e (c :: fmt) (v :: vs) (w :: ws).
Lemma packed_struct e fmt vs ws : packed e fmt vs ws -> struct_pack e fmt vs = Ok (concat ws).
Proof.
  induction 1 as [|c v w fmt vs ws H _ IH]; [reflexivity|]. cbn [struct_pack concat].
  destruct c; try (rewrite H; cbn [bind]; rewrite IH; reflexivity). destruct v; discriminate.
Qed.
Lemma packed_app e f1 v1 w1 f2 v2 w2 : packed e f1 v1 w1 -> packed e f2 v2 w2 ->
  packed e (f1 ++ f2) (v1 ++ v2) (w1 ++ w2).
Proof. induction 1; cbn; [auto|]. intros. constructor; auto. Qed.
Lemma packed_strings e l ws : mapM word_of_str l = Ok ws ->
  packed e (repeat (FStr 4) (length l)) (map VBytes ws) ws.
Proof.
  intros H. apply mapM_ok_Forall2 in H. induction H as [|x w l ws H _ IH]; [constructor|].
  cbn [length repeat map]. constructor; [|exact IH]. unfold pack_item. rewrite fit_exact by (eapply word_of_str_length; eassumption). reflexivity.
Qed.
Lemma packed_ints e l ws : mapM (pack_i32 e) l = Ok ws -> packed e (repeat FInt (length l)) (map VInt l) ws.
Proof.
  intros H. apply mapM_ok_Forall2 in H. induction H as [|x w l ws H _ IH]; [constructor|].
  cbn. constructor; [exact H|exact IH].
Qed.
Lemma packed_floats e l ws : mapM (pack_f32 e) l = Ok ws -> packed e (repeat FFloat (length l)) (map VFloat l) ws.
Proof.
  intros H. apply mapM_ok_Forall2 in H. induction H as [|x w l ws H _ IH]; [constructor|].
  cbn. constructor; [exact H|exact IH].
Qed.
Lemma rd_packed e fmt vs ws d p : packed e fmt vs ws -> has_at d p (concat ws) ->
  rd_struct e fmt d p = Ok (stored_vals fmt vs).
Proof. intros H. apply rd_struct_has, packed_struct. exact H. Qed.

(** ** The sections of to_gempak *)
(** A hook of the subclass: started at word lo it changes only words lo .. hi-1 and
    establishes P there. *)
Definition hook (f : stream -> res stream) (lo hi : Z) (P : bytes -> Prop) : Prop :=
  stable lo hi P /\
  forall s s', st_pos s = 4 * (lo - 1) -> 1 <= lo -> f s = Ok s' ->
    changes lo hi (st_buf s) (st_buf s') /\ P (st_buf s').
Definition data_hook (f : stream -> res (stream * Z)) (lo : Z) (P : Z -> bytes -> Prop) : Prop :=
  forall s s' nf, st_pos s = 4 * (lo - 1) -> 1 <= lo -> f s = Ok (s', nf) ->
    exists hi, stable lo hi (P nf) /\ changes lo hi (st_buf s) (st_buf s') /\ P nf (st_buf s').

Definition words_at (ws : list bytes) (w : Z) (b : bytes) : Prop := ws = [] \/ has_at b (4 * (w - 1)) (concat ws).
Lemma words_at_stable ws lo hi : word_list ws -> lo + Zlen ws <= hi -> stable lo hi (words_at ws lo).
Proof.
  intros HW HL b b' H [HP|HP]; [left; exact HP|]. right. apply H; [|exact HP].
  unfold inside. rewrite word_list_concat by assumption. lia.
Qed.
Lemma st_words_hook s ws lo hi : word_list ws -> st_pos s = 4 * (lo - 1) -> 1 <= lo -> lo + Zlen ws <= hi ->
  changes lo hi (st_buf s) (st_buf (st_write (concat ws) s)) /\
  words_at ws lo (st_buf (st_write (concat ws) s)).
Proof.
  intros HW Hs Hl Hh. split.
  - apply st_write_changes; [lia|]. unfold inside. rewrite word_list_concat by assumption. lia.
  - destruct ws as [|w ws]; [left; reflexivity|]. right. rewrite <- Hs. apply st_write_has; [lia|]. left.
    inversion HW as [|? ? Hw _]; subst. cbn [concat]. destruct w; [discriminate Hw|discriminate].
Qed.

Definition part_words (e : endian) (h : dmhead) : res (list bytes) :=
  names <- mapM word_of_str (map pt_name (hd_parts h)) ;;
  hls <- mapM (pack_i32 e) (map pt_header (hd_parts h)) ;;
  tys <- mapM (pack_i32 e) (map pt_type (hd_parts h)) ;;
  cts <- mapM (pack_i32 e) (map (fun p => Zlen (pt_parameters p)) (hd_parts h)) ;;
  prm <- mapM word_of_str (concat (map pt_parameters (hd_parts h))) ;;
  off <- mapM (pack_i32 e) (concat (map pt_offset (hd_parts h))) ;;
  scl <- mapM (pack_i32 e) (concat (map pt_scale (hd_parts h))) ;;
  bit <- mapM (pack_i32 e) (concat (map pt_bits (hd_parts h))) ;;
  Ok (names ++ hls ++ tys ++ cts ++ prm ++ off ++ scl ++ bit).
Definition file_key_words (e : endian) (h : dmhead) : res (list bytes) :=
  names <- mapM word_of_str (map fh_name (hd_file_headers h)) ;;
  len <- mapM (pack_i32 e) (map fh_length (hd_file_headers h)) ;;
  tys <- mapM (pack_i32 e) (map fh_type (hd_file_headers h)) ;;
  Ok (names ++ len ++ tys).

(** The per-parameter attribute lists have one entry per parameter. *)
Definition parts_wf (h : dmhead) : Prop :=
  Forall (fun p => length (pt_scale p) = length (pt_parameters p) /\
                   length (pt_offset p) = length (pt_parameters p) /\
                   length (pt_bits p) = length (pt_parameters p)) (hd_parts h).

Lemma concat_len {A} (f : part -> list A) l :
  Forall (fun p => length (f p) = length (pt_parameters p)) l ->
  Zlen (concat (map f l)) = sum (map (fun p => Zlen (pt_parameters p)) l).
Proof.
  induction 1 as [|p l H _ IH]; [reflexivity|]. cbn [map concat sum]. rewrite Zlen_app, IH.
  unfold Zlen at 1 3. rewrite H. reflexivity.
Qed.

Lemma write_parts_eq e h s : 0 <= st_pos s ->
  write_parts e h s = (ws <- part_words e h ;; Ok (st_write (concat ws) s)).
Proof.
  intros Hs. unfold write_parts, part_words.
  rewrite st_strings_eq by assumption.
  destruct (mapM word_of_str (map pt_name (hd_parts h))) as [w1|]; cbn [bind]; [|reflexivity].
  rewrite st_ints_eq by (apply st_write_pos; assumption).
  destruct (mapM (pack_i32 e) (map pt_header (hd_parts h))) as [w2|]; cbn [bind]; [|reflexivity].
  rewrite st_write_write by assumption. rewrite st_ints_eq by (apply st_write_pos; assumption).
  destruct (mapM (pack_i32 e) (map pt_type (hd_parts h))) as [w3|]; cbn [bind]; [|reflexivity].
  rewrite st_write_write by assumption. rewrite st_ints_eq by (apply st_write_pos; assumption).
  destruct (mapM (pack_i32 e) (map _ (hd_parts h))) as [w4|]; cbn [bind]; [|reflexivity].
  rewrite st_write_write by assumption. rewrite st_strings_eq by (apply st_write_pos; assumption).
  destruct (mapM word_of_str (concat _)) as [w5|]; cbn [bind]; [|reflexivity].
  rewrite st_write_write by assumption. rewrite st_ints_eq by (apply st_write_pos; assumption).
  destruct (mapM (pack_i32 e) (concat (map pt_offset _))) as [w6|]; cbn [bind]; [|reflexivity].
  rewrite st_write_write by assumption. rewrite st_ints_eq by (apply st_write_pos; assumption).
  destruct (mapM (pack_i32 e) (concat (map pt_scale _))) as [w7|]; cbn [bind]; [|reflexivity].
  rewrite st_write_write by assumption. rewrite st_ints_eq by (apply st_write_pos; assumption).
  destruct (mapM (pack_i32 e) (concat (map pt_bits _))) as [w8|]; cbn [bind]; [|reflexivity].
  rewrite st_write_write by assumption. rewrite !concat_app, <- !app_assoc. reflexivity.
Qed.
Lemma write_file_keys_eq e h s : 0 <= st_pos s ->
  write_file_keys e h s = (ws <- file_key_words e h ;; Ok (st_write (concat ws) s)).
Proof.
  intros Hs. unfold write_file_keys, file_key_words.
  rewrite st_strings_eq by assumption.
  destruct (mapM word_of_str (map fh_name _)) as [w1|]; cbn [bind]; [|reflexivity].
  rewrite st_ints_eq by (apply st_write_pos; assumption).
  destruct (mapM (pack_i32 e) (map fh_length _)) as [w2|]; cbn [bind]; [|reflexivity].
  rewrite st_write_write by assumption. rewrite st_ints_eq by (apply st_write_pos; assumption).
  destruct (mapM (pack_i32 e) (map fh_type _)) as [w3|]; cbn [bind]; [|reflexivity].
  rewrite st_write_write by assumption. rewrite !concat_app, <- !app_assoc. reflexivity.
Qed.
Lemma part_words_len e h ws : parts_wf h -> part_words e h = Ok ws ->
  word_list ws /\ Zlen ws = 4 * Zlen (hd_parts h) + 4 * sum (map (fun p => Zlen (pt_parameters p)) (hd_parts h)).
Proof.
  intros HF H. unfold part_words in H.
  repeat match type of H with bind ?m _ = _ => let E := fresh "E" in destruct m eqn:E; cbn [bind] in H; [|discriminate H] end.
  inv_ok.
  apply strings_words in E as [? ?]; apply ints_words in E0 as [? ?]; apply ints_words in E1 as [? ?];
  apply ints_words in E2 as [? ?]; apply strings_words in E3 as [? ?]; apply ints_words in E4 as [? ?];
  apply ints_words in E5 as [? ?]; apply ints_words in E6 as [? ?].
  split; [repeat apply word_list_app; assumption|].
  rewrite !Zlen_app. rewrite !Zlen_map in *.
  assert (F1 := concat_len pt_parameters (hd_parts h)). rewrite F1 in * by (apply Forall_forall; reflexivity).
  assert (F2 := concat_len pt_offset (hd_parts h)). rewrite F2 in * by (eapply Forall_impl; [|exact HF]; cbn; tauto).
  assert (F3 := concat_len pt_scale (hd_parts h)). rewrite F3 in * by (eapply Forall_impl; [|exact HF]; cbn; tauto).
  assert (F4 := concat_len pt_bits (hd_parts h)). rewrite F4 in * by (eapply Forall_impl; [|exact HF]; cbn; tauto).
  lia.
Qed.
Lemma file_key_words_len e h ws : file_key_words e h = Ok ws ->
  word_list ws /\ Zlen ws = 3 * Zlen (hd_file_headers h).
Proof.
  intros H. unfold file_key_words in H.
  repeat match type of H with bind ?m _ = _ => let E := fresh "E" in destruct m eqn:E; cbn [bind] in H; [|discriminate H] end.
  inv_ok.
  apply strings_words in E as [? ?]; apply ints_words in E0 as [? ?]; apply ints_words in E1 as [? ?].
  split; [repeat apply word_list_app; assumption|]. rewrite !Zlen_app. rewrite !Zlen_map in *. lia.
Qed.

Record written (e : endian) (h : dmhead) (P_fh P_rh P_ch : bytes -> Prop) (P_data : Z -> bytes -> Prop)
    (b : bytes) : Prop := {
  wr_label : exists lb, struct_pack e label_fmt (label_values h (head_pointers h)) = Ok lb /\ has_at b 0 lb;
  wr_rows : exists ws, mapM word_of_str (hd_row_names h) = Ok ws /\ words_at ws (row_keys_ptr (head_pointers h)) b;
  wr_cols : exists ws, mapM word_of_str (hd_column_names h) = Ok ws /\ words_at ws (column_keys_ptr (head_pointers h)) b;
  wr_fkeys : hd_file_headers h = [] \/
    exists ws, file_key_words e h = Ok ws /\ words_at ws (file_keys_ptr (head_pointers h)) b;
  wr_fhead : hd_file_headers h = [] \/ P_fh b;
  wr_parts : exists ws, part_words e h = Ok ws /\ words_at ws (parts_ptr (head_pointers h)) b;
  wr_rh : P_rh b;
  wr_ch : P_ch b;
  wr_data : exists nf mg, P_data nf b /\ struct_pack e data_mgmt_fmt [VInt nf; VInt MMFREE; VInt 0; VInt 0] = Ok mg /\
    has_at b (4 * (data_mgmt_ptr - 1)) mg
}.

Lemma calcsize_label : calcsize label_fmt = 124%nat. Proof. reflexivity. Qed.
Lemma calcsize_mgmt : calcsize data_mgmt_fmt = 480%nat. Proof. reflexivity. Qed.

Definition head_ok (h : dmhead) : Prop :=
  0 <= hd_rows h /\ 0 <= hd_columns h /\ Forall (fun f => 0 <= fh_length f) (hd_file_headers h) /\ parts_wf h.

Lemma head_nonneg h : head_ok h -> nonneg_shape (head_shape h).
Proof.
  intros (H1 & H2 & H3 & H4). unfold nonneg_shape, head_shape. cbn.
  repeat split; try apply Zlen_nonneg; try assumption.
  - rewrite Forall_map. exact H3.
  - rewrite Forall_map. apply Forall_forall. intros. apply Zlen_nonneg.
Qed.

Lemma fop_inv {A} (R : A -> A -> Prop) a l : ForallOrdPairs R (a :: l) -> Forall (R a) l /\ ForallOrdPairs R l.
Proof. intros H. inversion H; subst. split; assumption. Qed.
Lemma forall_inv {A} (P : A -> Prop) a l : Forall P (a :: l) -> P a /\ Forall P l.
Proof. intros H. inversion H; subst. split; assumption. Qed.

Lemma layout_order_s s p : nonneg_shape s -> p = set_pointers s ->
  row_keys_ptr p = 257 /\
  column_keys_ptr p = row_keys_ptr p + sh_row_keys s /\
  file_keys_ptr p = column_keys_ptr p + sh_column_keys s /\
  file_keys_ptr p + (3 * Zlen (sh_fh_lengths s) + (sum (sh_fh_lengths s) + Zlen (sh_fh_lengths s))) <= row_headers_ptr p /\
  row_headers_ptr p + sh_rows s * (sh_row_keys s + 1) <= column_headers_ptr p /\
  column_headers_ptr p + sh_columns s * (sh_column_keys s + 1) <= parts_ptr p /\
  parts_ptr p + (4 * Zlen (sh_part_nparms s) + 4 * sum (sh_part_nparms s)) <= data_block_ptr p /\
  row_headers_ptr p <= column_headers_ptr p <= parts_ptr p /\ parts_ptr p <= data_block_ptr p /\
  file_keys_ptr p <= row_headers_ptr p.
Proof.
  intros (H1 & H2 & H3 & H4 & H5 & H6) ->. unfold set_pointers.
  cbn [row_keys_ptr column_keys_ptr file_keys_ptr row_headers_ptr column_headers_ptr parts_ptr data_block_ptr].
  rewrite fold_add_sum, fold_add1_sum.
  assert (S1 : 0 <= sum (sh_fh_lengths s)) by (rewrite <- fold_add_sum; apply fold_add_nonneg; assumption).
  assert (S2 : 0 <= sum (sh_part_nparms s)) by (rewrite <- fold_add_sum; apply fold_add_nonneg; assumption).
  unfold data_mgmt_ptr, data_mgmt_length, MBLKSZ.
  pose proof (Zlen_nonneg (sh_fh_lengths s)). pose proof (Zlen_nonneg (sh_part_nparms s)).
  set (nf := Zlen (sh_fh_lengths s)) in *. set (np := Zlen (sh_part_nparms s)) in *.
  set (sf := sum (sh_fh_lengths s)) in *. set (sp := sum (sh_part_nparms s)) in *.
  assert (R1 : 0 <= sh_rows s * (sh_row_keys s + 1)) by nia.
  assert (R2 : 0 <= sh_columns s * (sh_column_keys s + 1)) by nia.
  pose proof (record_start_spec (129 + 128 + sh_row_keys s + sh_column_keys s + 3 * nf + (sf + nf))) as [A1 _].
  set (rh := record_start (129 + 128 + sh_row_keys s + sh_column_keys s + 3 * nf + (sf + nf))) in *.
  set (r1 := sh_rows s * (sh_row_keys s + 1)) in *.
  set (r2 := sh_columns s * (sh_column_keys s + 1)) in *.
  pose proof (record_start_spec (rh + r1 + r2)) as [A2 _].
  set (pp := record_start (rh + r1 + r2)) in *.
  pose proof (record_start_spec (pp + 4 * np + 4 * sp)) as [A3 _].
  set (db := record_start (pp + 4 * np + 4 * sp)) in *.
  clearbody nf np sf sp rh r1 r2 pp db.
  repeat split; lia.
Qed.

Lemma layout_order h : head_ok h ->
  let p := head_pointers h in
  let nfh := Zlen (hd_file_headers h) in
  row_keys_ptr p = 257 /\
  column_keys_ptr p = row_keys_ptr p + Zlen (hd_row_names h) /\
  file_keys_ptr p = column_keys_ptr p + Zlen (hd_column_names h) /\
  file_keys_ptr p + (3 * nfh + (sum (map fh_length (hd_file_headers h)) + nfh)) <= row_headers_ptr p /\
  row_headers_ptr p + hd_rows h * (Zlen (hd_row_names h) + 1) <= column_headers_ptr p /\
  column_headers_ptr p + hd_columns h * (Zlen (hd_column_names h) + 1) <= parts_ptr p /\
  parts_ptr p + (4 * Zlen (hd_parts h) + 4 * sum (map (fun p => Zlen (pt_parameters p)) (hd_parts h)))
    <= data_block_ptr p /\
  row_headers_ptr p <= column_headers_ptr p <= parts_ptr p /\ parts_ptr p <= data_block_ptr p /\
  1 <= Zlen (hd_row_names h) + 1 /\ 1 <= Zlen (hd_column_names h) + 1 /\ file_keys_ptr p <= row_headers_ptr p.
Proof.
  intros Hok p nfh. assert (Ep : p = set_pointers (head_shape h)) by reflexivity. clearbody p.
  pose proof (layout_order_s (head_shape h) p (head_nonneg h Hok) Ep) as L.
  cbn [head_shape sh_row_keys sh_rows sh_column_keys sh_columns sh_fh_lengths sh_part_nparms] in L.
  rewrite !Zlen_map in L. fold nfh in L.
  pose proof (Zlen_nonneg (hd_row_names h)). pose proof (Zlen_nonneg (hd_column_names h)).
  assert (0 <= nfh) by apply Zlen_nonneg.
  destruct L as (L1 & L2 & L3 & L4 & L5 & L6 & L7 & L8 & L9 & L10). clear Ep Hok.
  repeat split; lia.
Qed.

Section ToGempak.
  Variables (e : endian) (h : dmhead).
  Variables (wfh wrh wch : stream -> res stream) (wd : stream -> res (stream * Z)).
  Variables (P_fh P_rh P_ch : bytes -> Prop) (P_data : Z -> bytes -> Prop).
  Variable p : pointers.
  Hypothesis Eptr : head_pointers h = p.
  Let nfh := Zlen (hd_file_headers h).
  Let fk_end := file_keys_ptr p + 3 * nfh.
  Let fh_end := fk_end + (sum (map fh_length (hd_file_headers h)) + nfh).
  Let rh_end := row_headers_ptr p + hd_rows h * (Zlen (hd_row_names h) + 1).
  Let ch_end := column_headers_ptr p + hd_columns h * (Zlen (hd_column_names h) + 1).
  Hypothesis Hok : head_ok h.
  Hypothesis Hfh : hook wfh fk_end fh_end P_fh.
  Hypothesis Hrh : hook wrh (row_headers_ptr p) rh_end P_rh.
  Hypothesis Hch : hook wch (column_headers_ptr p) ch_end P_ch.
  Hypothesis Hd : data_hook wd (data_block_ptr p) P_data.

  Lemma to_gempak_written b nf' : to_gempak_at e h p wfh wrh wch wd = Ok (b, nf') ->
    written e h P_fh P_rh P_ch P_data b.
  Proof.
    intros H. unfold to_gempak_at in H.
    destruct (layout_order h Hok) as (Y1 & Y2 & Y3 & Y4 & Y5 & Y6 & Y7 & Y8).
    rewrite Eptr in *. change (Zlen (hd_file_headers h)) with nfh in Y4.
    set (npt := 4 * Zlen (hd_parts h) + 4 * sum (map (fun p => Zlen (pt_parameters p)) (hd_parts h))) in *.
    assert (Hnf : 0 <= nfh) by apply Zlen_nonneg.
    assert (Hfe : fk_end <= fh_end).
    { unfold fh_end. rewrite <- fold_add_sum. destruct Hok as (_ & _ & HF & _).
      pose proof (fold_add_nonneg (map fh_length (hd_file_headers h))) as HS.
      rewrite Forall_map in HS. specialize (HS HF). lia. }
    (* label *)
    unfold write_label, st_struct in H.
    destruct (struct_pack e label_fmt _) as [lb|] eqn:Elb; cbn [bind] in H; [|discriminate H].
    pose proof (struct_pack_length _ _ _ _ Elb) as Llb. rewrite calcsize_label in Llb.
    set (s0 := st_write lb st_new) in *.
    assert (F0 : has_at (st_buf s0) 0 lb).
    { apply (st_write_has st_new lb); cbn; [lia|]. left. destruct lb; [discriminate Llb|discriminate]. }
    assert (S0 : stable 1 32 (fun b => has_at b 0 lb)).
    { apply stable_has. unfold inside, Zlen. lia. }
    clearbody s0.
    (* row keys *)
    rewrite st_jump_at in H by lia. cbn [bind] in H.
    unfold write_row_keys in H. rewrite st_strings_eq in H by (cbn [st_pos]; lia).
    destruct (mapM word_of_str (hd_row_names h)) as [wr|] eqn:Er; cbn [bind] in H; [|discriminate H].
    destruct (strings_words _ _ Er) as [Wr Lr].
    assert (Sr : stable (row_keys_ptr p) (column_keys_ptr p) (words_at wr (row_keys_ptr p)))
      by (apply words_at_stable; [assumption|lia]).
    set (s1 := mk_st (st_buf s0) (4 * (row_keys_ptr p - 1))) in *.
    destruct (st_words_hook s1 wr (row_keys_ptr p) (column_keys_ptr p)) as [Cr Pr]; [assumption|reflexivity|lia|lia|].
    change (st_buf s1) with (st_buf s0) in Cr.
    set (s2 := st_write (concat wr) s1) in *. clearbody s2. clear s1.
    assert (F0' := stable_changes _ _ _ _ _ _ _ S0 Cr ltac:(lia) F0). clear F0 Cr. rename F0' into F0.
    (* column keys *)
    rewrite st_jump_at in H by lia. cbn [bind] in H.
    unfold write_column_keys in H. rewrite st_strings_eq in H by (cbn [st_pos]; lia).
    destruct (mapM word_of_str (hd_column_names h)) as [wc|] eqn:Ec; cbn [bind] in H; [|discriminate H].
    destruct (strings_words _ _ Ec) as [Wc Lc].
    assert (Sc : stable (column_keys_ptr p) (file_keys_ptr p) (words_at wc (column_keys_ptr p)))
      by (apply words_at_stable; [assumption|lia]).
    set (s3 := mk_st (st_buf s2) (4 * (column_keys_ptr p - 1))) in *.
    destruct (st_words_hook s3 wc (column_keys_ptr p) (file_keys_ptr p)) as [Cc Pc]; [assumption|reflexivity|lia|lia|].
    change (st_buf s3) with (st_buf s2) in Cc.
    set (s4 := st_write (concat wc) s3) in *. clearbody s4. clear s3.
    assert (F0' := stable_changes _ _ _ _ _ _ _ S0 Cc ltac:(lia) F0). clear F0. rename F0' into F0.
    assert (Pr' := stable_changes _ _ _ _ _ _ _ Sr Cc ltac:(lia) Pr). clear Pr Cc. rename Pr' into Pr.
    (* file keys and file headers *)
    destruct (match hd_file_headers h with [] => Ok s4 | _ => _ end) as [s5|] eqn:Efh; cbn [bind] in H; [|discriminate H].
    assert (FH : changes (file_keys_ptr p) fh_end (st_buf s4) (st_buf s5) /\
                 (hd_file_headers h = [] \/ (exists ws, file_key_words e h = Ok ws /\ words_at ws (file_keys_ptr p) (st_buf s5))
                                        /\ P_fh (st_buf s5))).
    { destruct (hd_file_headers h) as [|f0 fr] eqn:Ef.
      - inv_ok. split; [apply changes_refl|left; reflexivity].
      - rewrite st_jump_at in Efh by lia. cbn [bind] in Efh.
        rewrite write_file_keys_eq in Efh by (cbn [st_pos]; lia).
        destruct (file_key_words e h) as [wk|] eqn:Ek; cbn [bind] in Efh; [|discriminate Efh].
        destruct (file_key_words_len _ _ _ Ek) as [Wk Lk]. rewrite Ef in Lk. fold nfh in Lk.
        set (s6 := mk_st (st_buf s4) (4 * (file_keys_ptr p - 1))) in *.
        destruct (st_words_hook s6 wk (file_keys_ptr p) fk_end) as [Ck Pk]; [assumption|reflexivity|lia|unfold fk_end; lia|].
        change (st_buf s6) with (st_buf s4) in Ck.
        assert (Sk : stable (file_keys_ptr p) fk_end (words_at wk (file_keys_ptr p)))
          by (apply words_at_stable; [assumption|unfold fk_end; lia]).
        destruct Hfh as [_ HF].
        destruct (HF (st_write (concat wk) s6) s5) as [C2 P2]; [|unfold fk_end; lia|exact Efh|].
        { unfold st_write. cbn [st_pos s6]. rewrite word_list_concat by assumption. unfold fk_end. lia. }
        split.
        + eapply changes_trans; [eapply changes_mono; [exact Ck|lia|lia]|eapply changes_mono; [exact C2|unfold fk_end; lia|lia]].
        + right. split; [|exact P2]. exists wk. split; [reflexivity|].
          apply (stable_changes _ _ _ _ _ _ _ Sk C2); [lia|exact Pk]. }
    destruct FH as [Cf Pf]. clear Efh.
    assert (Efe : fh_end = file_keys_ptr p + (3 * nfh + (sum (map fh_length (hd_file_headers h)) + nfh)))
      by (unfold fh_end, fk_end; lia).
    assert (F0' := stable_changes _ _ _ _ _ _ _ S0 Cf ltac:(lia) F0). clear F0. rename F0' into F0.
    assert (Pr' := stable_changes _ _ _ _ _ _ _ Sr Cf ltac:(lia) Pr). clear Pr. rename Pr' into Pr.
    assert (Pc' := stable_changes _ _ _ _ _ _ _ Sc Cf ltac:(lia) Pc). clear Pc Cf. rename Pc' into Pc.
    assert (Sf : stable (file_keys_ptr p) fh_end (fun b => hd_file_headers h = [] \/
        (exists ws, file_key_words e h = Ok ws /\ words_at ws (file_keys_ptr p) b) /\ P_fh b)).
    { intros b1 b2 HB [HP|[(wk & HP1 & HP2) HP3]]; [left; exact HP|]. right.
      destruct (file_key_words_len _ _ _ HP1) as [Wk Lk]. fold nfh in Lk.
      split.
      - exists wk. split; [exact HP1|].
        apply (words_at_stable wk (file_keys_ptr p) fh_end) with (b := b1); [assumption|lia|exact HB|exact HP2].
      - destruct Hfh as [SF _]. apply (SF b1 b2); [|exact HP3]. intros q bs [I1 I2]. apply HB.
        assert (0 <= nfh) by apply Zlen_nonneg.
        unfold inside, fk_end in *. lia. }
    (* parts *)
    rewrite st_jump_at in H by lia. cbn [bind] in H.
    rewrite write_parts_eq in H by (cbn [st_pos]; lia).
    destruct (part_words e h) as [wp|] eqn:Ep; cbn [bind] in H; [|discriminate H].
    destruct Hok as (_ & _ & _ & Hwf).
    destruct (part_words_len _ _ _ Hwf Ep) as [Wp Lp]. fold npt in Lp.
    assert (Sp : stable (parts_ptr p) (data_block_ptr p) (words_at wp (parts_ptr p)))
      by (apply words_at_stable; [assumption|lia]).
    set (s7 := mk_st (st_buf s5) (4 * (parts_ptr p - 1))) in *.
    destruct (st_words_hook s7 wp (parts_ptr p) (data_block_ptr p)) as [Cp Pp]; [assumption|reflexivity|lia|lia|].
    change (st_buf s7) with (st_buf s5) in Cp.
    set (s8 := st_write (concat wp) s7) in *. clearbody s8. clear s7.
    assert (F0' := stable_changes _ _ _ _ _ _ _ S0 Cp ltac:(lia) F0). clear F0. rename F0' into F0.
    assert (Pr' := stable_changes _ _ _ _ _ _ _ Sr Cp ltac:(lia) Pr). clear Pr. rename Pr' into Pr.
    assert (Pc' := stable_changes _ _ _ _ _ _ _ Sc Cp ltac:(lia) Pc). clear Pc. rename Pc' into Pc.
    assert (Pf' := stable_changes _ _ _ _ _ _ _ Sf Cp ltac:(lia) Pf). clear Pf Cp. rename Pf' into Pf.
    (* row headers *)
    rewrite st_jump_at in H by lia. cbn [bind] in H.
    set (s9 := mk_st (st_buf s8) (4 * (row_headers_ptr p - 1))) in *.
    destruct (wrh s9) as [s10|] eqn:Erh; cbn [bind] in H; [|discriminate H].
    destruct Hrh as [Srh HRH]. destruct (HRH s9 s10 eq_refl ltac:(lia) Erh) as [Crh Prh].
    change (st_buf s9) with (st_buf s8) in Crh. clear Erh s9.
    assert (Erhe : rh_end = row_headers_ptr p + hd_rows h * (Zlen (hd_row_names h) + 1)) by reflexivity.
    clearbody rh_end.
    assert (F0' := stable_changes _ _ _ _ _ _ _ S0 Crh ltac:(lia) F0). clear F0. rename F0' into F0.
    assert (Pr' := stable_changes _ _ _ _ _ _ _ Sr Crh ltac:(lia) Pr). clear Pr. rename Pr' into Pr.
    assert (Pc' := stable_changes _ _ _ _ _ _ _ Sc Crh ltac:(lia) Pc). clear Pc. rename Pc' into Pc.
    assert (Pf' := stable_changes _ _ _ _ _ _ _ Sf Crh ltac:(lia) Pf). clear Pf. rename Pf' into Pf.
    assert (Pp' := stable_changes _ _ _ _ _ _ _ Sp Crh ltac:(lia) Pp). clear Pp Crh. rename Pp' into Pp.
    (* column headers *)
    rewrite st_jump_at in H by lia. cbn [bind] in H.
    set (s9 := mk_st (st_buf s10) (4 * (column_headers_ptr p - 1))) in *.
    destruct (wch s9) as [s11|] eqn:Ech; cbn [bind] in H; [|discriminate H].
    destruct Hch as [Sch HCH]. destruct (HCH s9 s11 eq_refl ltac:(lia) Ech) as [Cch Pch].
    change (st_buf s9) with (st_buf s10) in Cch. clear Ech s9.
    assert (Eche : ch_end = column_headers_ptr p + hd_columns h * (Zlen (hd_column_names h) + 1)) by reflexivity.
    clearbody ch_end.
    assert (F0' := stable_changes _ _ _ _ _ _ _ S0 Cch ltac:(lia) F0). clear F0. rename F0' into F0.
    assert (Pr' := stable_changes _ _ _ _ _ _ _ Sr Cch ltac:(lia) Pr). clear Pr. rename Pr' into Pr.
    assert (Pc' := stable_changes _ _ _ _ _ _ _ Sc Cch ltac:(lia) Pc). clear Pc. rename Pc' into Pc.
    assert (Pf' := stable_changes _ _ _ _ _ _ _ Sf Cch ltac:(lia) Pf). clear Pf. rename Pf' into Pf.
    assert (Pp' := stable_changes _ _ _ _ _ _ _ Sp Cch ltac:(lia) Pp). clear Pp. rename Pp' into Pp.
    assert (Prh' := stable_changes _ _ _ _ _ _ _ Srh Cch ltac:(lia) Prh). clear Prh Cch. rename Prh' into Prh.
    (* data *)
    rewrite st_jump_at in H by lia. cbn [bind] in H.
    set (s9 := mk_st (st_buf s11) (4 * (data_block_ptr p - 1))) in *.
    destruct (wd s9) as [[s12 nf]|] eqn:Ed; cbn [bind] in H; [|discriminate H].
    destruct (Hd s9 s12 nf eq_refl ltac:(lia) Ed) as (hi & Sd & Cd & Pd).
    change (st_buf s9) with (st_buf s11) in Cd. clear Ed s9.
    assert (F0' := stable_changes _ _ _ _ _ _ _ S0 Cd ltac:(lia) F0). clear F0. rename F0' into F0.
    assert (Pr' := stable_changes _ _ _ _ _ _ _ Sr Cd ltac:(lia) Pr). clear Pr. rename Pr' into Pr.
    assert (Pc' := stable_changes _ _ _ _ _ _ _ Sc Cd ltac:(lia) Pc). clear Pc. rename Pc' into Pc.
    assert (Pf' := stable_changes _ _ _ _ _ _ _ Sf Cd ltac:(lia) Pf). clear Pf. rename Pf' into Pf.
    assert (Pp' := stable_changes _ _ _ _ _ _ _ Sp Cd ltac:(lia) Pp). clear Pp. rename Pp' into Pp.
    assert (Prh' := stable_changes _ _ _ _ _ _ _ Srh Cd ltac:(lia) Prh). clear Prh. rename Prh' into Prh.
    assert (Pch' := stable_changes _ _ _ _ _ _ _ Sch Cd ltac:(lia) Pch). clear Pch Cd. rename Pch' into Pch.
    (* data management *)
    rewrite st_jump_at in H by (unfold data_mgmt_ptr; lia). cbn [bind] in H.
    unfold write_data_management, st_struct in H.
    destruct (struct_pack e data_mgmt_fmt _) as [mg|] eqn:Emg; cbn [bind] in H; [|discriminate H].
    pose proof (struct_pack_length _ _ _ _ Emg) as Lmg. rewrite calcsize_mgmt in Lmg.
    set (s9 := mk_st (st_buf s12) (4 * (data_mgmt_ptr - 1))) in *.
    assert (Cm : changes 129 257 (st_buf s12) (st_buf (st_write mg s9))).
    { apply (st_write_changes s9); [cbn; unfold data_mgmt_ptr; lia|]. unfold inside, Zlen. cbn [st_pos s9]. unfold data_mgmt_ptr. lia. }
    assert (Pm : has_at (st_buf (st_write mg s9)) (4 * (data_mgmt_ptr - 1)) mg).
    { apply (st_write_has s9); [cbn; unfold data_mgmt_ptr; lia|]. left. destruct mg; [discriminate Lmg|discriminate]. }
    apply (f_equal (fun r => match r with Ok x => fst x | Err _ => [] end)) in H. cbn [fst] in H. subst b.
    set (s13 := st_write mg s9) in *. clearbody s13. clear s9.
    assert (F0' := stable_changes _ _ _ _ _ _ _ S0 Cm ltac:(lia) F0). clear F0. rename F0' into F0.
    assert (Pr' := stable_changes _ _ _ _ _ _ _ Sr Cm ltac:(lia) Pr). clear Pr. rename Pr' into Pr.
    assert (Pc' := stable_changes _ _ _ _ _ _ _ Sc Cm ltac:(lia) Pc). clear Pc. rename Pc' into Pc.
    assert (Pf' := stable_changes _ _ _ _ _ _ _ Sf Cm ltac:(lia) Pf). clear Pf. rename Pf' into Pf.
    assert (Pp' := stable_changes _ _ _ _ _ _ _ Sp Cm ltac:(lia) Pp). clear Pp. rename Pp' into Pp.
    assert (Prh' := stable_changes _ _ _ _ _ _ _ Srh Cm ltac:(lia) Prh). clear Prh. rename Prh' into Prh.
    assert (Pch' := stable_changes _ _ _ _ _ _ _ Sch Cm ltac:(lia) Pch). clear Pch. rename Pch' into Pch.
    assert (Pd' := stable_changes _ _ _ _ _ _ _ Sd Cm ltac:(lia) Pd). clear Pd. rename Pd' into Pd.
    constructor; rewrite ?Eptr.
    - exists lb. split; [exact Elb|exact F0].
    - exists wr. split; [exact Er|exact Pr].
    - exists wc. split; [exact Ec|exact Pc].
    - destruct Pf as [Pf|[Pf _]]; [left|right]; exact Pf.
    - destruct Pf as [Pf|[_ Pf]]; [left|right]; exact Pf.
    - exists wp. split; [exact Ep|exact Pp].
    - exact Prh.
    - exact Pch.
    - exists nf, mg. split; [exact Pd|]. split; [exact Emg|exact Pm].
  Qed.
End ToGempak.
