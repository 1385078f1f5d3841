(** Properties C09, C10, C33 (opening files). *)
From Coq Require Import Lia ZifyBool ZifyNat Permutation.
From Verif Require Import Base BaseFacts Floats Structs Strings StringsFacts Dates SpecDates Words Headers HeadersFacts StreamFacts DmFile DmHookFacts
  Station StationRead SpecStation StationFacts StationCellFacts CallFacts RoundTripFacts FileFacts Props_Station.
Open Scope Z_scope.

(** ** C10 *)
Theorem C10_not_gempak : forall d, firstn 28 d <> GEMPAK_HEADER ->
  (exists x, open_gempak d = Err x) /\ (forall k, exists x, open_station k d = Err x).
Proof.
  intros d H. assert (X : exists x, open_gempak d = Err x).
  { unfold open_gempak. destruct (check_header d) as [[]|x] eqn:E; [apply check_header_iff in E; contradiction|]. exists x. reflexivity. }
  split; [exact X|]. destruct X as (x & X). intros k. exists x. unfold open_station. rewrite X. reflexivity.
Qed.
Print Assumptions C10_not_gempak.
(* one byte changed in a good file; an empty file *)
Example C10_example : (exists f, open_station KSounding (bytes_of_result (snd (save LE (ex_file KSounding ex_calls)))) = Ok f) /\
  firstn 28 (71 :: 70 :: skipn 2 (bytes_of_result (snd (save LE (ex_file KSounding ex_calls))))) <> GEMPAK_HEADER /\
  firstn 28 ([] : bytes) <> GEMPAK_HEADER.
Proof.
  split; [|split; [vm_compute; discriminate|discriminate]].
  exists (or_else no_file (open_station KSounding (bytes_of_result (snd (save LE (ex_file KSounding ex_calls)))))).
  vm_compute. reflexivity.
Qed.

(** ** C09 *)
(** The same contents written with either byte order are read alike; files of any origin are in Props_ByteOrder. *)
Theorem C09_written_stations : forall k params calls o0 o o1 o2 b1 b2,
  new_file k params false = Ok o0 -> add_all o0 calls = Ok o ->
  save LE o = (o1, Ok b1) -> save BE o = (o2, Ok b2) ->
  Forall (call_ok k) calls -> names_ok k (param_names params) ->
  exists f1 f2 ls recs, open_station k b1 = Ok f1 /\ open_station k b2 = Ok f2 /\
    gf_endian (rf_file f1) = LE /\ gf_endian (rf_file f2) = BE /\
    info f1 = Ok ls /\ info f2 = Ok ls /\
    unpack f1 (map (fun l => (ls_row l, ls_col l)) ls) = Ok recs /\ unpack f2 (map (fun l => (ls_row l, ls_col l)) ls) = Ok recs /\
    length recs = length (keep_last (same_entry k) calls).
Proof.
  intros k params calls o0 o o1 o2 b1 b2 H0 HA S1 S2 HC HN.
  destruct (round_trip_exact k LE params calls o0 o o1 b1 H0 HA S1 HC HN) as (f1 & A1 & AE & A2 & A3 & A4 & A5).
  destruct (round_trip_exact k BE params calls o0 o o2 b2 H0 HA S2 HC HN) as (f2 & B1 & BE' & B2 & B3 & B4 & _).
  exists f1, f2, (listings k o), (records k params o).
  split; [exact A1|]. split; [exact B1|].
  split; [exact AE|]. split; [exact BE'|].
  split; [exact A2|]. split; [exact B2|]. split; [exact A3|]. split; [exact B3|].
  apply Permutation_length in A5. rewrite !map_length, combine_length, A4, Nat.min_id in A5. rewrite A4. exact A5.
Qed.
Print Assumptions C09_written_stations.
Example C09_example : exists o0 o o1 o2 b1 b2,
  new_file KSurface ex_params false = Ok o0 /\ add_all o0 (map ex_one ex_calls) = Ok o /\
  save LE o = (o1, Ok b1) /\ save BE o = (o2, Ok b2) /\ b1 <> b2 /\
  Forall (call_ok KSurface) (map ex_one ex_calls) /\ names_ok KSurface (param_names ex_params).
Proof.
  destruct C05_example as (o0 & o & o' & b & H1 & H2 & H3 & H4 & H5 & _).
  assert (E : o = ex_file KSurface (map ex_one ex_calls)).
  { assert (X : add_all o0 (map ex_one ex_calls) = Ok (ex_file KSurface (map ex_one ex_calls))).
    { apply ok_inj in H1. subst o0. vm_compute. reflexivity. }
    rewrite X in H2. apply ok_inj in H2. symmetry. exact H2. }
  exists o0, o, o', (fst (save BE o)), b, (bytes_of_result (snd (save BE o))).
  split; [exact H1|]. split; [exact H2|]. split; [exact H3|]. clear H2. split; [subst o; vm_compute; reflexivity|].
  split; [|split; assumption].
  assert (EB : b = bytes_of_result (snd (save LE (ex_file KSurface (map ex_one ex_calls))))) by (rewrite <- E, H3; reflexivity).
  intros HB. rewrite EB, E in HB. apply (f_equal (fun l => nth 28 l 0)) in HB. vm_compute in HB. discriminate HB.
Qed.

(** ** C33 *)
(** Slot [i] of a header block of [keys] fields per header starts with its flag at this word. *)
Definition slot_word (ptr : Z) (keys : list str) (i : Z) : Z := ptr + i * (Zlen keys + 1).
Definition word_at (g : gfile) (w : Z) : Z := rd_uint (gf_endian g) (gf_data g) (word_to_position w).
Definition slot_header (g : gfile) (hk : hkind) (keys : list str) (ptr i : Z) : res header :=
  read_header (gf_endian g) hk keys (gf_data g) (word_to_position (slot_word ptr keys i + 1)).
(** The used slots come first and hold [hs]; no word of the other slots is 9999. *)
Definition used_first (g : gfile) (hk : hkind) (keys : list str) (n ptr : Z) (hs : list header) : Prop :=
  Zlen hs <= n /\
  (forall i h, nth_error hs i = Some h ->
     word_at g (slot_word ptr keys (Z.of_nat i)) = 9999 /\ slot_header g hk keys ptr (Z.of_nat i) = Ok h) /\
  (forall w, slot_word ptr keys (Zlen hs) <= w < slot_word ptr keys n -> word_at g w <> 9999).
Lemma key_fmt_size hk keys : Z.of_nat (calcsize (map (key_fmt hk) keys)) = 4 * Zlen keys.
Proof.
  unfold Zlen. induction keys as [|k keys IH]; [reflexivity|]. cbn [map calcsize length].
  assert (S4 : fmtc_size (key_fmt hk k) = 4%nat) by (unfold key_fmt; destruct hk; [reflexivity| |]; destruct (is_text_key k); reflexivity).
  rewrite S4. lia.
Qed.
Lemma used_first_read g hk keys n ptr hs : used_first g hk keys n ptr hs -> read_header_block g hk keys n ptr = Ok hs.
Proof.
  intros (L & HU & HN). unfold read_header_block.
  replace (Z.to_nat n) with (length hs + (Z.to_nat n - length hs))%nat by (unfold Zlen in L; lia).
  unfold slot_header, word_at, slot_word, word_to_position in *.
  apply read_headers_used; rewrite key_fmt_size.
  - intros i h Hi. destruct (HU i h Hi) as [H1 H2]. change USED_FLAG with 9999. split.
    + rewrite <- H1. f_equal. lia.
    + rewrite <- H2. f_equal. lia.
  - intros i Hi. change USED_FLAG with 9999. specialize (HN (ptr + Zlen hs * (Zlen keys + 1) + i)).
    assert (B : ptr + Zlen hs * (Zlen keys + 1) <= ptr + Zlen hs * (Zlen keys + 1) + i < ptr + n * (Zlen keys + 1)).
    { pose proof (Zlen_nonneg keys) as K. assert (R : 0 <= i < n - Zlen hs) by (unfold Zlen in *; lia).
      clear - K R. nia. }
    specialize (HN B). intros E. apply HN. rewrite <- E. f_equal. lia.
Qed.
(** Files whose unused slots come last are read correctly: header [i] is that of slot [i], and its
    data pointers are those of slot [i].  Missing for the full claim: unused slots before used
    ones, where it is false. *)
Theorem C33_unused_slots_partial : forall k d g rows cols ty,
  open_gempak d = Ok g ->
  used_first g (match k with KSounding => SndRow | KSurface => SfcHead end) (gf_row_keys g)
    (lb_rows (gf_label g)) (lb_row_headers_ptr (gf_label g)) rows ->
  used_first g (match k with KSounding => SndCol | KSurface => SfcHead end) (gf_column_keys g)
    (lb_columns (gf_label g)) (lb_column_headers_ptr (gf_label g)) cols ->
  match k with KSounding => Ok Sounding | KSurface => surface_type g rows end = Ok ty ->
  exists f, open_station k d = Ok f /\ rf_rows f = rows /\ rf_cols f = cols /\
    (forall i j q, data_ptr f i j q = word_at g (lb_data_block_ptr (gf_label g) + (i * lb_columns (gf_label g) + j) * lb_parts (gf_label g) + q)).
Proof.
  intros k d g rows cols ty HO HR HC HT. unfold open_station. rewrite HO. cbn [bind].
  rewrite (used_first_read _ _ _ _ _ _ HR). cbn [bind]. rewrite (used_first_read _ _ _ _ _ _ HC). cbn [bind].
  rewrite HT. cbn [bind]. eexists. split; [reflexivity|]. split; [reflexivity|]. split; [reflexivity|].
  intros i j q. unfold data_ptr, pointer_word, word_at. cbn [rf_file]. do 2 f_equal. lia.
Qed.
Print Assumptions C33_unused_slots_partial.

(** The sample file with some words overwritten by -9999. *)
Definition set_words (d : bytes) (w : Z) (l : bytes) : bytes := overwrite d (Z.to_nat (word_to_position w)) l.
Definition sample : bytes := bytes_of_result (snd (save LE (ex_file KSounding ex_calls))).
Definition col_ptr : Z := lb_column_headers_ptr (gf_label (rf_file (or_else no_file (open_station KSounding sample)))).
Definition unused_bytes (words : nat) : bytes := concat (repeat (le_enc 4 (missing_int mod two32)) words).
Definition second_unused : bytes := set_words sample (col_ptr + 9) (unused_bytes 9).
Definition first_unused : bytes := set_words sample col_ptr (unused_bytes 9).
Definition g_second : gfile := or_else (rf_file no_file) (open_gempak second_unused).
Definition f_second : rfile := or_else no_file (open_station KSounding second_unused).
Lemma nth_two {A} (l : list A) x y i z : l = [x; y] -> nth_error l i = Some z -> (i = 0%nat /\ z = x) \/ (i = 1%nat /\ z = y).
Proof. intros -> H. destruct i as [|[|i]]; cbn in H; [left|right|destruct i; discriminate H]; injection H as <-; auto. Qed.
Definition words_ok (g : gfile) (a b : Z) : bool := forallb (fun i => negb (word_at g (a + i) =? 9999)) (zrange (b - a)).
Lemma words_ok_spec g a b : words_ok g a b = true -> forall w, a <= w < b -> word_at g w <> 9999.
Proof.
  unfold words_ok. rewrite forallb_forall. intros H w Hw. specialize (H (w - a)). rewrite zrange_in in H. specialize (H ltac:(lia)).
  replace (a + (w - a)) with w in H by lia. lia.
Qed.
Definition used_firstb (g : gfile) (hk : hkind) (keys : list str) (n ptr : Z) (hs : list header) : bool :=
  (Zlen hs <=? n) && words_ok g (slot_word ptr keys (Zlen hs)) (slot_word ptr keys n) &&
  forallb (fun i => word_at g (slot_word ptr keys i) =? 9999) (zrange (Zlen hs)).
Lemma used_firstb_spec g hk keys n ptr hs : used_firstb g hk keys n ptr hs = true ->
  mapM (slot_header g hk keys ptr) (zrange (Zlen hs)) = Ok hs -> used_first g hk keys n ptr hs.
Proof.
  unfold used_firstb. intros H HM. apply andb_prop in H as [H H3]. apply andb_prop in H as [H1 H2].
  split; [lia|]. split; [|apply words_ok_spec; exact H2]. intros i h Hi.
  assert (HL : (i < length hs)%nat) by (apply nth_error_Some; congruence).
  split.
  - rewrite forallb_forall in H3. specialize (H3 (Z.of_nat i)). rewrite zrange_in in H3. unfold Zlen in H3. specialize (H3 ltac:(lia)). lia.
  - assert (HZ : nth_error (zrange (Zlen hs)) i = Some (Z.of_nat i)) by (apply zrange_nth; unfold Zlen; lia).
    revert HM HZ Hi. generalize (zrange (Zlen hs)) as l. clear. generalize (Z.of_nat i) as z. intros z l. revert i hs. induction l as [|x l IH]; intros i hs HM HZ Hi; [destruct i; discriminate HZ|].
    cbn [mapM] in HM. specialize (fun hs i H => IH i hs H). destruct (slot_header g hk keys ptr x) as [y|] eqn:E; cbn [bind] in HM; [|discriminate HM].
    destruct (mapM _ l) as [ys|] eqn:EM; cbn [bind] in HM; [|discriminate HM]. apply ok_inj in HM. subst hs.
    destruct i as [|i]; cbn in HZ, Hi.
    + injection HZ as ->. injection Hi as ->. exact E.
    + exact (IH ys i eq_refl HZ Hi).
Qed.
Example C33_example : exists rows cols, open_gempak second_unused = Ok g_second /\ length rows = 2%nat /\ length cols = 1%nat /\
  lb_columns (gf_label g_second) = 2 /\
  used_first g_second SndRow (gf_row_keys g_second) (lb_rows (gf_label g_second)) (lb_row_headers_ptr (gf_label g_second)) rows /\
  used_first g_second SndCol (gf_column_keys g_second) (lb_columns (gf_label g_second)) (lb_column_headers_ptr (gf_label g_second)) cols.
Proof.
  exists (rf_rows f_second), (rf_cols f_second). split; [vm_compute; reflexivity|]. split; [vm_compute; reflexivity|]. split; [vm_compute; reflexivity|].
  split; [vm_compute; reflexivity|].
  split; apply used_firstb_spec; vm_compute; reflexivity.
Qed.

(** With the first of two columns marked unused, the second one, still marked used, is lost with
    its data. *)
Theorem C33_unused_slots_refuted : exists d g f c, open_gempak d = Ok g /\ lb_columns (gf_label g) = 2 /\
  word_at g (slot_word (lb_column_headers_ptr (gf_label g)) (gf_column_keys g) 1) = 9999 /\
  slot_header g SndCol (gf_column_keys g) (lb_column_headers_ptr (gf_label g)) 1 = Ok c /\
  open_station KSounding d = Ok f /\ rf_cols f = [] /\ info f = Ok [].
Proof.
  exists first_unused, (or_else (rf_file no_file) (open_gempak first_unused)), (or_else no_file (open_station KSounding first_unused)),
    (nth 1 (rf_cols (or_else no_file (open_station KSounding sample))) []).
  do 6 (split; [vm_compute; reflexivity|]). vm_compute. reflexivity.
Qed.
Print Assumptions C33_unused_slots_refuted.
