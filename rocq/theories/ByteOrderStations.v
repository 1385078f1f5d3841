(** Sounding and surface files in either byte order (C09). *)
From Coq Require Import ZArith QArith List Lia ZifyBool ZifyNat.
From Verif Require Import Base BaseFacts Words Floats Structs StructsFacts Strings StringsFacts Headers DmFile Real Station StationRead Unmerged Query SnOut SpecByteOrder ByteOrderFacts ByteOrderOpen.
Import ListNotations.
Open Scope Z_scope.
Ltac Zify.zify_post_hook ::= Z.to_euclidean_division_equations.

(** ** Key names *)
Lemma lstrip_suffix s : exists p, s = p ++ lstrip s.
Proof. induction s as [|c s [p IH]]; [exists []; reflexivity|]. cbn [lstrip]. destruct (is_space c); [exists (c :: p); cbn; f_equal; exact IH|exists []; reflexivity]. Qed.
Lemma lstrip_full s : length (lstrip s) = length s -> lstrip s = s.
Proof. intros H. destruct (lstrip_suffix s) as [p E]. rewrite E in H at 2. rewrite app_length in H. destruct p; [symmetry; exact E|cbn in H; lia]. Qed.
Lemma lstrip_le s : (length (lstrip s) <= length s)%nat.
Proof. destruct (lstrip_suffix s) as [p E]. rewrite E at 2. rewrite app_length. lia. Qed.
Lemma strip_full s : length (strip s) = length s -> strip s = s.
Proof.
  unfold strip, rstrip. intros H. rewrite rev_length in H. pose proof (lstrip_le (rev (lstrip s))). pose proof (lstrip_le s). rewrite rev_length in *.
  rewrite (lstrip_full (rev (lstrip s))) by (rewrite rev_length; lia). rewrite rev_involutive. apply lstrip_full. lia.
Qed.
Lemma key_bytes b k : length b = 4%nat -> decode_strip b = Ok k -> length k = 4%nat -> b = k.
Proof.
  unfold decode_strip, bytes_str. destruct (is_ascii b); [|discriminate]. cbn [bind]. intros L [= <-] K. symmetry. apply strip_full. lia.
Qed.
Lemma text_key b k : length b = 4%nat -> decode_strip b = Ok k -> is_text_key k = true <-> In b station_texts.
Proof.
  intros L D. split.
  - unfold is_text_key. intros H. assert (K : k = k_STID \/ k = k_STAT \/ k = k_COUN \/ k = k_STD2).
    { repeat (apply orb_true_iff in H as [H|H]); destruct (str_eqb_spec k k_STID), (str_eqb_spec k k_STAT), (str_eqb_spec k k_COUN), (str_eqb_spec k k_STD2); auto; discriminate. }
    assert (K4 : length k = 4%nat) by (destruct K as [-> |[-> |[-> | ->]]]; reflexivity). rewrite (key_bytes b k L D K4).
    destruct K as [-> |[-> |[-> | ->]]]; cbn; auto.
  - cbn [In station_texts]. intros [<-|[<-|[<-|[<-|[]]]]]; cbn in D; injection D as <-; reflexivity.
Qed.

Section Headers.
Variable F : list word.
Hypothesis S : Forall sound_word F.

Lemma keyed_fits (f : str -> fmtc) : forall ks i,
  (forall j k, nth_error ks j = Some k -> (f k = FStr 4 /\ texts F (i + Z.of_nat j) 1) \/ (f k = FInt /\ numbers F (i + Z.of_nat j) 1)) ->
  fits F (i * 4 - 4) (map f ks) /\ calcsize (map f ks) = (4 * length ks)%nat.
Proof.
  induction ks as [|k ks IH]; intros i H; [split; [exact I|reflexivity]|]. cbn [map length].
  destruct (IH (i + 1)) as [G C].
  { intros j k' J. specialize (H (Datatypes.S j) k' J). replace (i + Z.of_nat (Datatypes.S j)) with (i + 1 + Z.of_nat j) in H by lia. exact H. }
  destruct (H 0%nat k eq_refl) as [[E T]|[E N]]; rewrite E; cbn [fits calcsize fmtc_size]; rewrite C; (split; [|lia]); replace (i + Z.of_nat 0) with i in * by lia.
  - split; [exact (text_words F i 1 T)|]. replace (i * 4 - 4 + Z.of_nat 4) with ((i + 1) * 4 - 4) by lia. exact G.
  - split; [lia|]. split; [apply (numbers_part _ _ _ _ _ N); lia|]. replace (i * 4 - 4 + 4) with ((i + 1) * 4 - 4) by lia. exact G.
Qed.
Lemma header_fits (f : str -> fmtc) texty keys n ks i : keys_are F keys n ks -> header F texty keys n i ->
  (forall b k, length b = 4%nat -> decode_strip b = Ok k -> (In b texty -> f k = FStr 4) /\ (~ In b texty -> f k = FInt)) ->
  fits F (i * 4 - 4) (map f ks).
Proof.
  intros [L K] H C. apply keyed_fits. intros j k J. destruct (K j k J) as (b & A & B & D). destruct (C b k B D) as [C1 C2].
  assert (JN : (j < Z.to_nat n)%nat) by (rewrite <- L; apply nth_error_Some; rewrite J; discriminate).
  destruct (H (Z.of_nat j) b ltac:(lia) A) as [HT HN]. destruct (in_dec (list_eq_dec Z.eq_dec) b texty); [left|right]; auto.
Qed.
Lemma sized_headers (f : str -> fmtc) ks : (forall k, f k = FStr 4 \/ f k = FInt) -> calcsize (map f ks) = (4 * length ks)%nat.
Proof. intros H. induction ks as [|k ks IH]; [reflexivity|]. cbn [map calcsize length]. rewrite IH. destruct (H k) as [-> | ->]; cbn [fmtc_size]; lia. Qed.

Lemma read_headers_same {H} e (rd : endian -> bytes -> Z -> res H) n i total : 0 <= n -> 1 <= i ->
  (forall s, 0 <= s < total -> let w := i + s * (n + 1) in
     (at_word F w = Some (Num 9999) /\ rd e (image e F) (word_to_position (w + 1)) = rd LE (image LE F) (word_to_position (w + 1))) \/
     (forall j, 0 <= j <= n -> no_flag (at_word F (w + j)))) ->
  forall k s o, 0 <= s -> s + Z.of_nat k <= total ->
  o = 0 \/ (0 < o <= n /\ forall j, 0 <= j <= n -> no_flag (at_word F (i + s * (n + 1) + j))) ->
  read_headers e (rd e (image e F)) (4 * n) (image e F) k (word_to_position (i + s * (n + 1) + o)) =
  read_headers LE (rd LE (image LE F)) (4 * n) (image LE F) k (word_to_position (i + s * (n + 1) + o)).
Proof.
  intros N I A. induction k as [|k IH]; intros s o SP T OO; [reflexivity|]. cbn [read_headers]. unfold USED_FLAG.
  assert (SK : 0 <= s * (n + 1)) by nia.
  assert (SKIP : 0 <= o <= n -> (forall j, 0 <= j <= n -> no_flag (at_word F (i + s * (n + 1) + j))) ->
    read_headers e (rd e (image e F)) (4 * n) (image e F) k (word_to_position (i + s * (n + 1) + o) + 4) =
    read_headers LE (rd LE (image LE F)) (4 * n) (image LE F) k (word_to_position (i + s * (n + 1) + o) + 4)).
  { intros OR U. replace (word_to_position (i + s * (n + 1) + o) + 4) with (word_to_position (i + s * (n + 1) + (o + 1))) by (unfold word_to_position; lia).
    destruct (Z.eq_dec o n) as [-> |NE].
    - replace (i + s * (n + 1) + (n + 1)) with (i + (s + 1) * (n + 1) + 0) by lia. apply IH; [lia|lia|left; reflexivity].
    - apply IH; [lia|lia|right]. split; [lia|exact U]. }
  assert (GO : 0 <= o <= n -> (forall j, 0 <= j <= n -> no_flag (at_word F (i + s * (n + 1) + j))) ->
    forall e', (rd_uint e' (image e' F) (word_to_position (i + s * (n + 1) + o)) =? 9999) = false).
  { intros OR U e'. apply Z.eqb_neq. apply uint_other; [exact S|lia|apply U; exact OR]. }
  destruct OO as [-> |[OR U]]; [|rewrite (GO ltac:(lia) U e), (GO ltac:(lia) U LE); apply SKIP; [lia|exact U]].
  destruct (A s ltac:(lia)) as [[AN AR]|U]; [|rewrite (GO ltac:(lia) U e), (GO ltac:(lia) U LE); apply SKIP; [lia|exact U]].
  replace (i + s * (n + 1) + 0) with (i + s * (n + 1)) by lia. set (w := i + s * (n + 1)) in *.
  assert (NW : numbers F w 1) by (split; [lia|]; intros j b J; replace j with w by lia; rewrite AN; discriminate).
  rewrite !uint_view by auto. unfold unsigned. rewrite AN. rewrite Z.eqb_refl.
  replace (word_to_position w + 4 + 4 * n) with (word_to_position (i + (s + 1) * (n + 1) + 0)) by (unfold word_to_position, w; lia).
  replace (word_to_position w + 4) with (word_to_position (w + 1)) by (unfold word_to_position; lia). rewrite AR.
  rewrite (IH (s + 1) 0); [reflexivity|lia|lia|left; reflexivity].
Qed.
Lemma read_headers_length {H} e (rd : Z -> res H) size d : forall slots p l, read_headers e rd size d slots p = Ok l -> (length l <= slots)%nat.
Proof.
  induction slots as [|k IH]; intros p l; cbn [read_headers]; [intros [= <-]; cbn; lia|].
  destruct (_ =? _).
  - destruct (rd _); [|discriminate]. cbn [bind]. destruct (read_headers _ _ _ _ _ _) as [r|] eqn:E; [|discriminate]. intros [= <-]. cbn. apply IH in E. lia.
  - intros E. apply IH in E. lia.
Qed.
Lemma block_same {H} e (rd : endian -> bytes -> Z -> res H) (holds : Z -> Prop) slots n i :
  (forall w, 1 <= w -> holds w -> rd e (image e F) (word_to_position w) = rd LE (image LE F) (word_to_position w)) ->
  headers F holds slots n i ->
  read_headers e (rd e (image e F)) (4 * Z.max 0 n) (image e F) (Z.to_nat slots) (word_to_position i) =
  read_headers LE (rd LE (image LE F)) (4 * Z.max 0 n) (image LE F) (Z.to_nat slots) (word_to_position i).
Proof.
  intros R (I & A). replace i with (i + 0 * (Z.max 0 n + 1) + 0) by lia.
  apply (read_headers_same e rd (Z.max 0 n) i (Z.max 0 slots)); [lia|lia| |lia|lia|left; reflexivity].
  intros s Hs w. destruct (A s ltac:(lia)) as [[AN AH]|U]; [left|right; exact U]. split; [exact AN|]. apply R; [unfold w; nia|exact AH].
Qed.
End Headers.

(** ** Station files *)
Section Stations.
Variable F : list word.
Hypothesis S : Forall sound_word F.
Definition row_texts (k : kind) : list bytes := match k with KSounding => [] | KSurface => station_texts end.
Definition rtwin (e : endian) (f : rfile) : rfile := mk_rf (twin F e (rf_file f)) (rf_type f) (rf_rows f) (rf_cols f).
Record opened_st (f : rfile) : Prop := {
  os_file : opened F (rf_file f); os_rows : Zlen (rf_rows f) <= Z.max 0 (n_rows F); os_cols : Zlen (rf_cols f) <= Z.max 0 (n_columns F);
  os_ship : rf_type f = Ship -> 1 <= n_rows F }.

Lemma header_same e hk ks p : 0 <= p -> fits F p (map (key_fmt hk) ks) -> read_header e hk ks (image e F) p = read_header LE hk ks (image LE F) p.
Proof. intros P H. unfold read_header. rewrite (struct_same F S e) by auto. reflexivity. Qed.
Lemma key_fmt_two hk k : key_fmt hk k = FStr 4 \/ key_fmt hk k = FInt.
Proof. destruct hk; cbn; auto; destruct (is_text_key k); auto. Qed.
Lemma head_block_same e hk texty slots keys n i ks g : gf_data g = image LE F -> gf_endian g = LE ->
  (forall b k, length b = 4%nat -> decode_strip b = Ok k -> (In b texty -> key_fmt hk k = FStr 4) /\ (~ In b texty -> key_fmt hk k = FInt)) ->
  keys_are F keys n ks -> headers F (header F texty keys n) slots n i ->
  read_header_block (twin F e g) hk ks slots i = read_header_block g hk ks slots i.
Proof.
  intros D E C K H. unfold read_header_block. rewrite D, E. cbn [twin gf_data gf_endian]. rewrite (sized_headers (key_fmt hk)) by apply key_fmt_two.
  rewrite (proj1 K). replace (Z.of_nat (4 * Z.to_nat n)) with (4 * Z.max 0 n) by lia.
  apply (block_same F S e (fun e d p => read_header e hk ks d p) (header F texty keys n) slots n i); auto.
  intros w W HW. apply header_same; [unfold word_to_position; lia|]. exact (header_fits F (key_fmt hk) texty keys n ks w K HW C).
Qed.
Lemma fmt_text hk b k : hk <> SndRow -> length b = 4%nat -> decode_strip b = Ok k ->
  (In b station_texts -> key_fmt hk k = FStr 4) /\ (~ In b station_texts -> key_fmt hk k = FInt).
Proof.
  intros N L D. pose proof (text_key b k L D) as T. destruct hk; [congruence|cbn [key_fmt]..]; destruct (is_text_key k); split; intros H; try reflexivity; exfalso; try (apply H, T; reflexivity);
    apply T in H; discriminate.
Qed.
Lemma fmt_int b k : length b = 4%nat -> decode_strip b = Ok k -> (In b [] -> key_fmt SndRow k = FStr 4) /\ (~ In b [] -> key_fmt SndRow k = FInt).
Proof. intros _ _. split; [intros []|reflexivity]. Qed.
Lemma open_station_same e k : station_file F (row_texts k) ->
  open_station k (image e F) = (f <- open_station k (image LE F) ;; Ok (rtwin e f)) /\ forall f, open_station k (image LE F) = Ok f -> opened_st f.
Proof.
  intros (B & R & C & _). unfold open_station. destruct (open_same F S e B) as [E O]. rewrite E. clear E.
  destruct (open_gempak (image LE F)) as [g|x]; [|split; [reflexivity|discriminate]]. cbn [bind]. specialize (O g eq_refl). pose proof O as [D E L RK CK P].
  cbn [twin gf_label gf_row_keys gf_column_keys].
  rewrite (li_rows F _ L), (li_rh F _ L), (li_cols F _ L), (li_ch F _ L).
  rewrite (head_block_same e _ (row_texts k) _ (row_keys F) (n_row_keys F) _ _ g D E); [| |exact RK|exact R].
  2: { destruct k; [exact fmt_int|]. intros b x. apply fmt_text. discriminate. }
  destruct (read_header_block g _ (gf_row_keys g) _ _) as [rows|x] eqn:ER; [|split; [reflexivity|discriminate]]. cbn [bind].
  rewrite (head_block_same e _ station_texts _ (column_keys F) (n_column_keys F) _ _ g D E); [| |exact CK|exact C].
  2: { intros b x. apply fmt_text. destruct k; discriminate. }
  destruct (read_header_block g _ (gf_column_keys g) _ _) as [cols|x] eqn:EC; [|split; [reflexivity|discriminate]]. cbn [bind].
  unfold read_header_block in ER, EC. apply read_headers_length in ER, EC.
  assert (ST : surface_type (twin F e g) rows = surface_type g rows) by reflexivity.
  destruct k; [split; [reflexivity|]|rewrite ST; destruct (surface_type g rows) as [ty|x] eqn:ET; [split; [reflexivity|]|split; [reflexivity|discriminate]]].
  - intros f [= <-]. constructor; cbn [rf_file rf_rows rf_cols rf_type]; auto; [unfold Zlen; lia..|discriminate].
  - intros f [= <-]. constructor; cbn [rf_file rf_rows rf_cols rf_type]; auto; [unfold Zlen; lia..|]. intros ->. unfold surface_type in ET.
    destruct (length rows =? 1)%nat eqn:LR; [|cbn [andb] in ET; destruct (_ && _); [discriminate|]; destruct (_ && _); discriminate]. lia.
Qed.

(** ** What an opened file gives *)
Variable e : endian.
Variable f : rfile.
Variable rt : list bytes.
Hypothesis O : opened_st f.
Hypothesis SF : station_file F rt.
Let g := rtwin e f.

Lemma parts_positive : 1 <= n_parts F.
Proof. exact (proj1 (od_parts _ _ (os_file _ O))). Qed.
Lemma parts_Zlen : Zlen (gf_parts (rf_file f)) = n_parts F.
Proof. pose proof (od_parts _ _ (os_file _ O)) as (P & L & _). unfold Zlen. rewrite L. lia. Qed.
Definition in_range (rc : Z * Z) : Prop := 0 <= fst rc < n_rows F /\ 0 <= snd rc < n_columns F.
Lemma ptr_is e' r c p : in_range (r, c) -> 0 <= p < n_parts F -> data_ptr (rtwin e' f) r c p = pointer F r c p.
Proof.
  intros [R C] P. cbn [fst snd] in *. destruct SF as (_ & _ & _ & T). destruct (T r c p R C P) as [N _]. pose proof (os_file _ O) as OF. pose proof (od_label _ _ OF) as L.
  unfold data_ptr, pointer_word, pointer. cbn [rtwin rf_file twin gf_endian gf_data gf_label]. rewrite (li_db _ _ L), (li_cols _ _ L), (li_parts _ _ L).
  replace (pointers F + r * n_columns F * n_parts F + (c * n_parts F + p)) with (pointers F + r * n_columns F * n_parts F + c * n_parts F + p) by lia.
  apply (uint_view e' F); auto.
Qed.
Lemma self : rtwin LE f = f.
Proof.
  pose proof (os_file _ O) as OF. pose proof (od_data _ _ OF) as D. pose proof (od_endian _ _ OF) as E. unfold rtwin, twin. rewrite <- D, <- E.
  destruct f as [[] ? ? ?]. reflexivity.
Qed.
Lemma ptr_same r c p : in_range (r, c) -> 0 <= p < n_parts F -> data_ptr g r c p = data_ptr f r c p.
Proof. intros R P. transitivity (data_ptr (rtwin LE f) r c p); [unfold g; rewrite !ptr_is by auto; reflexivity|rewrite self; reflexivity]. Qed.
Lemma cells_range rc : In rc (cells f) -> in_range rc.
Proof.
  unfold cells. pose proof (os_rows _ O). pose proof (os_cols _ O). pose proof (os_ship _ O) as SH. destruct (rf_type f).
  1,2,4: destruct rc as [r c]; rewrite in_prod_iff; intros [A B]; apply zrange_in in A, B; split; cbn [fst snd]; lia.
  rewrite in_map_iff. intros (c & <- & B). apply zrange_in in B. specialize (SH eq_refl). split; cbn [fst snd]; lia.
Qed.
Lemma present_same rc : In rc (cells f) -> present g (fst rc) (snd rc) = present f (fst rc) (snd rc).
Proof.
  intros H. apply cells_range in H. destruct rc as [r c]. cbn [fst snd]. pose proof parts_positive. unfold present. change (rf_type g) with (rf_type f).
  change (gf_parts (rf_file g)) with (gf_parts (rf_file f)). rewrite parts_Zlen.
  assert (X : existsb (fun i => negb (data_ptr g r c i =? 0)) (zrange (n_parts F)) = existsb (fun i => negb (data_ptr f r c i =? 0)) (zrange (n_parts F))).
  { assert (Y : forall i, In i (zrange (n_parts F)) -> data_ptr g r c i = data_ptr f r c i) by (intros i I; apply ptr_same; [exact H|apply zrange_in, I]).
    induction (zrange (n_parts F)) as [|i l IH]; [reflexivity|]. cbn [existsb]. rewrite Y by (left; reflexivity). rewrite IH by (intros j J; apply Y; right; exact J). reflexivity. }
  rewrite X. destruct (rf_type f); [rewrite ptr_same by (auto; lia); reflexivity|reflexivity..].
Qed.
Lemma info_same : info g = info f.
Proof.
  unfold info. change (cells g) with (cells f). f_equal. apply filter_ext_in. intros [r c] H. exact (present_same _ H).
Qed.
Lemma info_range l : info f = Ok l -> forall x, In x l -> in_range (ls_row x, ls_col x).
Proof.
  unfold info. intros M x I. apply mapM_ok_Forall2 in M. apply In_nth_error in I as [j J]. destruct (Forall2_nth _ _ _ _ _ M J) as ([r c] & A & B).
  apply nth_error_In in A. apply filter_In in A as [A _]. apply cells_range in A.
  assert (E : ls_row x = r /\ ls_col x = c).
  { unfold listing_of in B. repeat match type of B with context [bind ?m _] => destruct m; [cbn [bind] in B|discriminate] end. injection B as <-. split; reflexivity. }
  destruct E as [-> ->]. exact A.
Qed.

(** ** Data *)
Lemma array_same c w n : c = FInt \/ c = FFloat -> numbers F w n -> rd_array e c n (image e F) (word_to_position w) = rd_array LE c n (image LE F) (word_to_position w).
Proof.
  intros C N. unfold rd_array. destruct (n <? 0); [reflexivity|]. apply (struct_same F S e); [pose proof (proj1 N); unfold word_to_position; lia|exact (fits_num F w c n C N)].
Qed.
Lemma chars_same w n : texts F w n ->
  rd_struct e [FStr (Z.to_nat (n * 4))] (image e F) (word_to_position w) = rd_struct LE [FStr (Z.to_nat (n * 4))] (image LE F) (word_to_position w).
Proof.
  intros T. apply (struct_same F S e); [pose proof (proj1 T); unfold word_to_position; lia|]. split; [|exact Logic.I].
  intros q z Q. apply (text_words F w n T). unfold word_to_position in Q. lia.
Qed.
(** where the data of a part begin: right behind its header, or behind the end of the file *)
Lemma data_start e' p h : 1 <= p -> 0 <= h ->
  exists w, rd_next (image e' F) (word_to_position p) + word_to_position (h + 1) = word_to_position w /\
            (w = p + 1 + h \/ (Zlen F < w /\ unsigned F p = 0 /\ w = p + h)).
Proof.
  intros P H. rewrite next_view by auto. destruct (Z.leb_spec p (Zlen F)).
  - exists (p + 1 + h). split; [unfold word_to_position; lia|left; reflexivity].
  - exists (p + h). split; [unfold word_to_position; lia|]. right. split; [lia|]. split; [|reflexivity].
    unfold unsigned, at_word. destruct (p <? 1); [reflexivity|]. replace (nth_error F (Z.to_nat (p - 1))) with (@None word); [reflexivity|].
    symmetry. apply nth_error_None. unfold Zlen in *. lia.
Qed.
Lemma beyond w n : Zlen F < w -> numbers F w n /\ texts F w n.
Proof.
  intros H. assert (X : forall j, w <= j -> at_word F j = None).
  { intros j J. unfold at_word. destruct (Z.ltb_spec j 1); [reflexivity|]. apply nth_error_None. unfold Zlen in H. lia. }
  pose proof (Zlen_nonneg F). split; (split; [lia|]); intros j b J; rewrite X by lia; discriminate.
Qed.
Lemma next_same p h : 1 <= p -> rd_next (image e F) (word_to_position p) + word_to_position (h + 1) = rd_next (image LE F) (word_to_position p) + word_to_position (h + 1).
Proof. intros P. rewrite !next_view by auto. reflexivity. Qed.

Section Part.
Variables (i : Z) (pt : rpart) (q : rparams) (p : Z).
Hypothesis PH : rp_header_length pt = part_header F i.
Hypothesis PT : rp_data_type pt = part_type F i.
Hypothesis BL : block F i p.
Lemma block_is : exists w, rd_next (image LE F) (word_to_position p) + word_to_position (rp_header_length pt + 1) = word_to_position w /\
  (part_type F i = 3 -> texts F w (unsigned F p - rp_header_length pt)) /\ (part_type F i <> 3 -> numbers F w (unsigned F p - rp_header_length pt)).
Proof.
  destruct BL as (N & H & K). cbv zeta in *. rewrite PH. destruct (data_start LE p (part_header F i) (proj1 N) H) as (w & E & [-> |(B & Z0 & _)]); eexists; (split; [exact E|]).
  - destruct (Z.eqb_spec (part_type F i) 3) as [T|T]; split; intros X; auto; contradiction.
  - split; intros _; apply beyond; exact B.
Qed.
Lemma read_block_same : read_block g pt q p = read_block f pt q p.
Proof.
  destruct block_is as (w & E & T & N). destruct BL as (NB & H & _). unfold read_block. cbn [g rtwin rf_file twin gf_endian gf_data rf_type].
  rewrite (od_data _ _ (os_file _ O)), (od_endian _ _ (os_file _ O)). cbv zeta. rewrite next_same by apply NB. rewrite E. rewrite !uint_view by auto. rewrite PT.
  destruct (Z.eqb_spec (part_type F i) 1) as [K|K]; [rewrite array_same by (auto; apply N; lia); reflexivity|].
  destruct (Z.eqb_spec (part_type F i) 4) as [K4|K4]; [rewrite array_same by (auto; apply N; lia); reflexivity|].
  destruct (Z.eqb_spec (part_type F i) 3) as [K3|K3]; [|reflexivity].
  rewrite chars_same by (apply T; exact K3). reflexivity.
Qed.
Lemma read_upart_same of_q : read_upart of_q g pt q p = read_upart of_q f pt q p.
Proof.
  unfold read_upart. cbv zeta. rewrite read_block_same. destruct block_is as (w & E & T & N). destruct BL as (NB & H & _).
  cbn [g rtwin rf_file twin gf_endian gf_data rf_type]. rewrite (od_data _ _ (os_file _ O)), (od_endian _ _ (os_file _ O)).
  rewrite next_same by apply NB. rewrite E. rewrite !uint_view by auto. rewrite PT.
  destruct (Z.eqb_spec (part_type F i) 3) as [K3|K3]; [|reflexivity]. rewrite chars_same by (apply T; exact K3). reflexivity.
Qed.
End Part.

Lemma foldM_ext {A T} (h h' : T -> A -> res T) l : (forall s x, In x l -> h s x = h' s x) -> forall s, foldM h l s = foldM h' l s.
Proof.
  induction l as [|x l IH]; intros H s; [reflexivity|]. cbn [foldM]. rewrite (H s x (or_introl eq_refl)). destruct (h' s x); [|reflexivity]. cbn [bind].
  apply IH. intros s' y Y. apply H. right. exact Y.
Qed.
Lemma nth_combine {A B} (a : list A) (b : list B) : forall j x y, nth_error (combine a b) j = Some (x, y) -> nth_error a j = Some x /\ nth_error b j = Some y.
Proof. revert b. induction a as [|u a IH]; intros [|v b] [|j] x y H; try discriminate; [injection H as <- <-; split; reflexivity|exact (IH _ _ _ _ H)]. Qed.
Lemma in_indexed {A} (l : list A) i x : In (i, x) (indexed l) -> exists j, nth_error l j = Some x /\ i = Z.of_nat j.
Proof.
  unfold indexed. intros H. apply In_nth_error in H as [j J]. apply nth_combine in J as [I X]. exists j. split; [exact X|].
  rewrite zrange_nth in I by (rewrite Zlen_length; apply nth_error_Some; rewrite X; discriminate). injection I as <-. reflexivity.
Qed.
Lemma indexed_parts i pt q : In (i, (pt, q)) (indexed (combine (gf_parts (rf_file f)) (gf_parameters (rf_file f)))) ->
  0 <= i < n_parts F /\ rp_header_length pt = part_header F i /\ rp_data_type pt = part_type F i.
Proof.
  intros H. apply in_indexed in H as (j & J & ->). apply nth_combine in J as [J _]. pose proof (od_parts _ _ (os_file _ O)) as (P & L & N).
  destruct (N _ _ J) as (A & B & _). split; [|split; assumption]. assert (X : (j < length (gf_parts (rf_file f)))%nat) by (apply nth_error_Some; rewrite J; discriminate). lia.
Qed.
Lemma part_block r c i : in_range (r, c) -> 0 <= i < n_parts F -> data_ptr f r c i <> 0 -> block F i (data_ptr f r c i).
Proof.
  intros R I. destruct SF as (_ & _ & _ & T). destruct (T r c i (proj1 R) (proj2 R) I) as [_ B]. rewrite <- self, ptr_is by auto. exact B.
Qed.
Lemma add_parts_same r c rec : in_range (r, c) -> add_parts g r c rec = add_parts f r c rec.
Proof.
  intros R. unfold add_parts. apply foldM_ext. intros s [i [pt q]] H. apply indexed_parts in H as (I & PH & PT). unfold add_part.
  rewrite ptr_same by auto. destruct (Z.eqb_spec (data_ptr f r c i) 0) as [Z0|NZ]; [reflexivity|].
  rewrite (read_block_same i pt q _ PH PT (part_block r c i R I NZ)). reflexivity.
Qed.
Lemma cell_same r c : in_range (r, c) -> unpack_cell g r c = unpack_cell f r c.
Proof.
  intros R. unfold unpack_cell. change (head_record g r c) with (head_record f r c). change (rf_type g) with (rf_type f).
  destruct (head_record f r c) as [h|]; [|reflexivity]. cbn [bind]. destruct (rf_type f); rewrite add_parts_same by auto; reflexivity.
Qed.
Lemma unpack_same l : (forall x, In x l -> in_range x) -> unpack g l = unpack f l.
Proof. intros H. unfold unpack. f_equal. apply mapM_ext. intros [r c] I. apply cell_same, H, I. Qed.
Lemma uparts_same of_q r c : in_range (r, c) -> read_uparts of_q g r c = read_uparts of_q f r c.
Proof.
  intros R. unfold read_uparts. apply foldM_ext. intros s [i [pt q]] H. apply indexed_parts in H as (I & PH & PT).
  rewrite ptr_same by auto. destruct (Z.eqb_spec (data_ptr f r c i) 0) as [Z0|NZ]; [reflexivity|].
  rewrite (read_upart_same i pt q _ PH PT (part_block r c i R I NZ)). reflexivity.
Qed.

(** ** Queries *)
Lemma narrow_incl {A B} (o : option A) (h : A -> B -> bool) l x : In x (narrow o h l) -> In x l.
Proof. destruct o; cbn [narrow]; [rewrite filter_In; tauto|auto]. Qed.
Lemma select_incl k l a m : st_select k l a = Ok m -> forall x, In x m -> In x l.
Proof.
  unfold st_select. destruct (option_res _ _); [|discriminate]. cbn [bind]. destruct (option_res _ _); [|discriminate]. cbn [bind]. cbv zeta. intros H x X.
  match type of H with match ?n with [] => _ | _ => _ end = _ => assert (E : m = n) by (destruct n; [discriminate|injection H as <-; reflexivity]) end.
  rewrite E in X. do 6 apply narrow_incl in X. exact X.
Qed.
Lemma records_same k a : select_records k g a = select_records k f a.
Proof.
  unfold select_records. rewrite info_same. destruct (info f) as [l|] eqn:E; [|reflexivity]. cbn [bind].
  destruct (st_select k l a) as [m|] eqn:M; [|reflexivity]. cbn [bind]. apply unpack_same. intros x X. apply in_map_iff in X as (y & <- & Y).
  apply (info_range l E). exact (select_incl _ _ _ _ M y Y).
Qed.
Lemma sfjson_same a b : sfjson g a b = sfjson f a b.
Proof. unfold sfjson. rewrite records_same. reflexivity. Qed.
Lemma nearest_same order when a b : nearest_time order g when a b = nearest_time order f when a b.
Proof.
  unfold nearest_time. destruct (parse_item when) as [t|]; [|reflexivity]. cbn [bind]. destruct (_ =? 0); [reflexivity|]. destruct (_ >? 1); [reflexivity|].
  rewrite info_same. destruct (info f) as [l|]; [|reflexivity]. cbn [bind].
  rewrite (mapM_ext (fun s => m <- sfjson g (by_id s) b ;; nearest t m) (fun s => m <- sfjson f (by_id s) b ;; nearest t m)) by (intros s _; rewrite sfjson_same; reflexivity).
  rewrite (mapM_ext (fun n => m <- sfjson g (by_number n) b ;; nearest t m) (fun n => m <- sfjson f (by_number n) b ;; nearest t m)) by (intros s _; rewrite sfjson_same; reflexivity).
  reflexivity.
Qed.
Lemma snxarray_same of_q W num_of flt_of fuel a : snxarray_any of_q W num_of flt_of fuel g a = snxarray_any of_q W num_of flt_of fuel f a.
Proof.
  unfold snxarray_any. change (merged g) with (merged f). destruct (merged f).
  - unfold snxarray. rewrite records_same. reflexivity.
  - unfold snxarray_unmerged. rewrite info_same. destruct (info f) as [l|] eqn:E; [|reflexivity]. cbn [bind].
    destruct (st_select KSounding l a) as [m|] eqn:M; [|reflexivity]. cbn [bind].
    rewrite (mapM_ext (fun x => unmerged_cell of_q W num_of flt_of fuel g (ls_row x) (ls_col x)) (fun x => unmerged_cell of_q W num_of flt_of fuel f (ls_row x) (ls_col x))).
    + reflexivity.
    + intros x X. unfold unmerged_cell. change (head_record g (ls_row x) (ls_col x)) with (head_record f (ls_row x) (ls_col x)).
      rewrite uparts_same by (apply (info_range l E); exact (select_incl _ _ _ _ M x X)). reflexivity.
Qed.
End Stations.
