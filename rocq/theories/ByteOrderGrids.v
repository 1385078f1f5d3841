(** Grid files in either byte order (C09). *)
From Coq Require Import ZArith QArith List Lia ZifyBool ZifyNat.
From Verif Require Import Base BaseFacts Words Floats Structs StructsFacts Strings StringsFacts Headers DmFile Station Grid GridRead Query SpecByteOrder ByteOrderFacts ByteOrderOpen ByteOrderStations.
Import ListNotations.
Open Scope Z_scope.
Ltac Zify.zify_post_hook ::= Z.to_euclidean_division_equations.

Lemma str_dec a b : reflect (a = b) (str_eqb a b).
Proof. apply iff_reflect. symmetry. apply str_eqb_spec. Qed.
Lemma parm_key b k : length b = 4%nat -> decode_strip b = Ok k -> is_parm_key k = true <-> In b grid_texts.
Proof.
  intros L D. split.
  - unfold is_parm_key. intros H. assert (K : k = k_GPM1 \/ k = k_GPM2 \/ k = k_GPM3).
    { repeat (apply orb_true_iff in H as [H|H]); destruct (str_eqb_spec k k_GPM1), (str_eqb_spec k k_GPM2), (str_eqb_spec k k_GPM3); auto; discriminate. }
    assert (K4 : length k = 4%nat) by (destruct K as [-> |[-> | ->]]; reflexivity). rewrite (key_bytes b k L D K4).
    destruct K as [-> |[-> | ->]]; cbn; auto.
  - cbn [In grid_texts]. intros [<-|[<-|[<-|[]]]]; cbn in D; injection D as <-; reflexivity.
Qed.
Lemma coord_key b k : length b = 4%nat -> decode_strip b = Ok k -> k = k_GVCD <-> b = coordinate_key.
Proof.
  intros L D. split.
  - intros ->. exact (key_bytes b _ L D eq_refl).
  - intros ->. cbn in D. injection D as <-. reflexivity.
Qed.
(** A coordinate name: the bytes of the word, in either order *)
Lemma coord_text e b : length b = 4%nat -> Forall (fun c => 0 < c < 128) b -> convert_vertical_coord e (unpack_i32 e b) = Ok b.
Proof.
  intros L A. destruct b as [|b0 [|b1 [|b2 [|b3 [|]]]]]; try discriminate. repeat match goal with H : Forall _ (_ :: _) |- _ => inversion H; clear H; subst end.
  assert (V : valid_bytes [b0; b1; b2; b3] = true) by (unfold valid_bytes, is_byte; cbn [forallb]; lia).
  assert (AS : is_ascii [b0; b1; b2; b3] = true) by (unfold is_ascii; cbn [forallb]; lia).
  unfold convert_vertical_coord, unpack_i32. set (u := dec_uint e [b0; b1; b2; b3]).
  assert (U : 8 < u < two31) by (unfold u, two31; destruct e; cbn [dec_uint rev app le_dec]; lia).
  replace (to_signed32 u) with u by (unfold to_signed32; destruct (Z.ltb_spec u two31); lia). destruct (Z.leb_spec u 8); [lia|].
  unfold pack_i32. replace (in_i32 u) with true by (unfold in_i32, two31 in *; lia). cbn [bind].
  replace (u mod two32) with u by (unfold two32, two31 in *; lia).
  assert (E : enc_uint e 4 u = [b0; b1; b2; b3]).
  { unfold u. destruct e; cbn [enc_uint dec_uint].
    - exact (le_enc_dec _ V).
    - rewrite <- (rev_length [b0; b1; b2; b3]) at 1. rewrite <- (rev_involutive [b0; b1; b2; b3]) at 3. f_equal. apply (le_enc_dec (rev [b0; b1; b2; b3])). rewrite valid_bytes_rev. exact V. }
  rewrite E. unfold bytes_str. rewrite AS. reflexivity.
Qed.

Lemma map_same {A B} (c : B) (l : list A) : map (fun _ => c) l = repeat c (length l).
Proof. induction l as [|x l IH]; cbn; [reflexivity|f_equal; exact IH]. Qed.

Section Grids.
Variable F : list word.
Hypothesis S : Forall sound_word F.

Definition word_fits (k : str) (i : Z) : Prop :=
  if is_parm_key k then texts F i 1 else if str_eqb k k_GVCD then coordinate (at_word F i) else numbers F i 1.
Lemma conv_other e k v : k <> k_GVCD -> gkey_conv e k v = gkey_conv LE k v.
Proof. intros N. unfold gkey_conv. destruct (str_dec k k_GVCD); [contradiction|reflexivity]. Qed.
Lemma item_same e k w : 1 <= w <= Zlen F -> word_fits k w ->
  gkey_conv e k (unpack_item e (gkey_fmt k) (firstn 4 (skipn (Z.to_nat (w * 4 - 4)) (image e F)))) =
  gkey_conv LE k (unpack_item LE (gkey_fmt k) (firstn 4 (skipn (Z.to_nat (w * 4 - 4)) (image LE F)))).
Proof.
  intros W. unfold word_fits, gkey_fmt. destruct (is_parm_key k) eqn:P.
  - intros T. assert (N : k <> k_GVCD) by (intros ->; discriminate P). rewrite (conv_other e k) by exact N. unfold unpack_item.
    rewrite !text_same; [reflexivity|auto|lia| |auto|lia|]; exact (text_words F w 1 T).
  - destruct (str_dec k k_GVCD) as [-> |N].
    + unfold coordinate. destruct (at_word F w) as [[z|b]|] eqn:A.
      * intros Z. unfold unpack_item, unpack_i32.
        assert (E : forall e, dec_uint e (firstn 4 (skipn (Z.to_nat (w * 4 - 4)) (image e F))) = unsigned F w).
        { intros e'. replace w with ((w * 4 - 4) / 4 + 1) at 2 by lia. apply (number_at e' F (w * 4 - 4) z); auto; try lia. replace ((w * 4 - 4) / 4 + 1) with w by lia. exact A. }
        rewrite !E. unfold unsigned. rewrite A. cbn [gkey_conv is_level_key]. unfold gkey_conv. change (is_level_key k_GVCD) with false. cbv iota. change (str_eqb k_GVCD k_GVCD) with true. cbv iota.
        unfold convert_vertical_coord. assert (ZS : to_signed32 z <= 8).
        { unfold to_signed32, two31, two32. assert (0 <= z < 4294967296) as ZR.
          { unfold at_word in A. destruct (_ <? 1); [discriminate|]. apply nth_error_In in A. rewrite Forall_forall in S. exact (S _ A). }
          destruct (Z.ltb_spec z 2147483648); lia. }
        destruct (Z.leb_spec (to_signed32 z) 8); [reflexivity|lia].
      * intros B. pose proof A as A'. unfold at_word in A'. destruct (Z.ltb_spec w 1); [lia|].
        assert (L : length b = 4%nat) by (apply nth_error_In in A'; rewrite Forall_forall in S; exact (proj1 (S _ A'))).
        assert (E : forall e, firstn 4 (skipn (Z.to_nat (w * 4 - 4)) (image e F)) = b).
        { intros e'. replace (Z.to_nat (w * 4 - 4)) with (4 * Z.to_nat (w - 1))%nat by lia. exact (image_word e' F S _ _ A'). }
        rewrite !E. unfold unpack_item, gkey_conv. change (is_level_key k_GVCD) with false. cbv iota. change (str_eqb k_GVCD k_GVCD) with true. cbv iota.
        rewrite !coord_text by auto. reflexivity.
      * exfalso. unfold at_word in A. destruct (Z.ltb_spec w 1); [lia|]. apply nth_error_None in A. unfold Zlen in W. lia.
    + intros NM. rewrite (conv_other e k) by exact N. unfold unpack_item, unpack_i32.
      assert (E : forall e, dec_uint e (firstn 4 (skipn (Z.to_nat (w * 4 - 4)) (image e F))) = unsigned F w).
      { intros e'. pose proof (word_there F (w * 4 - 4) ltac:(lia) ltac:(lia) ltac:(lia)) as X. replace ((w * 4 - 4) / 4 + 1) with w in X by lia. destruct (X NM) as [z A].
        replace w with ((w * 4 - 4) / 4 + 1) at 2 by lia. apply (number_at e' F (w * 4 - 4) z); auto; try lia. replace ((w * 4 - 4) / 4 + 1) with w by lia. exact A. }
      rewrite !E. reflexivity.
Qed.
Lemma gkey_two k : gkey_fmt k = FStr 4 \/ gkey_fmt k = FInt.
Proof. unfold gkey_fmt. destruct (is_parm_key k); auto. Qed.
Lemma unpack_cons e k ks l : unpack_vals e (map gkey_fmt (k :: ks)) l = unpack_item e (gkey_fmt k) (firstn 4 l) :: unpack_vals e (map gkey_fmt ks) (skipn 4 l).
Proof. cbn [map unpack_vals]. destruct (gkey_two k) as [-> | ->]; reflexivity. Qed.
Lemma gitems_same e : forall ks w, 1 <= w -> w + Zlen ks <= Zlen F + 1 -> (forall j k, nth_error ks j = Some k -> word_fits k (w + Z.of_nat j)) ->
  mapM (fun '(k, v) => h <- gkey_conv e k v ;; Ok (k, h)) (combine ks (unpack_vals e (map gkey_fmt ks) (skipn (Z.to_nat (w * 4 - 4)) (image e F)))) =
  mapM (fun '(k, v) => h <- gkey_conv LE k v ;; Ok (k, h)) (combine ks (unpack_vals LE (map gkey_fmt ks) (skipn (Z.to_nat (w * 4 - 4)) (image LE F)))).
Proof.
  induction ks as [|k ks IH]; intros w W L H; [reflexivity|]. rewrite !unpack_cons. cbn [combine mapM]. rewrite Zlen_cons in L. pose proof (Zlen_nonneg ks).
  rewrite (item_same e k w); [|lia|specialize (H 0%nat k eq_refl); replace (w + Z.of_nat 0) with w in H by lia; exact H].
  rewrite !skip_skip by lia. replace (w * 4 - 4 + Z.of_nat 4) with ((w + 1) * 4 - 4) by lia. rewrite IH; [reflexivity|lia|lia|].
  intros j k' J. specialize (H (Datatypes.S j) k' J). replace (w + Z.of_nat (Datatypes.S j)) with (w + 1 + Z.of_nat j) in H by lia. exact H.
Qed.
Lemma gsize ks : Z.of_nat (calcsize (map gkey_fmt ks)) = 4 * Zlen ks.
Proof. rewrite (sized_headers gkey_fmt) by apply gkey_two. unfold Zlen. lia. Qed.
Lemma gheader_same e ks w : 1 <= w -> (forall j k, nth_error ks j = Some k -> word_fits k (w + Z.of_nat j)) ->
  read_gheader e ks (image e F) (word_to_position w) = read_gheader LE ks (image LE F) (word_to_position w).
Proof.
  intros W H. unfold read_gheader, rd_struct, struct_unpack_from, word_to_position. rewrite !image_Zlen, gsize by auto. destruct (Z.ltb_spec (w * 4 - 4) 0); [lia|].
  destruct (Z.ltb_spec (4 * Zlen F - (w * 4 - 4)) (4 * Zlen ks)); [reflexivity|]. cbn [bind]. apply gitems_same; [exact W|lia|exact H].
Qed.
Lemma grid_header_fits ks w : keys_are F (column_keys F) (n_column_keys F) ks -> grid_header F w -> forall j k, nth_error ks j = Some k -> word_fits k (w + Z.of_nat j).
Proof.
  intros [L K] H j k J. destruct (K j k J) as (b & A & B & D).
  assert (JN : (j < Z.to_nat (n_column_keys F))%nat) by (rewrite <- L; apply nth_error_Some; rewrite J; discriminate).
  destruct (H (Z.of_nat j) b ltac:(lia) A) as (HT & HC & HN). pose proof (parm_key b k B D) as PK. pose proof (coord_key b k B D) as CK. unfold word_fits.
  destruct (is_parm_key k); [apply HT, PK; reflexivity|]. destruct (str_dec k k_GVCD) as [E|N]; [apply HC, CK, E|].
  apply HN; [intros X; apply PK in X; discriminate|intros X; apply N, CK, X].
Qed.

Definition gtwin (e : endian) (f : rgrid) : rgrid := mk_rg (twin F e (rg_file f)) (rg_rows f) (rg_cols f) (rg_info f).
Lemma open_grid_same e : grid_file F ->
  open_grid (image e F) = (f <- open_grid (image LE F) ;; Ok (gtwin e f)).
Proof.
  intros (B & R & C & _). unfold open_grid. destruct (open_same F S e B) as [E O]. rewrite E. clear E.
  destruct (open_gempak (image LE F)) as [g|x]; [|reflexivity]. cbn [bind]. specialize (O g eq_refl). pose proof O as [D E L RK CK P].
  cbn [twin gf_label gf_row_keys gf_column_keys gf_endian gf_nav]. cbv zeta. rewrite E.
  rewrite (li_rows F _ L), (li_rh F _ L), (li_cols F _ L), (li_ch F _ L). rewrite !gsize. rewrite !calcsize_repeat.
  replace (Z.of_nat (length (gf_row_keys g) * fmtc_size FInt)) with (4 * Z.max 0 (n_row_keys F)) by (rewrite (proj1 RK); cbn [fmtc_size]; lia).
  replace (Zlen (gf_column_keys g)) with (Z.max 0 (n_column_keys F)) by (unfold Zlen; rewrite (proj1 CK); lia).
  rewrite (block_same F S e (fun e => read_grow e (gf_row_keys g)) _ _ _ _) with (2 := R).
  2: { intros w W H. unfold read_grow. rewrite (struct_same F S e); [reflexivity|unfold word_to_position; lia|].
       replace (repeat FInt (length (gf_row_keys g))) with (map (fun _ : str => FInt) (gf_row_keys g)) by apply map_same.
       apply (header_fits F (fun _ => FInt) [] (row_keys F) (n_row_keys F) _ w RK H). intros b k _ _. split; [intros []|reflexivity]. }
  destruct (read_headers LE (read_grow LE _ _) _ _ _ _) as [rows|x]; [|reflexivity]. cbn [bind].
  rewrite (block_same F S e (fun e => read_gheader e (gf_column_keys g)) _ _ _ _) with (2 := C).
  2: { intros w W H. apply gheader_same; [exact W|]. apply grid_header_fits; [exact CK|exact H]. }
  destruct (read_headers LE (read_gheader LE _ _) _ _ _ _) as [cols|x]; [|reflexivity]. cbn [bind].
  destruct (mapM _ (indexed cols)) as [info|]; [|reflexivity]. cbn [bind]. destruct (gf_nav g) as [nv|]; [|reflexivity]. destruct (existsb _ _); reflexivity.
Qed.

Lemma listing_no n h x : glisting_of n h = Ok x -> gl_no x = n.
Proof.
  unfold glisting_of. intros B. repeat match type of B with (let '(_, _) := ?q in _) = _ => destruct q | context [bind ?m _] => destruct m; [cbn [bind] in B|discriminate] end. injection B as <-. reflexivity.
Qed.
Record opened_g (f : rgrid) : Prop := {
  og_file : opened F (rg_file f);
  og_info : forall x, In x (rg_info f) -> forall p, 0 <= p < n_parts F ->
    numbers F (pointers F + gl_no x * n_parts F + p) 1 /\
    if pointer F 0 (gl_no x) p =? 0 then 0 <= part_header F p < 8 else grid_block F p (pointer F 0 (gl_no x) p);
  og_text : check_header (image LE F) = Ok tt; og_texts : texts F 1 7 }.
Lemma open_grid_is f : grid_file F -> open_grid (image LE F) = Ok f -> opened_g f.
Proof.
  intros (B & _ & _ & T). unfold open_grid. destruct (open_same F S LE B) as [_ O].
  destruct (open_gempak (image LE F)) as [g|x] eqn:EG; [|discriminate]. cbn [bind]. specialize (O g eq_refl). pose proof O as [D E L RK CK P]. cbv zeta. rewrite E.
  assert (CK0 : check_header (image LE F) = Ok tt) by (unfold open_gempak in EG; destruct (check_header (image LE F)) as [[]|]; [reflexivity|discriminate]). clear EG.
  destruct (read_headers LE (read_grow LE _ _) _ _ _ _) as [rows|x]; [|discriminate]. cbn [bind].
  rewrite gsize, (li_cols F _ L), (li_ch F _ L). replace (Zlen (gf_column_keys g)) with (Z.max 0 (n_column_keys F)) by (unfold Zlen; rewrite (proj1 CK); lia).
  destruct (read_headers LE (read_gheader LE _ _) _ _ _ _) as [cols|x] eqn:EC; [|discriminate]. cbn [bind].
  apply read_headers_length in EC.
  destruct (mapM _ (indexed cols)) as [info|] eqn:EI; [|discriminate]. cbn [bind].
  destruct (match gf_nav g with Some _ => _ | None => _ end); [|discriminate]. intros [= <-]. constructor; cbn [rg_file rg_info]; [exact O| |exact CK0|exact (proj1 B)].
  intros x X p HP. apply mapM_ok_Forall2 in EI. apply In_nth_error in X as [j J]. destruct (Forall2_nth _ _ _ _ _ EI J) as ([n h] & A & G).
  apply nth_error_In, in_indexed in A as (i & I & ->). apply listing_no in G. rewrite G. apply T; [|exact HP].
  assert (i < length cols)%nat by (apply nth_error_Some; rewrite I; discriminate). unfold Zlen in EC. lia.
Qed.

(** ** Data *)
Variable e : endian.
Lemma zero_beyond p : Zlen F < p -> unsigned F p = 0.
Proof. intros H. pose proof (Zlen_nonneg F). unfold unsigned, at_word. destruct (Z.ltb_spec p 1); [reflexivity|]. replace (nth_error F (Z.to_nat (p - 1))) with (@None word); [reflexivity|]. symmetry. apply nth_error_None. unfold Zlen in *. lia. Qed.
Lemma gd_start p h : 1 <= p -> 0 <= h -> numbers F (p + 1 + h) (Z.max 9 (unsigned F p - h)) ->
  exists w, (forall e', rd_next (image e' F) (word_to_position p) + word_to_position (h + 1) = word_to_position w) /\ numbers F w (Z.max 9 (unsigned F p - h)).
Proof.
  intros P H N. destruct (Z.leb_spec p (Zlen F)) as [L|L].
  - exists (p + 1 + h). split; [|exact N]. intros e'. rewrite next_view by auto. destruct (Z.leb_spec p (Zlen F)); [unfold word_to_position; lia|lia].
  - exists (p + h). split; [|apply (beyond F); lia]. intros e'. rewrite next_view by auto. destruct (Z.leb_spec p (Zlen F)); [lia|unfold word_to_position; lia].
Qed.
Lemma garray c w n m : c = FInt \/ c = FFloat -> numbers F w m -> n <= m -> rd_array e c n (image e F) (word_to_position w) = rd_array LE c n (image LE F) (word_to_position w).
Proof. intros C N M. apply (array_same F S e); [exact C|]. apply (numbers_part _ _ _ _ _ N); lia. Qed.
Lemma gmeta c n w m : c = FInt \/ c = FFloat -> numbers F w m -> Z.of_nat n <= m -> meta e c n (image e F) (word_to_position w) = meta LE c n (image LE F) (word_to_position w).
Proof.
  intros C N M. unfold meta. apply (struct_same F S e); [pose proof (proj1 N); unfold word_to_position; lia|]. replace n with (Z.to_nat (Z.of_nat n)) by lia.
  apply fits_num; [exact C|]. apply (numbers_part _ _ _ _ _ N); lia.
Qed.
Lemma grid_at_same g part h kx ky p : opened F g -> h = part_header F part -> grid_block F part p ->
  read_grid_at (twin F e g) h kx ky p = read_grid_at g h kx ky p.
Proof.
  intros O -> (N & H & B). cbv zeta in B. unfold read_grid_at. cbn [twin gf_endian gf_data gf_label]. rewrite (od_data _ _ O), (od_endian _ _ O). cbv zeta.
  destruct (gd_start p _ (proj1 N) H B) as (w & E & NW). rewrite !E.
  set (h := part_header F part) in *. set (len := unsigned F p) in *. set (m := Z.max 9 (len - h)) in *.
  assert (W1 : numbers F w 1) by (apply (numbers_part _ _ _ _ _ NW); lia). rewrite !uint_view by auto. fold len. pose proof (proj1 NW) as WP. rewrite !next_view by auto.
  assert (X : exists v, w + (if w <=? Zlen F then 1 else 0) = v /\ numbers F v (m - 1)).
  { destruct (Z.leb_spec w (Zlen F)) as [L|L]; eexists; (split; [reflexivity|]); [apply (numbers_part _ _ _ _ _ NW); lia|replace (w + 0) with w by lia; apply (beyond F); lia]. }
  destruct X as (v & -> & NV). pose proof (proj1 NV) as VP.
  assert (OFF : forall k, word_to_position v + 4 * k = word_to_position (v + k)) by (intros k; unfold word_to_position; lia).
  change (word_to_position v + 12) with (word_to_position v + 4 * 3). change (word_to_position v + 20) with (word_to_position v + 4 * 5).
  change (word_to_position v + 16) with (word_to_position v + 4 * 4). change (word_to_position v + 28) with (word_to_position v + 4 * 7). rewrite !OFF.
  assert (NK : forall k, 0 <= k -> numbers F (v + k) (m - 1 - k)) by (intros k K; apply (numbers_part _ _ _ _ _ NV); lia).
  destruct (unsigned F w =? 0); [destruct (_ >? 1); [|reflexivity]; rewrite (garray FFloat v _ (m - 1)) by (auto; lia); reflexivity|].
  destruct ((_ =? 1) || _).
  { rewrite (gmeta FInt 3 v (m - 1)) by (auto; lia). rewrite (gmeta FFloat 2 (v + 3) (m - 1 - 3)) by (auto; try lia; apply NK; lia).
    rewrite (garray FInt (v + 5) _ (m - 1 - 5)) by (auto; try lia; apply NK; lia). reflexivity. }
  destruct (_ =? 3); [|reflexivity].
  rewrite (gmeta FInt 4 v (m - 1)) by (auto; lia). rewrite (gmeta FFloat 3 (v + 4) (m - 1 - 4)) by (auto; try lia; apply NK; lia).
  rewrite (garray FInt (v + 7) _ (m - 1 - 7)) by (auto; try lia; apply NK; lia). reflexivity.
Qed.
(** A pointer 0 leads to the words of the file's first line, none of which is a known packing. *)
Lemma title : check_header (image LE F) = Ok tt -> firstn 28 (image LE F) = GEMPAK_HEADER /\ 7 <= Zlen F.
Proof.
  unfold check_header, rd_struct, struct_unpack_from. destruct (0 <? 0); [discriminate|]. destruct (Z.ltb_spec (Zlen (image LE F) - 0) (Z.of_nat (calcsize [FStr 28]))) as [|L]; [discriminate|].
  change (Z.to_nat 0) with 0%nat. cbn [skipn bind unpack_vals unpack_item py_index fmtc_size]. cbn [as_bytes]. 
  rewrite image_Zlen in L by auto. change (Z.of_nat (calcsize [FStr 28])) with 28 in L.
  intros H. split; [|lia]. revert H. change (py_index [VBytes (firstn 28 (image LE F))] 0) with (@Ok pyval (VBytes (firstn 28 (image LE F)))). cbn [bind as_bytes].
  unfold bytes_str. destruct (is_ascii _); [|discriminate]. cbn [bind]. destruct (str_dec (firstn 28 (image LE F)) GEMPAK_HEADER); [auto|discriminate].
Qed.
Lemma title_word e' h : check_header (image LE F) = Ok tt -> texts F 1 7 -> 1 <= h <= 7 ->
  rd_uint e' (image e' F) (word_to_position h) = dec_uint e' (firstn 4 (skipn (Z.to_nat (h * 4 - 4)) GEMPAK_HEADER)).
Proof.
  intros C T H. destruct (title C) as [E L]. unfold rd_uint, word_to_position. rewrite py_slice_in by (rewrite ?image_Zlen by auto; lia).
  replace (h * 4 - 4 + 4 - (h * 4 - 4)) with 4 by lia. change (Z.to_nat 4) with 4%nat. f_equal. rewrite text_same; [|exact S|lia|].
  - unfold raw. rewrite <- E. rewrite skipn_firstn_comm, firstn_firstn. f_equal. lia.
  - apply (text_words F h 1). apply (texts_part F 1 7); [exact T|lia|lia].
Qed.
Lemma grid_nowhere g h kx ky : opened F g -> check_header (image LE F) = Ok tt -> texts F 1 7 -> 0 <= h < 8 ->
  read_grid_at (twin F e g) h kx ky 0 = read_grid_at g h kx ky 0.
Proof.
  intros O C T H. destruct (title C) as [_ L]. unfold read_grid_at. cbn [twin gf_endian gf_data gf_label]. rewrite (od_data _ _ O), (od_endian _ _ O). cbv zeta.
  assert (EMPTY : forall e', py_slice (image e' F) (-4) 0 = []).
  { intros e'. unfold py_slice, py_bound. rewrite image_Zlen by auto. destruct (Z.ltb_spec (-4) 0); [|lia]. destruct (Z.ltb_spec 0 0); [lia|].
    rewrite Z.min_l by lia. rewrite Z.max_r by lia. replace (Z.to_nat (0 - (-4 + 4 * Zlen F))) with 0%nat by lia. reflexivity. }
  change (word_to_position 0) with (-4).
  assert (U0 : forall e', rd_uint e' (image e' F) (-4) = 0) by (intros e'; unfold rd_uint; change (-4 + 4) with 0; rewrite EMPTY; destruct e'; reflexivity).
  assert (N0 : forall e', rd_next (image e' F) (-4) = -4) by (intros e'; unfold rd_next; change (-4 + 4) with 0; rewrite EMPTY; reflexivity).
  rewrite !U0, !N0. destruct (Z.eq_dec h 0) as [-> |NZ].
  - change (-4 + word_to_position (0 + 1)) with (-4). rewrite !U0. reflexivity.
  - replace (-4 + word_to_position (h + 1)) with (word_to_position h) by (unfold word_to_position; lia). rewrite !title_word by (auto; lia).
    assert (K : h = 1 \/ h = 2 \/ h = 3 \/ h = 4 \/ h = 5 \/ h = 6 \/ h = 7) by lia.
    destruct K as [-> |[-> |[-> |[-> |[-> |[-> | ->]]]]]]; destruct e; reflexivity.
Qed.
Lemma read_grid_same f x : opened_g f -> In x (rg_info f) -> read_grid (gtwin e f) (gl_no x) = read_grid f (gl_no x).
Proof.
  intros O X. pose proof (og_file _ O) as OF. unfold read_grid. cbn [gtwin rg_file twin gf_nav gf_parts]. destruct (gf_nav (rg_file f)) as [nv|]; [|reflexivity]. cbn [bind].
  rewrite (mapM_ext _ (fun '(iprt, pt) => read_grid_at (rg_file f) (rp_header_length pt) (nv_kx nv) (nv_ky nv) (grid_pointer (rg_file f) (gl_no x) iprt))); [reflexivity|].
  intros [i pt] I. apply in_indexed in I as (j & J & ->). pose proof (od_parts _ _ OF) as (P & L & N). destruct (N _ _ J) as (A & _ & _).
  assert (JR : 0 <= Z.of_nat j < n_parts F) by (assert (j < length (gf_parts (rg_file f)))%nat by (apply nth_error_Some; rewrite J; discriminate); lia).
  destruct (og_info _ O x X _ JR) as [NP BL].
  assert (GP : forall e', rd_uint e' (image e' F) (word_to_position (pointers F + 0 * n_columns F * n_parts F + (gl_no x * n_parts F + Z.of_nat j))) = pointer F 0 (gl_no x) (Z.of_nat j)).
  { intros e'. unfold pointer. replace (pointers F + 0 * n_columns F * n_parts F + (gl_no x * n_parts F + Z.of_nat j)) with (pointers F + gl_no x * n_parts F + Z.of_nat j) by lia.
    rewrite uint_view by auto. f_equal. lia. }
  unfold grid_pointer. cbn [twin gf_endian gf_data gf_label]. pose proof (od_label _ _ OF) as LB. rewrite (li_db _ _ LB), (li_cols _ _ LB), (li_parts _ _ LB), (od_data _ _ OF), (od_endian _ _ OF), !GP.
  destruct (Z.eqb_spec (pointer F 0 (gl_no x) (Z.of_nat j)) 0) as [Z0|NZ].
  - rewrite Z0. apply grid_nowhere; [exact OF|exact (og_text _ O)|exact (og_texts _ O)|rewrite A; exact BL].
  - exact (grid_at_same (rg_file f) (Z.of_nat j) _ _ _ _ OF A BL).
Qed.
Lemma gd_incl l a m : gd_select l a = Ok m -> forall x, In x m -> In x l.
Proof.
  unfold gd_select. do 4 (destruct (option_res _ _); [cbn [bind]|discriminate]). cbv zeta. intros H x X.
  match type of H with match ?n with [] => _ | _ => _ end = _ => assert (E : m = n) by (destruct n; [discriminate|injection H as <-; reflexivity]) end.
  rewrite E in X. do 6 apply narrow_incl in X. exact X.
Qed.
Lemma gdxarray_same f a : opened_g f -> gdxarray (gtwin e f) a = gdxarray f a.
Proof.
  intros O. unfold gdxarray. cbn [gtwin rg_info]. destruct (gd_select (rg_info f) a) as [m|] eqn:M; [|reflexivity]. cbn [bind].
  rewrite (mapM_ext (fun g => cs <- read_grid (gtwin e f) (gl_no g) ;; Ok (map (mk_go (var_name (gl_parm g)) (gl_time1 g) (lower (gl_coord g)) (gl_level1 g) (gl_type g)) cs))
             (fun g => cs <- read_grid f (gl_no g) ;; Ok (map (mk_go (var_name (gl_parm g)) (gl_time1 g) (lower (gl_coord g)) (gl_level1 g) (gl_type g)) cs))); [reflexivity|].
  intros x X. rewrite read_grid_same by (auto; exact (gd_incl _ _ _ M x X)). reflexivity.
Qed.
End Grids.
