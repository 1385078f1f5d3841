(** Grid files: opening a saved file and reading one grid. *)
From Coq Require Import Lia ZifyBool ZifyNat QArith Qabs Lqa.
From Verif Require Import Base BaseFacts Words Layout LayoutFacts Floats FloatsFacts Structs StructsFacts
  Strings StringsFacts Dates SpecDates DatesFacts Headers HeadersFacts Grib SpecGrib GribFacts GribQFacts Order OrderFacts SpecLayout Props_Layout
  DmFile StreamFacts DmWriteFacts DmHookFacts DmReadFacts Station StationFacts StationCellFacts Real Grid GridRead CoordFacts CoordEq RoundFacts GridFacts.
Ltac Zify.zify_post_hook ::= Z.div_mod_to_equations.
Open Scope Z_scope.

Lemma indexed_map {A B} (f : A -> B) l : indexed (map f l) = map (fun '(i, x) => (i, f x)) (indexed l).
Proof.
  unfold indexed. rewrite Zlen_map. generalize (zrange (Zlen l)) as z. induction l as [|x l IH]; intros [|i z]; try reflexivity.
  cbn. rewrite IH. reflexivity.
Qed.

Definition gopened (e : endian) (o : gridfile) (p : pointers) (b : bytes) (dn : flt) (nf : Z) (info : list glisting) : rgrid :=
  mk_rg (file_of e (grid_head o) grid_part p b (Some (gnav_of (gd_geom o) dn)) nf) [[1]]
    (map (gcol_head e) (gd_col_headers o)) info.

Lemma open_gsaved e o p b (L : Z -> gcol -> glisting) : gcoherent o -> geom_ok (gd_geom o) -> gsaved e o p b ->
  (forall c, In c (gd_col_headers o) -> gcol_ok e c) ->
  (forall n c, In c (gd_col_headers o) -> glisting_of n (gcol_head e c) = Ok (L n c)) ->
  exists nf dn, open_grid b = Ok (gopened e o p b dn nf (map (fun '(n, c) => L n c) (indexed (gd_col_headers o)))).
Proof.
  intros HC (GP & _) [S1 S2 S3 (nf & dn & _ & S4)] HO HL. exists nf, dn. unfold open_grid. rewrite S4. cbn [bind].
  set (g := file_of e (grid_head o) grid_part p b (Some (gnav_of (gd_geom o) dn)) nf).
  change (gf_endian g) with e. change (gf_row_keys g) with grid_row_names. change (gf_column_keys g) with grid_column_names.
  change (lb_rows (gf_label g)) with 1. change (lb_row_headers_ptr (gf_label g)) with (row_headers_ptr p).
  change (lb_columns (gf_label g)) with (gd_cols o). change (lb_column_headers_ptr (gf_label g)) with (column_headers_ptr p).
  unfold word_to_position.
  assert (ER : read_headers e (read_grow e grid_row_names b) (Z.of_nat (calcsize (repeat FInt (length grid_row_names)))) b
     (Z.to_nat 1) (row_headers_ptr p * 4 - 4) = Ok (map (fun z => [z]) [1])).
  { replace (row_headers_ptr p * 4 - 4) with (4 * (row_headers_ptr p - 1)) by lia.
    change (Z.of_nat (calcsize (repeat FInt (length grid_row_names)))) with (4 * 1). change (Z.to_nat 1) with (length [1]).
    apply (read_headers_at e (grow_words e) _ (fun z => [z]) 1); [| |exact S1].
    - intros h ws _. apply grow_words_len.
    - intros h ws q _ HW HA. unfold grow_words in HW. destruct (pack_i32 e h) as [w|] eqn:Ew; cbn [bind] in HW; [|discriminate HW].
      apply ok_inj in HW. subst ws. unfold read_grow. change (repeat FInt (length grid_row_names)) with [FInt].
      rewrite (rd_packed e [FInt] [VInt h] [w]); [reflexivity| |exact HA]. constructor; [exact Ew|constructor]. }
  rewrite ER. cbn [bind map]. clear ER.
  assert (EC : read_headers e (read_gheader e grid_column_names b) (Z.of_nat (calcsize (map gkey_fmt grid_column_names))) b
     (Z.to_nat (gd_cols o)) (column_headers_ptr p * 4 - 4) = Ok (map (gcol_head e) (gd_col_headers o))).
  { rewrite HC, Zlen_length. replace (column_headers_ptr p * 4 - 4) with (4 * (column_headers_ptr p - 1)) by lia.
    change (Z.of_nat (calcsize (map gkey_fmt grid_column_names))) with (4 * Zlen grid_column_names).
    apply (read_headers_at e (gcol_words e) _ (gcol_head e) (Zlen grid_column_names)); [| |exact S2].
    - intros h ws _. apply gcol_words_len.
    - intros h ws q HI HW HA. eapply read_gcol_head; eauto. }
  rewrite EC. cbn [bind]. clear EC.
  assert (EI : mapM (fun '(n, h) => glisting_of n h) (indexed (map (gcol_head e) (gd_col_headers o))) =
     Ok (map (fun '(n, c) => L n c) (indexed (gd_col_headers o)))).
  { rewrite indexed_map, mapM_map. rewrite <- mapM_pure. apply mapM_ext. intros [n c] HI.
    apply HL. apply indexed_in in HI as [_ HI]. apply nth_error_In in HI. exact HI. }
  rewrite EI. cbn [bind]. clear EI.
  change (gf_nav g) with (Some (gnav_of (gd_geom o) dn)). cbn iota. change (nv_projection (gnav_of (gd_geom o) dn)) with (gm_proj (gd_geom o)).
  replace (existsb (str_eqb (gm_proj (gd_geom o))) known_projections) with true; [reflexivity|].
  symmetry. apply existsb_exists. exists (gm_proj (gd_geom o)). split; [exact GP|]. apply str_eqb_spec; reflexivity.
Qed.

(** ** The stored reference value *)
Lemma pack_grib_ref grid m nbits r s ws : pack_grib grid m nbits = Ok (r, s, ws) -> r = m \/ In r grid.
Proof.
  unfold pack_grib. destruct ((nbits <? 1) || (nbits >? 31)); [discriminate|].
  set (ex := if forallb (fun x => Qeq_bool x m) grid then (m, m) else _).
  assert (Hex : fst ex = m \/ In (fst ex) grid).
  { unfold ex. destruct (forallb _ grid); [left; reflexivity|]. destruct grid as [|x l]; [left; reflexivity|].
    right. apply list_qmin_in. }
  destruct ex as [qmin qmax]. cbn [fst] in Hex.
  destruct (_ || _); [discriminate|]. destruct (_ && _); [intros [= <- <- <-]; exact Hex|].
  intros H. apply bind_ok in H as (k & _ & H). apply bind_ok in H as (out & _ & H). injection H as <- <- <-. exact Hex.
Qed.

Lemma pow2q_split e : (e < 0 -> Qnum (pow2q e) = 1 /\ Z.pos (Qden (pow2q e)) = 2 ^ (- e)) /\
  (0 <= e -> Qnum (pow2q e) = 2 ^ e /\ Qden (pow2q e) = 1%positive).
Proof.
  unfold pow2q. split; intros H.
  - destruct (Z.ltb_spec e 0); [|lia]. cbn [Qnum Qden]. split; [reflexivity|]. apply Z2Pos.id, Z.pow_pos_nonneg; lia.
  - destruct (Z.ltb_spec e 0); [lia|]. split; reflexivity.
Qed.

(** Values of float cells that binary32 can hold. *)
Definition cell_ok (c : flt) : Prop := valid64 c = true /\ finite c = true /\ (Qabs (q_of c) < inject_Z (2 ^ 127))%Q.

Lemma norm_value s m e : Z.log2 (Z.pos m) + e < 1023 -> (exists j, 0 <= j /\ Z.pos m mod 2 ^ j = 0 /\ Z.log2 (Z.pos m) - j < 53 /\ -1074 <= e + j) ->
  let r := binary_round p64 e64 s m e in finite r = true /\ (q_of r == sgn s (inject_Z (Z.pos m) * pow2q e))%Q.
Proof.
  intros HL (j & J1 & J2 & J3 & J4). cbv zeta.
  destruct (round_value p64 e64 s m e ltac:(unfold p64; lia) ltac:(unfold e64; lia)) as [[_ I]|(I & _ & K)].
  - unfold e64 in I. lia.
  - split; [exact I|]. apply (K j); assumption.
Qed.

Lemma flt_back c : cell_ok c -> finite (flt_of_Q (q_of c)) = true /\ (q_of (flt_of_Q (q_of c)) == q_of c)%Q.
Proof.
  intros (V & F & B). destruct c as [s| | |s m e]; try discriminate F; [split; reflexivity|].
  apply valid64_finite in V as (V1 & V2 & _).
  assert (V3 : Z.log2 (Z.pos m) < 53) by (apply Z.log2_lt_pow2; lia).
  assert (LB : Z.log2 (Z.pos m) + e < 127).
  { rewrite q_of_finite in B. assert (B2 : (inject_Z (Z.pos m) * pow2q e < inject_Z (2 ^ 127))%Q).
    { pose proof (pow2q_pos e) as PE. assert (0 < inject_Z (Z.pos m) * pow2q e)%Q by (apply Qmult_lt_0_compat; [reflexivity|exact PE]).
      unfold sgn in B. destruct s; [rewrite Qabs_opp in B|]; rewrite Qabs_pos in B by lra; exact B. }
    clear B. destruct (Z_lt_ge_dec (Z.log2 (Z.pos m) + e) 127) as [?|G]; [assumption|exfalso].
    assert (X : (pow2q 127 <= pow2q (Z.log2 (Z.pos m) + e))%Q) by (apply pow2q_mono; lia).
    rewrite pow2q_add in X. rewrite (pow2q_nonneg (Z.log2 _)) in X by apply Z.log2_nonneg.
    assert (Y : (inject_Z (2 ^ Z.log2 (Z.pos m)) * pow2q e <= inject_Z (Z.pos m) * pow2q e)%Q).
    { apply Qmult_le_compat_r; [|apply Qlt_le_weak, pow2q_pos]. rewrite <- Zle_Qle. apply Z.log2_spec. lia. }
    change (pow2q 127) with (inject_Z (2 ^ 127)) in X. lra. }

  assert (QN : Qnum (q_of (S754_finite s m e)) = (if s then Z.neg m else Z.pos m) * Qnum (pow2q e) /\ Qden (q_of (S754_finite s m e)) = Qden (pow2q e)).
  { unfold q_of. destruct s; split; reflexivity. }
  destruct QN as [QN QD]. unfold flt_of_Q. rewrite QN, QD. clear QN QD.
  destruct (pow2q_split e) as [P1 P2]. destruct (Z_lt_ge_dec e 0) as [L|G].
  - destruct (P1 L) as [-> ->]. rewrite Z.log2_pow2 by lia. rewrite Z.mul_1_r.
    replace (- - e) with e by lia. unfold binary_normalize.
    assert (N : let r := binary_round p64 e64 s m e in finite r = true /\ (q_of r == sgn s (inject_Z (Z.pos m) * pow2q e))%Q).
    { apply norm_value; [lia|]. exists 0. split; [lia|]. split; [apply Z.mod_1_r|]. lia. }
    cbv zeta in N.
    destruct s; destruct N as [N1 N2]; (split; [exact N1|]); rewrite N2; symmetry; apply q_of_finite.
  - destruct (P2 ltac:(lia)) as [-> ->]. change (- Z.log2 1) with 0.
    set (m' := Z.to_pos (Z.pos m * 2 ^ e)).
    assert (PE : 0 < 2 ^ e) by (apply Z.pow_pos_nonneg; lia).
    assert (EM : Z.pos m' = Z.pos m * 2 ^ e) by (apply Z2Pos.id; lia).
    assert (N : let r := binary_round p64 e64 s m' 0 in finite r = true /\ (q_of r == sgn s (inject_Z (Z.pos m') * pow2q 0))%Q).
    { assert (LM : Z.log2 (Z.pos m') = e + Z.log2 (Z.pos m)) by (rewrite EM, Z.log2_mul_pow2 by lia; reflexivity).
      apply norm_value; [lia|]. exists e. split; [lia|]. split; [rewrite EM; apply Z.mod_mul; lia|]. lia. }
    cbv zeta in N.
    assert (EQ : (inject_Z (Z.pos m') * pow2q 0 == inject_Z (Z.pos m) * pow2q e)%Q).
    { rewrite EM, inject_Z_mult, (pow2q_nonneg e) by lia. change (pow2q 0) with 1%Q. ring. }
    unfold binary_normalize. destruct s.
    + replace (Z.neg m * 2 ^ e) with (Z.neg m') by lia. destruct N as [N1 N2]. split; [exact N1|]. rewrite N2, q_of_finite. unfold sgn. rewrite EQ. reflexivity.
    + replace (Z.pos m * 2 ^ e) with (Z.pos m') by lia. destruct N as [N1 N2]. split; [exact N1|]. rewrite N2, q_of_finite. unfold sgn. rewrite EQ. reflexivity.
Qed.

(** Storing as binary32 a value that packs: relative error at most 2^-23. *)
Lemma np32_error x w e : finite x = true -> pack_f32 e x = Ok w ->
  finite (np32 x) = true /\ (Qabs (q_of (np32 x) - q_of x) <= Qabs (q_of x) * pow2q (-23) + pow2q (-149))%Q.
Proof.
  intros F H. destruct x as [s| | |s m ex]; try discriminate F; [split; [reflexivity|]; vm_compute; discriminate|].
  unfold pack_f32, to32 in H. cbn [np32].
  destruct (round_value p32 e32 s m ex ltac:(unfold p32; lia) ltac:(unfold e32; lia)) as [[I _]|(I & K & _)].
  { rewrite I in H. discriminate H. }
  split; [exact I|].
  assert (EQ : (q_of (S754_finite s m ex) == sgn s (inject_Z (Z.pos m) * pow2q ex))%Q) by apply q_of_finite.
  assert (A : (Qabs (q_of (S754_finite s m ex)) == inject_Z (Z.pos m) * pow2q ex)%Q).
  { rewrite EQ. assert (0 < inject_Z (Z.pos m) * pow2q ex)%Q by (apply Qmult_lt_0_compat; [reflexivity|apply pow2q_pos]).
    unfold sgn. destruct s; [rewrite Qabs_opp|]; apply Qabs_pos; lra. }
  rewrite A. clear A. setoid_rewrite EQ. exact K.
Qed.

(** The powers of two used as scale are exact. *)
Lemma scale_back k : -32 <= k <= 126 -> (q_of (np32 (flt_of_Q (pow2 (- k)))) == pow2 (- k))%Q.
Proof.
  intros H. assert (A : forallb (fun k => Qeq_bool (q_of (np32 (flt_of_Q (pow2 (- (k - 32)))))) (pow2 (- (k - 32)))) (zrange 159) = true) by (vm_compute; reflexivity).
  rewrite forallb_forall in A. specialize (A (k + 32) ltac:(apply zrange_in; lia)). cbv beta in A. replace (k + 32 - 32) with k in A by lia.
  apply Qeq_bool_iff. exact A.
Qed.

(** ** The packed block read back *)
Definition miss_back : Q := q_of (np32 missing_float).
Lemma miss_back_val : (miss_back == q_of missing_float)%Q.
Proof. vm_compute. reflexivity. Qed.

Lemma read_block e o p b dn nf ptr pk cells ws : geom_ok (gd_geom o) ->
  pk = PK_GRIB -> grid_words e (gd_geom o) pk (gd_precision o) cells = Ok ws -> words_at ws ptr b ->
  Zlen cells = gm_nx (gd_geom o) * gm_ny (gd_geom o) ->
  exists ref scale packed, pack_grib (map q_of cells) (q_of missing_float) (gd_precision o) = Ok (ref, scale, packed) /\
    (exists w, pack_f32 e (flt_of_Q ref) = Ok w) /\ forallb finite cells = true /\
    exists vals, unpack_grib packed (gd_precision o) (Zlen cells) (q_of (np32 (flt_of_Q ref))) (q_of (np32 (flt_of_Q scale))) (Some miss_back) = Ok vals /\
    read_grid_at (file_of e (grid_head o) grid_part p b (Some (gnav_of (gd_geom o) dn)) nf) 2
      (gm_nx (gd_geom o)) (gm_ny (gd_geom o)) ptr = Ok (if Zlen packed >? 1 then Some (CQ vals) else None).
Proof.
  intros (_ & GX & GY) -> H HW HN. unfold grid_words in H. rewrite Z.eqb_refl in H.
  destruct (forallb finite cells) eqn:EF; cbn [negb] in H; [|discriminate H].
  destruct (pack_grib _ _ _) as [[[ref scale] packed]|] eqn:EP; cbn [bind] in H; [|discriminate H].
  destruct (pack_i32 e (Zlen packed + 2 + 6)) as [w1|] eqn:E1; cbn [bind] in H; [|discriminate H].
  destruct (pack_i32 e (gm_nx (gd_geom o))) as [w2|] eqn:E2; cbn [bind] in H; [|discriminate H].
  destruct (pack_i32 e (gm_ny (gd_geom o))) as [w3|] eqn:E3; cbn [bind] in H; [|discriminate H].
  destruct (pack_i32 e PK_GRIB) as [w4|] eqn:E4; cbn [bind] in H; [|discriminate H].
  destruct (pack_i32 e (gd_precision o)) as [w5|] eqn:E5; cbn [bind] in H; [|discriminate H].
  destruct (pack_i32 e (-1)) as [w6|] eqn:E6; cbn [bind] in H; [|discriminate H].
  destruct (pack_i32 e (gm_nx (gd_geom o) * gm_ny (gd_geom o))) as [w7|] eqn:E7; cbn [bind] in H; [|discriminate H].
  destruct (pack_f32 e (flt_of_Q ref)) as [w8|] eqn:E8; cbn [bind] in H; [|discriminate H].
  destruct (pack_f32 e (flt_of_Q scale)) as [w9|] eqn:E9; cbn [bind] in H; [|discriminate H].
  destruct (mapM (pack_i32 e) packed) as [wp|] eqn:EW; cbn [bind] in H; [|discriminate H].
  apply ok_inj in H. subst ws. exists ref, scale, packed. split; [reflexivity|].
  assert (LM : Zlen (map q_of cells) = Zlen cells) by apply Zlen_map.
  destruct (unpack_pack_grib _ _ _ _ _ _ (Some miss_back) (q_of (np32 (flt_of_Q ref))) EP) as (k & (Hs & Hk) & codes & HF & HU).
  assert (HUW : exists us, unpack_words packed (gd_precision o) (Zlen cells) = Ok us /\ length us = length cells).
  { unfold unpack_grib in HU. rewrite LM in HU. destruct (unpack_words packed (gd_precision o) (Zlen cells)) as [us|]; cbn [bind] in HU; [|discriminate HU].
    exists us. split; [reflexivity|]. apply ok_inj in HU. apply (f_equal (@length Q)) in HU. rewrite !map_length in HU. rewrite HU.
    assert (HFL : length (map q_of cells) = length codes) by (clear - HF; induction HF; cbn; congruence).
    rewrite map_length in HFL. congruence. }
  destruct HUW as (us & HUW & LU).
  split.
  { exists w8. exact E8. }
  split; [reflexivity|].
  exists (map (reconstruct (Some miss_back) (2 ^ gd_precision o - 1) (q_of (np32 (flt_of_Q ref))) (q_of (np32 (flt_of_Q scale)))) us).
  split; [unfold unpack_grib; rewrite HUW; reflexivity|].
  (* reading *)
  pose proof (ints_words _ _ _ EW) as [WP LP].
  assert (W9 : word_list [w1;w2;w3;w4;w5;w6;w7;w8;w9]).
  { repeat (constructor; [first [eapply pack_i32_length; eassumption|eapply pack_f32_length; eassumption]|]). constructor. }
  destruct HW as [HW|HW]; [discriminate HW|].
  change (w1 :: w2 :: w3 :: w4 :: w5 :: w6 :: w7 :: w8 :: w9 :: wp) with ([w1;w2;w3;w4;w5;w6;w7;w8;w9] ++ wp) in HW.
  apply app_concat_has in HW as [HA HB]; [|exact W9]. change (4 * Zlen [w1;w2;w3;w4;w5;w6;w7;w8;w9]) with 36 in HB.
  assert (HWd : forall i w, nth_error [w1;w2;w3;w4;w5;w6;w7;w8;w9] i = Some w -> has_at b (4 * (ptr - 1) + 4 * Z.of_nat i) w).
  { intros i w. apply has_at_word; assumption. }
  unfold read_grid_at. set (g := file_of e (grid_head o) grid_part p b (Some (gnav_of (gd_geom o) dn)) nf).
  change (gf_endian g) with e. change (gf_data g) with b. change (q_of (lb_missing_float (gf_label g))) with miss_back.
  unfold word_to_position. replace (ptr * 4 - 4) with (4 * (ptr - 1)) by lia. change ((2 + 1) * 4 - 4) with 8.
  rewrite (rd_next_word b (4 * (ptr - 1)) w1) by (first [eapply pack_i32_length; eassumption|specialize (HWd O w1 eq_refl); cbn in HWd; rewrite Z.add_0_r in HWd; exact HWd]).
  rewrite (rd_uint_int e b (4 * (ptr - 1)) (Zlen packed + 2 + 6) w1 E1); [|pose proof (Zlen_nonneg packed); lia|].
  2: { specialize (HWd O w1 eq_refl). cbn in HWd. rewrite Z.add_0_r in HWd. exact HWd. }
  replace (4 * (ptr - 1) + 4 + 8) with (4 * (ptr - 1) + 12) by lia.
  rewrite (rd_next_word b (4 * (ptr - 1) + 12) w4) by (first [eapply pack_i32_length; eassumption|exact (HWd 3%nat w4 eq_refl)]).
  rewrite (rd_uint_int e b (4 * (ptr - 1) + 12) PK_GRIB w4 E4); [|vm_compute; discriminate|exact (HWd 3%nat w4 eq_refl)].
  cbv zeta. change (PK_GRIB =? 0) with false. change ((PK_GRIB =? 1) || (PK_GRIB =? 4)) with true. cbn iota.
  replace (4 * (ptr - 1) + 12 + 4) with (4 * (ptr - 1) + 16) by lia.
  assert (HA2 := HA). change [w1;w2;w3;w4;w5;w6;w7;w8;w9] with ([w1;w2;w3;w4] ++ [w5;w6;w7] ++ [w8;w9]) in HA2.
  apply app_concat_has in HA2 as [_ HA2]; [|inversion W9 as [|? ? q1 W8]; inversion W8 as [|? ? q2 W7]; inversion W7 as [|? ? q3 W6]; inversion W6 as [|? ? q4 W5]; repeat (constructor; [assumption|]); constructor].
  change (4 * Zlen [w1;w2;w3;w4]) with 16 in HA2.
  apply app_concat_has in HA2 as [HI HR]; [|repeat (constructor; [eapply pack_i32_length; eassumption|]); constructor].
  change (4 * Zlen [w5;w6;w7]) with 12 in HR.
  unfold meta. rewrite (rd_packed e (repeat FInt 3) [VInt (gd_precision o); VInt (-1); VInt (gm_nx (gd_geom o) * gm_ny (gd_geom o))] [w5;w6;w7]);
    [|repeat (constructor; [assumption|]); constructor|exact HI].
  rewrite (rd_packed e (repeat FFloat 2) [VFloat (flt_of_Q ref); VFloat (flt_of_Q scale)] [w8;w9]);
    [|repeat (constructor; [assumption|]); constructor|exact HR].
  cbn [repeat stored_vals stored bind as_ints mapM as_int qs as_float].
  unfold nth_z. change (py_index [gd_precision o; -1; gm_nx (gd_geom o) * gm_ny (gd_geom o)] 0) with (Ok (gd_precision o)).
  change (py_index [gd_precision o; -1; gm_nx (gd_geom o) * gm_ny (gd_geom o)] 1) with (Ok (-1)).
  change (py_index [gd_precision o; -1; gm_nx (gd_geom o) * gm_ny (gd_geom o)] 2) with (Ok (gm_nx (gd_geom o) * gm_ny (gd_geom o))).
  cbn [bind].
  set (r32 := q_of (np32 (flt_of_Q ref))). set (s32 := q_of (np32 (flt_of_Q scale))).
  change (py_index [r32; s32] 0) with (Ok r32). change (py_index [r32; s32] 1) with (Ok s32). cbn [bind].
  assert (NN : 0 <= gm_nx (gd_geom o) * gm_ny (gd_geom o)) by nia.
  destruct (Z.ltb_spec (gm_nx (gd_geom o) * gm_ny (gd_geom o)) 0) as [?|_]; [lia|]. cbn [bind].
  unfold rd_array. replace (Zlen packed + 2 + 6 - 2 - 6) with (Zlen packed) by lia.
  destruct (Z.ltb_spec (Zlen packed) 0) as [X|_]; [pose proof (Zlen_nonneg packed); lia|].
  rewrite Zlen_length. replace (4 * (ptr - 1) + 16 + 20) with (4 * (ptr - 1) + 36) by lia.
  rewrite (rd_packed e (repeat FInt (length packed)) (map VInt packed) wp (b) _ (packed_ints _ _ _ EW) HB).
  rewrite stored_ints. cbn [bind]. rewrite as_ints_map. cbn [bind].
  change (-1 =? 0) with false. cbn iota. unfold read_grib_grid. rewrite <- HN.
  destruct (Zlen packed >? 1); [|reflexivity].
  unfold unpack_grib. rewrite HUW. cbn [bind]. unfold reshape. rewrite Zlen_map.
  replace (Zlen us) with (Zlen cells) by (unfold Zlen; rewrite LU; reflexivity). rewrite HN.
  replace (gm_ny (gd_geom o) * gm_nx (gd_geom o)) with (gm_nx (gd_geom o) * gm_ny (gd_geom o)) by lia. rewrite Z.eqb_refl.
  replace (gm_nx (gd_geom o) <? 0) with false by lia. replace (gm_ny (gd_geom o) <? 0) with false by lia. reflexivity.
Qed.

(** Opening a file and reading one of its grids. *)
Lemma grid_ptr e o p b dn nf info j c : head_pointers (grid_head o) = p -> gcoherent o -> gsaved e o p b -> In (j, c) (indexed (gd_col_headers o)) ->
  let ptr := grid_pointer (rg_file (gopened e o p b dn nf info)) j 0 in
  match dict_get gcol_cmp c (gd_data o) with
  | None => ptr = 0
  | Some cells => exists ws, grid_words e (gd_geom o) (gd_packing o) (gd_precision o) cells = Ok ws /\ words_at ws ptr b
  end.
Proof.
  intros HP HC [_ _ S3 _] HI. cbv zeta. unfold grid_pointer, gopened. cbn [rg_file].
  set (g := file_of e (grid_head o) grid_part p b (Some (gnav_of (gd_geom o) dn)) nf).
  change (gf_endian g) with e. change (gf_data g) with b. change (lb_parts (gf_label g)) with 1.
  change (lb_data_block_ptr (gf_label g)) with (data_block_ptr p). change (lb_columns (gf_label g)) with (gd_cols o).
  unfold word_to_position. replace (data_block_ptr p + 0 * gd_cols o * 1 + (j * 1 + 0)) with (data_block_ptr p + j) by lia.
  replace ((data_block_ptr p + j) * 4 - 4) with (4 * (data_block_ptr p + j - 1)) by lia.
  destruct (grid_data_ptrs o p HC HP) as (_ & _ & D2).
  assert (NN : 0 <= next_free_word p).
  { pose proof (layout_order _ (grid_head_ok _ HC)) as LO. cbv zeta in LO. rewrite HP in LO. rewrite HC in D2.
    pose proof (Zlen_nonneg (gd_col_headers o)). pose proof (Zlen_nonneg (hd_row_names (grid_head o))).
    pose proof (Zlen_nonneg (hd_column_names (grid_head o))). clear - LO D2 H H0 H1. lia. }
  set (it := (data_block_ptr p + j, match dict_get gcol_cmp c (gd_data o) with Some cells => Some (grid_words e (gd_geom o) (gd_packing o) (gd_precision o) cells) | None => None end)).
  assert (II : In it (grid_items e o (data_block_ptr p))).
  { unfold grid_items. apply in_map_iff. exists (j, c). split; [reflexivity|exact HI]. }
  destruct (items_at_in _ _ _ _ _ S3 II) as [G|G]; [|lia]. unfold it in G. cbn [fst snd] in G.
  destruct (dict_get gcol_cmp c (gd_data o)) as [cells|]; [|exact G].
  destruct G as (ws & nf' & G1 & _ & G2 & G3). exists ws. split; [exact G1|]. rewrite G2. exact G3.
Qed.

Lemma read_gsaved e o p b dn nf info j c cells : head_pointers (grid_head o) = p -> gcoherent o -> geom_ok (gd_geom o) ->
  gd_packing o = PK_GRIB -> gsaved e o p b ->
  In (j, c) (indexed (gd_col_headers o)) -> dict_get gcol_cmp c (gd_data o) = Some cells ->
  Zlen cells = gm_nx (gd_geom o) * gm_ny (gd_geom o) ->
  exists ref scale packed, pack_grib (map q_of cells) (q_of missing_float) (gd_precision o) = Ok (ref, scale, packed) /\
    (exists w, pack_f32 e (flt_of_Q ref) = Ok w) /\ forallb finite cells = true /\
    exists vals, unpack_grib packed (gd_precision o) (Zlen cells) (q_of (np32 (flt_of_Q ref))) (q_of (np32 (flt_of_Q scale))) (Some miss_back) = Ok vals /\
    read_grid (gopened e o p b dn nf info) j = Ok (if Zlen packed >? 1 then [CQ vals] else []).
Proof.
  intros HP HC HG HK HS HI HD HN. pose proof (grid_ptr e o p b dn nf info j c HP HC HS HI) as G. cbv zeta in G. rewrite HD in G.
  destruct G as (ws & G1 & G2).
  destruct (read_block e o p b dn nf _ _ cells ws HG HK G1 G2 HN) as (ref & scale & packed & R1 & R2 & R3 & vals & R4 & R5).
  exists ref, scale, packed. split; [exact R1|]. split; [exact R2|]. split; [exact R3|]. exists vals. split; [exact R4|].
  unfold read_grid. unfold gopened at 1 2. cbn [rg_file].
  set (f := gopened e o p b dn nf info) in *.
  set (g := file_of e (grid_head o) grid_part p b (Some (gnav_of (gd_geom o) dn)) nf) in *.
  change (rg_file f) with g in *. change (gf_nav g) with (Some (gnav_of (gd_geom o) dn)). cbn [bind].
  change (nv_kx (gnav_of (gd_geom o) dn)) with (gm_nx (gd_geom o)). change (nv_ky (gnav_of (gd_geom o) dn)) with (gm_ny (gd_geom o)).
  change (indexed (gf_parts g)) with [(0, mk_rpart k_GRID 2 DT_GRID 1)].
  cbn [mapM rp_header_length bind]. rewrite R5. cbn [bind flat_map app].
  destruct (Zlen packed >? 1); reflexivity.
Qed.
