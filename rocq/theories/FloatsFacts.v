(** Lemmas about Floats.v: validity of rounding and bit-pattern round trip (no axioms). *)
From Coq Require Import Lia ZifyBool ZifyNat.
From Verif Require Import Base BaseFacts Floats.

Lemma digits2_pos_log2 m : Z.pos (digits2_pos m) = Z.log2 (Z.pos m) + 1.
Proof.
  induction m as [m IH|m IH|]; cbn [digits2_pos]; [| |reflexivity].
  - rewrite Pos2Z.inj_succ, IH. rewrite (Pos2Z.inj_xI m), Z.log2_succ_double by lia. lia.
  - rewrite Pos2Z.inj_succ, IH. rewrite (Pos2Z.inj_xO m), Z.log2_double by lia. lia.
Qed.

Lemma Zdigits2_log2 m : 0 < m -> Zdigits2 m = Z.log2 m + 1.
Proof. destruct m; intros; try lia. cbn [Zdigits2]. apply digits2_pos_log2. Qed.

Lemma shr_1_m mrs : 0 <= shr_m mrs -> shr_m (shr_1 mrs) = shr_m mrs / 2.
Proof.
  destruct mrs as [m r s]; cbn. intros H. destruct m as [|[p|p|]|p]; cbn [shr_m]; try lia;
  try reflexivity.
Qed.

Lemma iter_shr_m p mrs : 0 <= shr_m mrs ->
  shr_m (iter_pos shr_1 p mrs) = shr_m mrs / 2 ^ Z.pos p.
Proof.
  revert mrs; induction p as [p IH|p IH|]; intros mrs H; cbn [iter_pos].
  - assert (0 <= shr_m (shr_1 mrs)) by (rewrite shr_1_m by assumption; apply Z.div_pos; lia).
    rewrite !IH; rewrite ?IH; try assumption; try (apply Z.div_pos; lia).
    rewrite shr_1_m by assumption.
    rewrite !Z.div_div by (try apply Z.pow_nonzero; lia).
    rewrite (Pos2Z.inj_xI p). f_equal.
    rewrite Z.pow_add_r, Z.pow_mul_r by lia. change (2^1) with 2.
    change (2 ^ 2) with (2 * 2). rewrite Z.pow_mul_l. ring.
  - rewrite !IH; rewrite ?IH; try assumption; try (apply Z.div_pos; lia).
    rewrite !Z.div_div by (try apply Z.pow_nonzero; lia).
    rewrite (Pos2Z.inj_xO p). f_equal. rewrite <- Z.pow_add_r by lia. f_equal. lia.
  - rewrite shr_1_m by assumption. reflexivity.
Qed.

Lemma shr_m_of_loc m l : shr_m (shr_record_of_loc m l) = m.
Proof. destruct l as [|[]]; reflexivity. Qed.

Lemma shr_spec m l e k : 0 <= m -> 0 <= k ->
  shr_m (fst (shr (shr_record_of_loc m l) e k)) = m / 2 ^ k /\
  snd (shr (shr_record_of_loc m l) e k) = e + k.
Proof.
  intros Hm Hk. destruct k as [|p|p]; cbn [shr fst snd]; [|split|lia].
  - rewrite shr_m_of_loc, Z.div_1_r. lia.
  - rewrite iter_shr_m by (rewrite shr_m_of_loc; assumption). rewrite shr_m_of_loc. reflexivity.
  - reflexivity.
Qed.

Lemma rne_cases m l : round_nearest_even m l = m \/ round_nearest_even m l = m + 1.
Proof. destruct l as [|[]]; cbn; try (destruct (Z.even m)); auto. Qed.

Section Valid.
Variables prec emax : Z.
Hypothesis Hprec : 0 < prec.
Hypothesis Hemax : prec < emax.

Lemma binary_round_aux_valid sx mx ex lx :
  0 < mx -> ex <= fexp prec emax (Zdigits2 mx + ex) ->
  valid_binary prec emax (binary_round_aux prec emax sx mx ex lx) = true.
Proof.
  intros Hm Hk. unfold binary_round_aux, shr_fexp at 1.
  rewrite Zdigits2_log2 in * by lia.
  remember (fexp prec emax (Z.log2 mx + 1 + ex) - ex) as k eqn:Hkd.
  destruct (shr_spec mx lx ex k) as [H1 H2]; try lia.
  destruct (shr (shr_record_of_loc mx lx) ex k) as [mrs1 e1] eqn:E1. cbn [fst snd] in H1, H2.
  destruct (rne_cases (shr_m mrs1) (loc_of_shr_record mrs1)) as [Hr|Hr];
  set (m2 := round_nearest_even (shr_m mrs1) (loc_of_shr_record mrs1)) in *.
  all: assert (Hm1 : 0 <= shr_m mrs1) by (rewrite H1; apply Z.div_pos; lia).
  all: assert (He1 : e1 = fexp prec emax (Z.log2 mx + 1 + ex)) by lia.
  all: pose proof (Z.log2_spec mx Hm) as Hlog.
  all: pose proof (Z.log2_nonneg mx) as Hlnn.
  all: unfold shr_fexp.
  - destruct (Z.eq_dec m2 0) as [Hz|Hnz].
    + rewrite Hz. cbn [Zdigits2].
      destruct (fexp prec emax (0 + e1) - e1) as [|p|p] eqn:Ek; cbn [shr shr_record_of_loc shr_m];
        try reflexivity.
      rewrite iter_shr_m by (cbn; lia). cbn [shr_m]. reflexivity.
    + assert (Hlm : Z.log2 m2 = Z.log2 mx - k).
      { rewrite Hr, H1, <- Z.shiftr_div_pow2 by lia. rewrite Z.log2_shiftr by lia.
        assert (0 < mx / 2^k) by lia.
        apply Z.max_r.
        destruct (Z_le_gt_dec k (Z.log2 mx)); [lia|].
        exfalso. rewrite Z.div_small in H; [lia|]. split; [lia|].
        apply Z.lt_le_trans with (2 ^ Z.succ (Z.log2 mx)); [lia|].
        apply Z.pow_le_mono_r; lia. }
      rewrite Zdigits2_log2 by lia.
      assert (Hk2 : fexp prec emax (Z.log2 m2 + 1 + e1) - e1 = 0).
      { rewrite Hlm. rewrite He1 at 2.
        replace (Z.log2 mx - k + 1 + e1) with (Z.log2 mx + 1 + ex) by lia. lia. }
      rewrite Hk2. cbn [shr shr_record_of_loc shr_m].
      destruct m2 as [|m|m]; try reflexivity.
      destruct (Zle_bool e1 (emax - prec)) eqn:Hle; [|reflexivity].
      cbn [valid_binary]. unfold bounded. rewrite Hle, andb_true_r.
      unfold canonical_mantissa. rewrite digits2_pos_log2. apply Zeq_is_eq_bool. lia.
  - assert (Hm2 : 0 < m2) by lia.
    rewrite Zdigits2_log2 by lia.
    destruct (Z_le_gt_dec k (Z.log2 mx)) as [Hle|Hgt].
    + assert (Hlm : Z.log2 (shr_m mrs1) = Z.log2 mx - k).
      { rewrite H1, <- Z.shiftr_div_pow2 by lia. rewrite Z.log2_shiftr by lia. lia. }
      assert (Hp1 : 0 < shr_m mrs1).
      { rewrite H1. apply Z.div_str_pos. split; [apply Z.pow_pos_nonneg; lia|].
        apply Z.le_trans with (2 ^ Z.log2 mx); [apply Z.pow_le_mono_r; lia|lia]. }
      pose proof (Z.log2_spec _ Hp1) as Hs1.
      assert (Hd : Z.log2 m2 = Z.log2 (shr_m mrs1) \/
                   (m2 = 2 ^ (Z.log2 (shr_m mrs1) + 1) /\ Z.log2 m2 = Z.log2 (shr_m mrs1) + 1)).
      { destruct (Z.eq_dec (shr_m mrs1 + 1) (2 ^ Z.succ (Z.log2 (shr_m mrs1)))) as [He|Hne].
        - right. rewrite Hr, He. rewrite Z.log2_pow2; [|pose proof (Z.log2_nonneg (shr_m mrs1)); lia].
          split; [f_equal; lia|lia].
        - left. rewrite Hr. apply Z.log2_unique; [apply Z.log2_nonneg|]. lia. }
      destruct Hd as [Hd|[Hd1 Hd2]].
      * assert (Hk2 : fexp prec emax (Z.log2 m2 + 1 + e1) - e1 = 0).
        { rewrite Hd, Hlm. rewrite He1 at 2.
          replace (Z.log2 mx - k + 1 + e1) with (Z.log2 mx + 1 + ex) by lia. lia. }
        rewrite Hk2. cbn [shr shr_record_of_loc shr_m].
        destruct m2 as [|m|m]; try reflexivity.
        destruct (Zle_bool e1 (emax - prec)) eqn:Hle'; [|reflexivity].
        cbn [valid_binary]. unfold bounded. rewrite Hle', andb_true_r.
        unfold canonical_mantissa. rewrite digits2_pos_log2. apply Zeq_is_eq_bool. lia.
      * assert (Hf : fexp prec emax (Z.log2 m2 + 1 + e1) = e1 \/
                     fexp prec emax (Z.log2 m2 + 1 + e1) = e1 + 1).
        { rewrite Hd2, Hlm. rewrite He1.
          replace (Z.log2 mx - k + 1 + 1 + fexp prec emax (Z.log2 mx + 1 + ex))
            with (Z.log2 mx + 1 + ex + 1) by lia.
          unfold fexp. lia. }
        destruct Hf as [Hf|Hf].
        -- replace (fexp prec emax (Z.log2 m2 + 1 + e1) - e1) with 0 by lia.
           cbn [shr shr_record_of_loc shr_m].
           destruct m2 as [|m|m]; try reflexivity.
           destruct (Zle_bool e1 (emax - prec)) eqn:Hle'; [|reflexivity].
           cbn [valid_binary]. unfold bounded. rewrite Hle', andb_true_r.
           unfold canonical_mantissa. rewrite digits2_pos_log2. apply Zeq_is_eq_bool. lia.
        -- replace (fexp prec emax (Z.log2 m2 + 1 + e1) - e1) with 1 by lia.
           destruct (shr_spec m2 loc_Exact e1 1) as [Hs Hs2]; try lia.
           destruct (shr (shr_record_of_loc m2 loc_Exact) e1 1) as [mrs3 e3] eqn:E3.
           cbn [fst snd] in Hs, Hs2.
           assert (Hm3 : shr_m mrs3 = 2 ^ Z.log2 (shr_m mrs1)).
           { rewrite Hs, Hd1. rewrite Z.pow_add_r by (try apply Z.log2_nonneg; lia).
             apply Z.div_mul. lia. }
           rewrite Hm3.
           destruct (2 ^ Z.log2 (shr_m mrs1)) as [|m|m] eqn:Ep; try reflexivity.
           destruct (Zle_bool e3 (emax - prec)) eqn:Hle'; [|reflexivity].
           cbn [valid_binary]. unfold bounded. rewrite Hle', andb_true_r.
           unfold canonical_mantissa. rewrite digits2_pos_log2. apply Zeq_is_eq_bool.
           rewrite <- Ep, Z.log2_pow2 by apply Z.log2_nonneg.
           replace (Z.log2 (shr_m mrs1) + 1 + e3) with (Z.log2 m2 + 1 + e1) by lia. lia.
    + assert (Hz : shr_m mrs1 = 0).
      { rewrite H1. apply Z.div_small. split; [lia|].
        apply Z.lt_le_trans with (2 ^ Z.succ (Z.log2 mx)); [lia|]. apply Z.pow_le_mono_r; lia. }
      assert (Hm21 : m2 = 1) by lia. rewrite Hm21. change (Z.log2 1) with 0.
      assert (Hemin : e1 = emin prec emax) by (unfold fexp in *; lia).
      replace (fexp prec emax (0 + 1 + e1) - e1) with 0 by (unfold fexp in *; lia).
      cbn [shr shr_record_of_loc shr_m].
      destruct (Zle_bool e1 (emax - prec)) eqn:Hle'; [|reflexivity].
      cbn [valid_binary]. unfold bounded. rewrite Hle', andb_true_r.
      unfold canonical_mantissa. apply Zeq_is_eq_bool. cbn [digits2_pos]. unfold fexp in *; lia.
Qed.

Lemma shift_pos_mul d m : Z.pos (shift_pos d m) = Z.pos m * 2 ^ Z.pos d.
Proof. rewrite shift_pos_correct. rewrite Z.mul_comm. reflexivity. Qed.

Lemma log2_shift_pos d m : Z.log2 (Z.pos (shift_pos d m)) = Z.log2 (Z.pos m) + Z.pos d.
Proof. rewrite shift_pos_mul, Z.log2_mul_pow2 by lia. lia. Qed.

Lemma binary_round_valid sx mx ex :
  valid_binary prec emax (binary_round prec emax sx mx ex) = true.
Proof.
  unfold binary_round, shl_align.
  rewrite digits2_pos_log2.
  set (e' := fexp prec emax (Z.log2 (Z.pos mx) + 1 + ex)).
  destruct (e' - ex) as [|d|d] eqn:Ed; apply binary_round_aux_valid; try lia;
  rewrite Zdigits2_log2 by lia; try (fold e'; lia).
  rewrite log2_shift_pos.
  replace (Z.log2 (Z.pos mx) + Z.pos d + 1 + e') with (Z.log2 (Z.pos mx) + 1 + ex) by lia.
  fold e'. lia.
Qed.
End Valid.

Lemma to32_valid x y : to32 x = Ok y -> valid32 y = true.
Proof.
  unfold to32, valid32. destruct x as [s|s| |s m e]; intros H; inv_ok; try reflexivity.
  assert (V : valid_binary p32 e32 (binary_round p32 e32 s m e) = true)
    by (apply binary_round_valid; reflexivity).
  destruct (binary_round p32 e32 s m e); inv_ok; try exact V; discriminate.
Qed.

Lemma np32_valid x : valid32 (np32 x) = true.
Proof.
  unfold np32, valid32. destruct x; try reflexivity. apply binary_round_valid; reflexivity.
Qed.

Lemma np32_of_to32 x y : to32 x = Ok y -> np32 x = y.
Proof.
  unfold to32, np32. destruct x; intros H; inv_ok; try reflexivity.
  destruct (binary_round p32 e32 s m e); inv_ok; try discriminate; reflexivity.
Qed.

Lemma valid32_finite s m e : valid32 (S754_finite s m e) = true ->
  (Z.pos m < 8388608 /\ e = -149) \/ (8388608 <= Z.pos m < 16777216 /\ -149 <= e <= 104).
Proof.
  unfold valid32. cbn [valid_binary]. unfold bounded. intros H.
  apply andb_true_iff in H as [Hc Hb]. unfold canonical_mantissa in Hc.
  apply Zeq_bool_eq in Hc. rewrite digits2_pos_log2 in Hc.
  unfold fexp, emin, p32, e32 in *. apply Zle_bool_imp_le in Hb.
  pose proof (Z.log2_spec (Z.pos m) ltac:(lia)) as Hs.
  destruct (Z_lt_ge_dec (Z.pos m) 8388608) as [Hl|Hg].
  - left. split; [assumption|].
    assert (Z.log2 (Z.pos m) < 23) by (apply Z.log2_lt_pow2; [lia|exact Hl]). lia.
  - right.
    assert (H23 : 23 <= Z.log2 (Z.pos m)) by (apply Z.log2_le_pow2; [lia|change (2 ^ 23) with 8388608; lia]).
    assert (He : Z.log2 (Z.pos m) = 23) by lia.
    rewrite He in Hs. change (2 ^ Z.succ 23) with 16777216 in Hs. lia.
Qed.

Ltac Zify.zify_post_hook ::= Z.div_mod_to_equations.

Lemma f32_bits_range x : valid32 x = true -> 0 <= f32_bits x < two32.
Proof.
  intros V. destruct x as [s|s| |s m e]; cbn [f32_bits]; unfold two31, two32; try (destruct s; lia); try lia.
  apply valid32_finite in V.
  destruct (Z.ltb_spec (Z.pos m) 8388608); destruct s; lia.
Qed.

Lemma f32_roundtrip x : valid32 x = true -> f32_of_bits (f32_bits x) = x.
Proof.
  intros V. destruct x as [s|s| |s m e]; try (destruct s; reflexivity); try reflexivity.
  apply valid32_finite in V. cbn [f32_bits].
  destruct (Z.ltb_spec (Z.pos m) 8388608) as [Hl|Hg].
  - assert (He : e = -149) by lia. subst e.
    set (b := (if s then two31 else 0) + Z.pos m).
    assert (Hex : (b / 8388608) mod 256 = 0) by (unfold b, two31; destruct s; lia).
    assert (Hfr : b mod 8388608 = Z.pos m) by (unfold b, two31; destruct s; lia).
    unfold f32_of_bits. rewrite Hex, Hfr.
    change (0 =? 255) with false. change (0 =? 0) with true. cbn iota.
    f_equal. unfold b, two31. destruct s; lia.
  - set (b := (if s then two31 else 0) + (e + 150) * 8388608 + (Z.pos m - 8388608)).
    assert (Hex : (b / 8388608) mod 256 = e + 150) by (unfold b, two31; destruct s; lia).
    assert (Hfr : b mod 8388608 = Z.pos m - 8388608) by (unfold b, two31; destruct s; lia).
    unfold f32_of_bits. rewrite Hex, Hfr.
    destruct (Z.eqb_spec (e + 150) 255); [lia|]. destruct (Z.eqb_spec (e + 150) 0); [lia|].
    replace (Z.pos m - 8388608 + 8388608) with (Z.pos m) by lia.
    f_equal; [unfold b, two31; destruct s; lia | lia].
Qed.

Lemma pack_f32_ok e x b : pack_f32 e x = Ok b ->
  exists y, to32 x = Ok y /\ valid32 y = true /\ b = enc_uint e 4 (f32_bits y).
Proof.
  unfold pack_f32. intros H. inv_ok. eexists; split; [eassumption|].
  split; [eapply to32_valid; eassumption | reflexivity].
Qed.

Lemma unpack_f32_bits e y : valid32 y = true -> unpack_f32 e (enc_uint e 4 (f32_bits y)) = y.
Proof.
  intros V. unfold unpack_f32. rewrite dec_enc_uint.
  pose proof (f32_bits_range y V) as R.
  rewrite Z.mod_small by exact R. apply f32_roundtrip; exact V.
Qed.

Lemma unpack_pack_f32 e x b : pack_f32 e x = Ok b -> to32 x = Ok (unpack_f32 e b).
Proof.
  intros H. apply pack_f32_ok in H as (y & H1 & V & ->).
  rewrite unpack_f32_bits by exact V. exact H1.
Qed.

Lemma pack_f32_length e x b : pack_f32 e x = Ok b -> length b = 4%nat.
Proof. intros H. apply pack_f32_ok in H as (y & _ & _ & ->). apply enc_uint_length. Qed.

(** sanity checks (tests) *)
Example to32_missing : to32 missing_float = Ok (f32_of_bits 3323739136).
Proof. vm_compute. reflexivity. Qed.
