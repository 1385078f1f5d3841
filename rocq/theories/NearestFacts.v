(** The quotient of two integers, computed as a floating-point division of exact numbers, is the
    nearest double.  Uses Flocq and hence the axioms of the real numbers. *)
From Coq Require Import ZArith QArith Qabs Reals Qreals Lia Lra.
From Verif Require Import Base Floats Order SpecNearest.
From Flocq Require Import Core BinarySingleNaN.
Open Scope Z_scope.

Lemma round_same sx mx ex lx : SpecFloat.binary_round_aux p64 e64 sx mx ex lx = binary_round_aux p64 e64 mode_NE sx mx ex lx.
Proof.
  unfold SpecFloat.binary_round_aux, binary_round_aux. destruct (shr_fexp _ _ _ _ _) as [mrs e].
  replace (choice_mode mode_NE sx (shr_m mrs) (loc_of_shr_record mrs)) with (round_nearest_even (shr_m mrs) (loc_of_shr_record mrs)); [reflexivity|].
  destruct (loc_of_shr_record mrs) as [|[]]; try reflexivity. cbn. unfold Round.cond_incr. destruct (Z.even _); reflexivity.
Qed.

Lemma value_R f : finite f = true -> Q2R (q_of f) = SF2R radix2 f.
Proof.
  destruct f as [s| | |s m e]; cbn [finite]; intros H; try discriminate H.
  - cbn. unfold Q2R. cbn. lra.
  - cbn [q_of SF2R]. rewrite Q2R_mult. unfold F2R. cbn [Fnum Fexp].
    assert (A : Q2R (if s then inject_Z (Z.neg m) else inject_Z (Z.pos m)) = IZR (SpecFloat.cond_Zopp s (Z.pos m))).
    { destruct s; unfold Q2R, inject_Z; cbn [Qnum Qden SpecFloat.cond_Zopp]; rewrite Rinv_1, Rmult_1_r; reflexivity. }
    rewrite A. f_equal. unfold pow2q. destruct (Z.ltb_spec e 0) as [L|L].
    + unfold Q2R. cbn [Qnum Qden]. rewrite Rmult_1_l. rewrite Z2Pos.id by (apply Z.pow_pos_nonneg; lia).
      replace e with (- (- e)) at 2 by lia. rewrite bpow_opp. f_equal. rewrite <- (IZR_Zpower radix2) by lia. reflexivity.
    + unfold Q2R, inject_Z. cbn [Qnum Qden]. rewrite Rinv_1, Rmult_1_r. rewrite <- (IZR_Zpower radix2) by lia. reflexivity.
Qed.

#[local] Instance prec64_pos : Prec_gt_0 p64.
Proof. reflexivity. Qed.
#[local] Instance prec64_emax : Prec_lt_emax p64 e64.
Proof. reflexivity. Qed.

Lemma valid_format f : valid64 f = true -> finite f = true -> generic_format radix2 (SpecFloat.fexp p64 e64) (SF2R radix2 f).
Proof.
  intros V _. pose proof (generic_format_B2R p64 e64 (SF2B f V)) as G. rewrite B2R_SF2B in G. exact G.
Qed.

Lemma quotient_nearest (neg : bool) n d : (Z.pos n <= 2 ^ 1000 * Z.pos d) ->
  nearest ((if neg : bool then Z.neg n else Z.pos n) # d) (SFdiv p64 e64 (S754_finite neg n 0) (S754_finite false d 0)).
Proof.
  intros L. pose proof (Bdiv_correct_aux p64 e64 prec64_pos prec64_emax mode_NE neg n 0 false d 0) as B. cbv zeta in B.
  cbn [SFdiv]. destruct (SFdiv_core_binary p64 e64 (Z.pos n) 0 (Z.pos d) 0) as [[mz ez] lz].
  rewrite round_same. set (z := binary_round_aux _ _ _ _ _ _ _) in *. destruct B as [V B].
  set (x := (F2R {| Fnum := SpecFloat.cond_Zopp neg (Z.pos n); Fexp := 0 |} / F2R {| Fnum := SpecFloat.cond_Zopp false (Z.pos d); Fexp := 0 |})%R) in *.
  assert (XQ : x = Q2R ((if neg : bool then Z.neg n else Z.pos n) # d)).
  { unfold x, F2R, Q2R. cbn [Fnum Fexp Qnum Qden bpow]. rewrite !Rmult_1_r. unfold Rdiv. destruct neg; reflexivity. }
  assert (DP : (0 < IZR (Z.pos d))%R) by (apply IZR_lt; lia).
  assert (XB : (Rabs x <= bpow radix2 1000)%R).
  { rewrite XQ. unfold Q2R. cbn [Qnum Qden]. rewrite Rabs_mult, (Rabs_pos_eq (/ _)) by (left; apply Rinv_0_lt_compat, DP).
    apply (Rmult_le_reg_r (IZR (Z.pos d))); [exact DP|]. rewrite Rmult_assoc, Rinv_l, Rmult_1_r by lra.
    rewrite <- (IZR_Zpower radix2) by lia. rewrite <- mult_IZR, <- abs_IZR. apply IZR_le.
    change (Zpower radix2 1000) with (2 ^ 1000). destruct neg; cbn [Z.abs]; exact L. }
  assert (RB : (Rabs (round radix2 (SpecFloat.fexp p64 e64) (round_mode mode_NE) x) < bpow radix2 e64)%R).
  { apply Rle_lt_trans with (bpow radix2 1000); [|apply bpow_lt; reflexivity].
    apply abs_round_le_generic; [apply (fexp_correct p64 e64 prec64_pos)|apply valid_rnd_N| |exact XB]. apply generic_format_bpow. vm_compute. discriminate. }
  rewrite Rlt_bool_true in B by exact RB. destruct B as (B & F & _).
  assert (FF : finite z = true) by (clear - F; clearbody z; destruct z; try discriminate F; reflexivity).
  split; [exact V|]. split; [exact FF|]. intros g VG FG.
  apply Rle_Qle. 
  assert (QA : forall q, Q2R (Qabs q) = Rabs (Q2R q)).
  { intros q. apply Qabs_case; intros C.
    - rewrite Rabs_pos_eq; [reflexivity|]. replace 0%R with (Q2R 0) by (unfold Q2R; cbn; lra). apply Qle_Rle, C.
    - rewrite Q2R_opp, Rabs_left1; [reflexivity|]. replace 0%R with (Q2R 0) by (unfold Q2R; cbn; lra). apply Qle_Rle, C. }
  rewrite !QA, !Q2R_minus, !value_R, <- XQ by assumption. rewrite B.
  apply (round_N_pt radix2 (fexp p64 e64)). apply valid_format; assumption.
Qed.
