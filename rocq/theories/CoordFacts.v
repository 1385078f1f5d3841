(** int(x * 100) for binary64 x: the product is rounded, then truncated (no axioms). *)
From Coq Require Import Lia ZifyBool ZifyNat QArith Qabs.
From Verif Require Import Base BaseFacts Floats FloatsFacts Strings Dates Headers Order.
Open Scope Z_scope.

(** Exponent increase of the rounding of M * 2^E. *)
Definition shift_of (M E : Z) : Z := Z.max 0 (Z.max (Z.log2 M + 1 + E - 53) (-1074) - E).

(** A float with sign [s] and magnitude m * 2^e. *)
Definition is_val (r : flt) (s : bool) (m e : Z) : Prop :=
  (m = 0 /\ r = S754_zero s) \/ (exists p, m = Z.pos p /\ r = S754_finite s p e) \/
  (m = 2 ^ 53 /\ r = S754_finite s 4503599627370496 (e + 1)).

(** Shifting out zeros keeps the value exact. *)
Lemma iter_shr_exact p : forall m, 0 <= m ->
  iter_pos shr_1 p (Build_shr_record (m * 2 ^ Z.pos p) false false) = Build_shr_record m false false.
Proof.
  assert (S1 : forall m, 0 <= m -> shr_1 (Build_shr_record (m * 2) false false) = Build_shr_record m false false).
  { intros [|q|q] H; [reflexivity| |lia]. rewrite Z.mul_comm. reflexivity. }
  induction p as [p IH|p IH|]; intros m H; cbn [iter_pos].
  - replace (m * 2 ^ Z.pos p~1) with (m * 2 ^ Z.pos p * 2 ^ Z.pos p * 2).
    + assert (0 <= 2 ^ Z.pos p) by (apply Z.pow_nonneg; lia). rewrite S1 by nia. rewrite IH by nia. apply IH. exact H.
    + rewrite (Pos2Z.inj_xI p). replace (2 * Z.pos p + 1) with (Z.pos p + Z.pos p + 1) by lia. rewrite !Z.pow_add_r by lia. change (2 ^ 1) with 2. ring.
  - replace (m * 2 ^ Z.pos p~0) with (m * 2 ^ Z.pos p * 2 ^ Z.pos p).
    + assert (0 <= 2 ^ Z.pos p) by (apply Z.pow_nonneg; lia). rewrite IH by nia. apply IH. exact H.
    + rewrite (Pos2Z.inj_xO p). replace (2 * Z.pos p) with (Z.pos p + Z.pos p) by lia. rewrite !Z.pow_add_r by lia. ring.
  - apply S1. exact H.
Qed.

(** Rounding gives one of the two neighbours on the grid of the result's exponent. *)
Lemma round_aux_value s M E l : 0 < M -> E + shift_of M E <= 970 ->
  exists m2, is_val (binary_round_aux p64 e64 s M E l) s m2 (E + shift_of M E) /\
    M / 2 ^ shift_of M E <= m2 <= M / 2 ^ shift_of M E + 1 /\
    (M mod 2 ^ shift_of M E = 0 -> l = loc_Exact -> m2 = M / 2 ^ shift_of M E).
Proof.
  intros HM HE. unfold binary_round_aux, shr_fexp at 1.
  rewrite Zdigits2_log2 by lia.
  set (k := fexp p64 e64 (Z.log2 M + 1 + E) - E).
  pose proof (Z.log2_spec M HM) as Hlog. pose proof (Z.log2_nonneg M) as Hl0.
  assert (Hf : fexp p64 e64 (Z.log2 M + 1 + E) = Z.max (Z.log2 M + 1 + E - 53) (-1074)) by reflexivity.
  assert (Hk : shift_of M E = Z.max 0 k) by (unfold shift_of, k; rewrite Hf; reflexivity).
  set (k' := shift_of M E) in *.
  assert (Hs : exists mrs, shr (shr_record_of_loc M l) E k = (mrs, E + k') /\ shr_m mrs = M / 2 ^ k' /\
            (M mod 2 ^ k' = 0 -> l = loc_Exact -> loc_of_shr_record mrs = loc_Exact)).
  { destruct k as [|p|p] eqn:Ek; cbn [shr].
    - exists (shr_record_of_loc M l). rewrite Hk. split; [f_equal; lia|]. rewrite shr_m_of_loc. cbn. rewrite Z.div_1_r.
      split; [reflexivity|]. intros _ ->. reflexivity.
    - exists (iter_pos shr_1 p (shr_record_of_loc M l)). rewrite Hk. split; [f_equal; lia|].
      rewrite iter_shr_m by (rewrite shr_m_of_loc; lia). rewrite shr_m_of_loc. split; [reflexivity|].
      change (Z.max 0 (Z.pos p)) with (Z.pos p). intros HD ->. cbn [shr_record_of_loc].
      rewrite (Z.div_mod M (2 ^ Z.pos p)) by (apply Z.pow_nonzero; lia). rewrite HD, Z.add_0_r, Z.mul_comm.
      rewrite iter_shr_exact by (apply Z.div_pos; [lia|apply Z.pow_pos_nonneg; lia]). reflexivity.
    - exists (shr_record_of_loc M l). rewrite Hk. split; [f_equal; lia|]. rewrite shr_m_of_loc. cbn. rewrite Z.div_1_r.
      split; [reflexivity|]. intros _ ->. reflexivity. }
  destruct Hs as (mrs & Es & Em & Ex). rewrite Es.
  set (m1 := shr_m mrs) in *. set (e1 := E + k') in *.
  assert (Hk' : 0 <= k') by lia.
  assert (Hp : 0 < 2 ^ k') by (apply Z.pow_pos_nonneg; lia).
  assert (Hm1 : 0 <= m1 < 2 ^ 53).
  { rewrite Em. split; [apply Z.div_pos; lia|]. apply Z.div_lt_upper_bound; [lia|].
    rewrite <- Z.pow_add_r by lia.
    apply Z.lt_le_trans with (2 ^ Z.succ (Z.log2 M)); [lia|]. apply Z.pow_le_mono_r; lia. }
  assert (He1lo : -1074 <= e1) by lia.
  set (m2 := round_nearest_even m1 (loc_of_shr_record mrs)).
  assert (Hm2 : m1 <= m2 <= m1 + 1) by (destruct (rne_cases m1 (loc_of_shr_record mrs)); subst m2; lia).
  assert (Hex : M mod 2 ^ k' = 0 -> l = loc_Exact -> m2 = M / 2 ^ k').
  { intros K L. subst m2. rewrite (Ex K L). cbn [round_nearest_even]. exact Em. }
  clearbody m2.
  exists m2. split; [|split; [rewrite <- Em; assumption|assumption]].
  unfold shr_fexp. unfold is_val. destruct (Z.eq_dec m2 0) as [Z0|NZ].
  - left. split; [assumption|]. rewrite Z0. cbn [Zdigits2].
    assert (Hn : fexp p64 e64 (0 + e1) - e1 <= 0) by (unfold fexp, emin, p64, e64; lia).
    destruct (fexp p64 e64 (0 + e1) - e1); cbn [shr]; try lia; reflexivity.
  - right. rewrite Zdigits2_log2 by lia.
    destruct (Z.eq_dec m2 (2 ^ 53)) as [E53|N53].
    + right. split; [assumption|]. rewrite E53. change (Z.log2 (2 ^ 53)) with 53.
      replace (fexp p64 e64 (53 + 1 + e1) - e1) with 1 by (unfold fexp, emin, p64, e64; lia).
      cbn -[Z.add Zle_bool]. change (e64 - p64) with 971.
      replace (Zle_bool (e1 + 1) 971) with true by (symmetry; apply Z.leb_le; lia). reflexivity.
    + left. assert (L : Z.log2 m2 < 53) by (apply Z.log2_lt_pow2; lia).
      assert (Hn : fexp p64 e64 (Z.log2 m2 + 1 + e1) - e1 <= 0) by (unfold fexp, emin, p64, e64; lia).
      destruct m2 as [|p|p]; try lia. exists p. split; [reflexivity|].
      destruct (fexp p64 e64 (Z.log2 (Z.pos p) + 1 + e1) - e1); cbn [shr]; try lia; cbn [shr_m shr_record_of_loc];
      change (e64 - p64) with 971; replace (Zle_bool e1 971) with true by (symmetry; apply Z.leb_le; lia); reflexivity.
Qed.

Lemma round_floor s M E : (0 < M) -> E < 0 -> M < 2 ^ 52 * 2 ^ (- E) ->
  exists t, (int_of_float (binary_round_aux p64 e64 s M E loc_Exact) = Ok (if s then - t else t)) /\
    M / 2 ^ (- E) <= t <= M / 2 ^ (- E) + 1.
Proof.
  intros HM HE HV.
  pose proof (Z.log2_spec M HM) as Hlog. pose proof (Z.log2_nonneg M) as Hl0.
  assert (Hsh : shift_of M E = Z.max 0 (Z.max (Z.log2 M + 1 + E - 53) (-1074) - E)) by reflexivity.
  assert (He1 : E + shift_of M E <= 0).
  { destruct (Z.le_gt_cases (E + shift_of M E) 0); [assumption|]. exfalso.
    assert (Hk1 : shift_of M E = Z.log2 M + 1 - 53) by lia.
    assert (2 ^ 52 * 2 ^ (- E) <= M); [|lia].
    rewrite <- Z.pow_add_r by lia. apply Z.le_trans with (2 ^ Z.log2 M); [|lia].
    apply Z.pow_le_mono_r; lia. }
  destruct (round_aux_value s M E loc_Exact HM ltac:(lia)) as (m2 & HV2 & Hm2 & _).
  set (k' := shift_of M E) in *. set (e1 := E + k') in *.
  assert (P1 : 0 < 2 ^ (- e1)) by (apply Z.pow_pos_nonneg; lia).
  exists (m2 / 2 ^ (- e1)). split.
  - destruct HV2 as [[A ->]|[(p & A & ->)|[A ->]]]; rewrite A.
    + rewrite Z.div_0_l by lia. destruct s; reflexivity.
    + cbn [int_of_float]. unfold trunc_mag. destruct (Z.ltb_spec e1 0).
      * reflexivity.
      * replace e1 with 0 by lia. cbn [Z.opp Z.pow]. rewrite Z.mul_1_r, Z.div_1_r. reflexivity.
    + cbn [int_of_float]. unfold trunc_mag. 
      assert (G : (if e1 + 1 <? 0 then 4503599627370496 / 2 ^ (- (e1 + 1)) else 4503599627370496 * 2 ^ (e1 + 1)) = 2 ^ 53 / 2 ^ (- e1)).
      { destruct (Z.ltb_spec (e1 + 1) 0).
        - replace (- e1) with (1 + - (e1 + 1)) by lia. rewrite Z.pow_add_r by lia.
          change (2 ^ 53) with (2 ^ 1 * 4503599627370496). rewrite Z.div_mul_cancel_l by (try apply Z.pow_nonzero; lia). reflexivity.
        - assert (e1 = 0 \/ e1 = -1) as [-> | ->] by lia; reflexivity. }
      rewrite G. reflexivity.
  - assert (F : M / 2 ^ (- E) = M / 2 ^ k' / 2 ^ (- e1)).
    { rewrite Z.div_div; [|apply Z.pow_nonzero; lia|lia]. rewrite <- Z.pow_add_r by lia. do 2 f_equal. lia. }
    rewrite F. split; [apply Z.div_le_mono; lia|].
    apply Z.le_trans with ((M / 2 ^ k' + 1 * 2 ^ (- e1)) / 2 ^ (- e1)); [apply Z.div_le_mono; lia|].
    rewrite Z.div_add by lia. lia.
Qed.

(** int() of a float given as a sign, a magnitude and an exponent that is not positive *)
Lemma int_of_val r s m e : is_val r s m e -> e <= 0 -> int_of_float r = Ok (if s then - (m / 2 ^ (- e)) else m / 2 ^ (- e)).
Proof.
  intros HV He. destruct HV as [[A ->]|[(p & A & ->)|[A ->]]]; rewrite A.
  - rewrite Z.div_0_l by (apply Z.pow_nonzero; lia). destruct s; reflexivity.
  - cbn [int_of_float]. unfold trunc_mag. destruct (Z.ltb_spec e 0); [reflexivity|].
    replace e with 0 by lia. cbn [Z.opp Z.pow]. rewrite Z.mul_1_r, Z.div_1_r. reflexivity.
  - cbn [int_of_float]. unfold trunc_mag.
    assert (G : (if e + 1 <? 0 then 4503599627370496 / 2 ^ (- (e + 1)) else 4503599627370496 * 2 ^ (e + 1)) = 2 ^ 53 / 2 ^ (- e)).
    { destruct (Z.ltb_spec (e + 1) 0).
      - replace (- e) with (1 + - (e + 1)) by lia. rewrite Z.pow_add_r by lia.
        change (2 ^ 53) with (2 ^ 1 * 4503599627370496). rewrite Z.div_mul_cancel_l by (try apply Z.pow_nonzero; lia). reflexivity.
      - assert (e = 0 \/ e = -1) as [-> | ->] by lia; reflexivity. }
    rewrite G. reflexivity.
Qed.
(** A product that is a whole number below 2^53 is exact. *)
Lemma round_whole s V E : 0 < V < 2 ^ 53 -> E <= 0 ->
  int_of_float (binary_round_aux p64 e64 s (V * 2 ^ (- E)) E loc_Exact) = Ok (if s then - V else V).
Proof.
  intros HV HE. set (M := V * 2 ^ (- E)).
  assert (PE : 0 < 2 ^ (- E)) by (apply Z.pow_pos_nonneg; lia).
  assert (HM : 0 < M) by (unfold M; nia).
  assert (LM : Z.log2 M = Z.log2 V - E) by (unfold M; rewrite Z.log2_mul_pow2 by lia; lia).
  assert (LV : Z.log2 V < 53) by (apply Z.log2_lt_pow2; lia).
  assert (SK : 0 <= shift_of M E <= - E) by (unfold shift_of; rewrite LM; lia).
  destruct (round_aux_value s M E loc_Exact HM ltac:(lia)) as (m2 & HV2 & _ & HX). clear LM.
  set (k := shift_of M E) in *. clearbody k.
  assert (PK : 0 < 2 ^ k) by (apply Z.pow_pos_nonneg; lia).
  assert (EM : M = V * 2 ^ (- (E + k)) * 2 ^ k).
  { unfold M. replace (- E) with (- (E + k) + k) by lia. rewrite Z.pow_add_r by lia. ring. }
  assert (D0 : M mod 2 ^ k = 0) by (rewrite EM; apply Z.mod_mul; lia).
  specialize (HX D0 eq_refl). rewrite EM, Z.div_mul in HX by lia. subst m2.
  rewrite (int_of_val _ _ _ _ HV2) by lia.
  assert (PQ : 2 ^ (- (E + k)) <> 0) by (apply Z.pow_nonzero; lia).
  rewrite Z.div_mul by exact PQ. reflexivity.
Qed.

Lemma of_Z_100 : of_Z 100 = S754_finite false 7036874417766400 (-46).
Proof. reflexivity. Qed.

Lemma pow2q_shift e j : 0 <= j -> 0 <= e + j -> (pow2q e * inject_Z (2 ^ j) == inject_Z (2 ^ (e + j)))%Q.
Proof.
  intros Hj He. unfold pow2q. destruct (Z.ltb_spec e 0).
  - assert (P : 0 < 2 ^ (- e)) by (apply Z.pow_pos_nonneg; lia).
    replace j with (- e + (e + j)) at 1 by lia. rewrite Z.pow_add_r by lia.
    unfold Qeq, inject_Z. cbn [Qmult Qnum Qden]. rewrite ?Pos.mul_1_r, ?Z.mul_1_l, ?Z.mul_1_r, Z2Pos.id by assumption. ring.
  - rewrite <- inject_Z_mult, <- Z.pow_add_r by lia. reflexivity.
Qed.

Lemma abs_bound (k n d : Z) (q : Q) : 0 < d -> (q * inject_Z d == inject_Z n)%Q ->
  n / d <= k <= n / d + 1 -> (Qabs (inject_Z k - q) <= 1)%Q.
Proof.
  intros Hd Hq Hk.
  assert (Q1 : (q == n # Z.to_pos d)%Q).
  { assert (~ (inject_Z d == 0)%Q) by (intros X; change 0%Q with (inject_Z 0) in X; rewrite inject_Z_injective in X; lia).
    apply (Qmult_inj_r _ _ (inject_Z d)); [assumption|]. rewrite Hq. unfold Qeq, inject_Z. cbn [Qmult Qnum Qden].
    rewrite ?Pos.mul_1_r, ?Z.mul_1_l, ?Z.mul_1_r, Z2Pos.id by assumption. lia. }
  rewrite Q1. apply Qabs_Qle_condition.
  pose proof (Z.div_mod n d ltac:(lia)) as DM. pose proof (Z.mod_pos_bound n d ltac:(lia)) as MB.
  unfold Qle, Qminus, Qplus, Qopp, inject_Z. cbn [Qnum Qden Z.opp].
  rewrite ?Pos.mul_1_l, ?Pos.mul_1_r, ?Z.mul_1_l, ?Z.mul_1_r, Z2Pos.id by assumption.
  set (a := n / d) in *. set (r := n mod d) in *. clearbody a r. subst n.
  assert (a = k \/ a = k - 1) as [-> | ->] by lia; nia.
Qed.

(** The stored hundredths are within one of 100 times the coordinate and on the same side of
    zero. *)
Lemma enc_coord_float f : valid64 f = true -> finite f = true -> (Qabs (q_of f) < inject_Z (2 ^ 45))%Q ->
  exists z, enc_coord (PFloat f) = Ok z /\ (Qabs (inject_Z z - 100 * q_of f) <= 1)%Q /\
    (0 <= inject_Z z * q_of f)%Q.
Proof.
  intros V F B. destruct f as [s|s| |s m e]; try discriminate F.
  - exists 0. cbn [enc_coord]. rewrite of_Z_100. cbn. split; [reflexivity|]. split; discriminate.
  - cbn [enc_coord]. rewrite of_Z_100. unfold fmul. cbn [SFmul]. rewrite xorb_false_r.
    set (M := Z.pos (m * 7036874417766400)). set (E := e + -46).
    assert (HM : M = Z.pos m * 7036874417766400) by reflexivity. clearbody M.
    pose (x := (inject_Z (Z.pos m) * pow2q e)%Q).
    assert (P2 : (0 <= pow2q e)%Q).
    { unfold pow2q. destruct (e <? 0); [discriminate|]. change 0%Q with (inject_Z 0). rewrite <- Zle_Qle.
      apply Z.pow_nonneg; lia. }
    assert (X0 : (0 <= x)%Q) by (apply Qmult_le_0_compat; [discriminate|assumption]).
    assert (Eq : (q_of (S754_finite s m e) == if s then - x else x)%Q).
    { unfold q_of, x. destruct s; [|reflexivity]. change (Z.neg m) with (- Z.pos m). rewrite inject_Z_opp. ring. }
    assert (B' : (x < inject_Z (2 ^ 45))%Q).
    { rewrite Eq in B. destruct s; [rewrite Qabs_opp in B|]; rewrite Qabs_pos in B; assumption. }
    assert (He : e < 45).
    { destruct (Z.lt_ge_cases e 45) as [|G]; [assumption|]. exfalso. revert B'.
      apply Qle_not_lt. unfold x, pow2q. replace (e <? 0) with false by lia. rewrite <- inject_Z_mult, <- Zle_Qle.
      assert (2 ^ 45 <= 2 ^ e) by (apply Z.pow_le_mono_r; lia). nia. }
    set (D := 2 ^ (- E)). assert (HD : 0 < D) by (apply Z.pow_pos_nonneg; lia).
    assert (XM : (100 * x * inject_Z D == inject_Z M)%Q).
    { unfold x. setoid_replace (100 * (inject_Z (Z.pos m) * pow2q e) * inject_Z D)%Q
        with (100 * inject_Z (Z.pos m) * (pow2q e * inject_Z D))%Q by ring.
      unfold D. rewrite pow2q_shift by lia. replace (e + - E) with 46 by lia.
      change 100%Q with (inject_Z 100). rewrite <- !inject_Z_mult. rewrite HM. f_equiv.
      change (2 ^ 46) with 70368744177664. lia. }
    assert (MB : M < 2 ^ 52 * D).
    { rewrite Zlt_Qlt, <- XM, inject_Z_mult. apply Qmult_lt_r.
      - change 0%Q with (inject_Z 0). rewrite <- Zlt_Qlt. assumption.
      - apply Qlt_le_trans with (100 * inject_Z (2 ^ 45))%Q.
        + apply Qmult_lt_l; [reflexivity|assumption].
        + discriminate. }
    destruct (round_floor s M E ltac:(lia) ltac:(lia) MB) as (t & T1 & T2). fold D in T2.
    exists (if s then - t else t). split; [exact T1|].
    pose proof (abs_bound t M D (100 * x)%Q HD XM T2) as AB.
    assert (T0 : 0 <= t) by (assert (0 <= M / D) by (apply Z.div_pos; lia); lia).
    assert (T0' : (0 <= inject_Z t)%Q) by (change 0%Q with (inject_Z 0); rewrite <- Zle_Qle; assumption).
    rewrite Eq. destruct s.
    + rewrite inject_Z_opp. split.
      * setoid_replace (- inject_Z t - 100 * - x)%Q with (- (inject_Z t - 100 * x))%Q by ring.
        rewrite Qabs_opp. exact AB.
      * setoid_replace (- inject_Z t * - x)%Q with (inject_Z t * x)%Q by ring.
        apply Qmult_le_0_compat; assumption.
    + split; [exact AB|]. apply Qmult_le_0_compat; assumption.
Qed.

(** A whole coordinate is stored exactly, whether it is given as a float or as an int. *)
Lemma enc_coord_whole f n : finite f = true -> (q_of f == inject_Z n)%Q -> Z.abs n < 2 ^ 45 ->
  enc_coord (PFloat f) = Ok (n * 100).
Proof.
  intros F Q B. destruct f as [s|s| |s m e]; try discriminate F.
  - change (inject_Z 0 == inject_Z n)%Q in Q. rewrite inject_Z_injective in Q. subst n. destruct s; reflexivity.
  - cbn [enc_coord]. rewrite of_Z_100. unfold fmul. cbn [SFmul]. rewrite xorb_false_r.
    assert (A : (inject_Z (Z.pos m) * pow2q e == inject_Z (Z.abs n))%Q /\ n = (if s then - Z.abs n else Z.abs n) /\ 0 < Z.abs n).
    { assert (P : (0 < inject_Z (Z.pos m) * pow2q e)%Q).
      { apply Qmult_lt_0_compat; [reflexivity|]. unfold pow2q. destruct (Z.ltb_spec e 0); [reflexivity|].
        change 0%Q with (inject_Z 0). rewrite <- Zlt_Qlt. apply Z.pow_pos_nonneg; lia. }
      unfold q_of in Q. destruct s.
      - change (Z.neg m) with (- Z.pos m) in Q. rewrite inject_Z_opp in Q.
        assert (Q' : (inject_Z (Z.pos m) * pow2q e == inject_Z (- n))%Q) by (rewrite inject_Z_opp, <- Q; ring).
        rewrite Q' in P. change 0%Q with (inject_Z 0) in P. rewrite <- Zlt_Qlt in P.
        replace (Z.abs n) with (- n) by lia. split; [exact Q'|]. lia.
      - rewrite Q in P. change 0%Q with (inject_Z 0) in P. rewrite <- Zlt_Qlt in P.
        replace (Z.abs n) with n by lia. split; [exact Q|]. lia. }
    destruct A as (A1 & A2 & A3). set (V := Z.abs n) in *. clearbody V. clear Q.
    assert (He : e < 45).
    { destruct (Z.lt_ge_cases e 45) as [|G]; [assumption|]. exfalso.
      unfold pow2q in A1. replace (e <? 0) with false in A1 by lia. rewrite <- inject_Z_mult in A1. rewrite inject_Z_injective in A1.
      assert (2 ^ 45 <= 2 ^ e) by (apply Z.pow_le_mono_r; lia). nia. }
    assert (EM : Z.pos (m * 7036874417766400) = (V * 100) * 2 ^ (- (e + -46))).
    { rewrite <- inject_Z_injective. set (D := 2 ^ (- (e + -46))).
      assert (A4 : (inject_Z (Z.pos m) * (pow2q e * inject_Z D) == inject_Z V * inject_Z D)%Q) by (rewrite <- A1; ring).
      unfold D in A4 at 1. rewrite pow2q_shift in A4 by lia. replace (e + - (e + -46)) with 46 in A4 by lia.
      rewrite <- !inject_Z_mult in A4. rewrite inject_Z_injective in A4. f_equiv. rewrite Pos2Z.inj_mul.
      change (2 ^ 46) with 70368744177664 in A4. lia. }
    rewrite EM. rewrite round_whole by lia. f_equal. rewrite A2. destruct s; lia.
Qed.

Lemma enc_coord_int n : enc_coord (PInt n) = Ok (n * 100).
Proof. reflexivity. Qed.

(** float(z) is exact below 2^53. *)
Lemma of_Z_exact (s : bool) p : Z.pos p < 2 ^ 53 ->
  let d := 52 - Z.log2 (Z.pos p) in
  exists m, of_Z (if s then Z.neg p else Z.pos p) = S754_finite s m (- d) /\ Z.pos m = Z.pos p * 2 ^ d /\ 0 <= d <= 52.
Proof.
  intros H d. assert (L : Z.log2 (Z.pos p) < 53) by (apply Z.log2_lt_pow2; lia).
  pose proof (Z.log2_nonneg (Z.pos p)) as L0.
  assert (E : of_Z (if s then Z.neg p else Z.pos p) = binary_round p64 e64 s p 0) by (destruct s; reflexivity).
  rewrite E. unfold binary_round. rewrite digits2_pos_log2.
  assert (F : fexp p64 e64 (Z.log2 (Z.pos p) + 1 + 0) = - d) by (unfold fexp, emin, p64, e64, d; lia).
  rewrite F. unfold shl_align. rewrite Z.sub_0_r.
  set (P := if d =? 0 then p else shift_pos (Z.to_pos d) p).
  assert (HP : Z.pos P = Z.pos p * 2 ^ d).
  { unfold P. destruct (Z.eqb_spec d 0) as [->|]; [cbn; lia|]. rewrite shift_pos_mul, Z2Pos.id by lia. reflexivity. }
  assert (S : match - d with Z.neg d0 => (shift_pos d0 p, - d) | _ => (p, 0) end = (P, - d)).
  { unfold P. destruct (Z.eqb_spec d 0) as [->|]; [reflexivity|]. destruct d as [|q|q] eqn:Ed; [lia| |lia]. reflexivity. }
  rewrite S.
  assert (LP : Z.log2 (Z.pos P) = 52).
  { rewrite HP, Z.log2_mul_pow2 by lia. lia. }
  assert (SH : shift_of (Z.pos P) (- d) = 0) by (unfold shift_of; rewrite LP; lia).
  destruct (round_aux_value s (Z.pos P) (- d) loc_Exact ltac:(lia)) as (m2 & V & _ & X); [rewrite SH; lia|].
  rewrite SH, Z.add_0_r in V. rewrite SH in X. cbn [Z.pow] in X. rewrite Z.mod_1_r, Z.div_1_r in X. specialize (X eq_refl eq_refl). subst m2.
  destruct V as [[A _]|[(q & A & ->)|[A _]]]; [discriminate| |].
  - injection A as <-. exists P. repeat split; try assumption; lia.
  - exfalso. rewrite A in LP. discriminate LP.
Qed.

Lemma is_val_q r s m e : is_val r s m e -> finite r = true /\ (q_of r == (if s then -1 else 1) * (inject_Z m * pow2q e))%Q.
Proof.
  intros [[A ->]|[(p & A & ->)|[A ->]]]; (split; [reflexivity|]); rewrite A.
  - cbn. ring.
  - unfold q_of. destruct s; [change (Z.neg p) with (- Z.pos p); rewrite inject_Z_opp|]; ring.
  - unfold q_of. assert (X : (pow2q (e + 1) == 2 * pow2q e)%Q).
    { set (j := Z.abs e + 2).
      assert (P : (0 < inject_Z (2 ^ j))%Q) by (change 0%Q with (inject_Z 0); rewrite <- Zlt_Qlt; apply Z.pow_pos_nonneg; lia).
      apply (Qmult_inj_r _ _ (inject_Z (2 ^ j))); [intros C; rewrite C in P; discriminate|].
      rewrite pow2q_shift by lia. setoid_replace (2 * pow2q e * inject_Z (2 ^ j))%Q with (2 * (pow2q e * inject_Z (2 ^ j)))%Q by ring.
      rewrite pow2q_shift by lia. change 2%Q with (inject_Z 2). rewrite <- inject_Z_mult. f_equiv.
      replace (e + 1 + j) with (1 + (e + j)) by lia. rewrite Z.pow_add_r by lia. reflexivity. }
    rewrite X. destruct s.
    + change (inject_Z (Z.neg 4503599627370496)) with (-4503599627370496)%Q. change (inject_Z (2 ^ 53)) with 9007199254740992%Q. ring.
    + change (inject_Z (Z.pos 4503599627370496)) with 4503599627370496%Q. change (inject_Z (2 ^ 53)) with 9007199254740992%Q. ring.
Qed.

Lemma pow2q_pos e : (0 < pow2q e)%Q.
Proof.
  unfold pow2q. destruct (e <? 0) eqn:E; [reflexivity|]. change 0%Q with (inject_Z 0). rewrite <- Zlt_Qlt.
  apply Z.pow_pos_nonneg; lia.
Qed.
Lemma pow2q_mono e f : e <= f -> (pow2q e <= pow2q f)%Q.
Proof.
  intros H. set (j := Z.abs e + Z.abs f).
  assert (P : (0 < inject_Z (2 ^ j))%Q) by (change 0%Q with (inject_Z 0); rewrite <- Zlt_Qlt; apply Z.pow_pos_nonneg; lia).
  apply (Qmult_le_r _ _ (inject_Z (2 ^ j)) P). rewrite !pow2q_shift by lia. rewrite <- Zle_Qle. apply Z.pow_le_mono_r; lia.
Qed.
(** The reported coordinate is the stored hundredths divided by 100, to within 2^-27. *)
Lemma dec_coord_err z : - 2 ^ 31 <= z < 2 ^ 31 ->
  finite (dec_coord z) = true /\ valid64 (dec_coord z) = true /\
  (Qabs (q_of (dec_coord z) - inject_Z z / 100) <= 1 # 134217728)%Q.
Proof.
  intros Hz. destruct (Z.eq_dec z 0) as [->|NZ].
  { split; [reflexivity|split; [reflexivity|]]. vm_compute. discriminate. }
  assert (Hp : exists (s : bool) p, z = (if s then Z.neg p else Z.pos p) /\ Z.pos p <= 2 ^ 31).
  { destruct z as [|p|p]; [congruence| |]; [exists false, p|exists true, p]; split; try reflexivity; lia. }
  destruct Hp as (s & p & Ez & Hp31). rewrite Ez.
  destruct (of_Z_exact s p ltac:(lia)) as (m & Em & Hm & Hd).
  set (d := 52 - Z.log2 (Z.pos p)) in *.
  assert (Hlog : Z.log2 (Z.pos p) <= 31) by (change 31 with (Z.log2 (2 ^ 31)); apply Z.log2_le_mono; lia).
  unfold dec_coord, fdiv. rewrite Em, of_Z_100. cbn [SFdiv]. rewrite xorb_false_r.
  assert (Lm : Z.log2 (Z.pos m) = 52) by (rewrite Hm, Z.log2_mul_pow2 by lia; lia).
  unfold SFdiv_core_binary. rewrite !Zdigits2_log2 by lia. rewrite Lm.
  change (Z.log2 7036874417766400) with 52.
  replace (Z.min (fexp p64 e64 (52 + 1 + - d - (52 + 1 + -46))) (- d - -46)) with (- d - 7)
    by (unfold fexp, emin, p64, e64; lia).
  replace (- d - -46 - (- d - 7)) with 53 by lia. cbv iota. rewrite Z.shiftl_mul_pow2 by lia.
  assert (PL : 2 ^ 52 <= Z.pos m < 2 ^ 53).
  { pose proof (Z.log2_spec (Z.pos m) ltac:(lia)) as X. rewrite Lm in X. exact X. }
  set (N := Z.pos m * 2 ^ 53). set (D := 7036874417766400).
  pose proof (Z_div_mod N D ltac:(unfold D; lia)) as DM. destruct (Z.div_eucl N D) as [q r]. destruct DM as [DM Rb].
  assert (Hq : 2 ^ 52 <= q < 2 ^ 54) by (unfold N, D in *; clear - DM Rb PL; lia).
  assert (Lq : 52 <= Z.log2 q <= 53).
  { split; [change 52 with (Z.log2 (2 ^ 52)); apply Z.log2_le_mono; lia|].
    assert (Z.log2 q < 54) by (apply Z.log2_lt_pow2; lia). lia. }
  set (k := shift_of q (- d - 7)).
  assert (Hk : 0 <= k <= 1) by (unfold k, shift_of; lia).
  destruct (round_aux_value s q (- d - 7) (new_location D r) ltac:(lia) ltac:(lia)) as (m2 & V & B2 & _).
  fold k in V, B2.
  pose proof (binary_round_aux_valid p64 e64 eq_refl s q (- d - 7) (new_location D r)) as VAL.
  set (R := binary_round_aux p64 e64 s q (- d - 7) (new_location D r)) in *.
  assert (VR : valid64 R = true).
  { apply VAL; [lia|]. rewrite Zdigits2_log2 by lia. unfold fexp, emin, p64, e64. lia. }
  apply is_val_q in V as [Vf Vq]. split; [exact Vf|]. split; [exact VR|].
  rewrite Vq.
  set (e1 := - d - 7 + k) in *.
  set (t := (inject_Z N / inject_Z (D * 2 ^ k))%Q).
  assert (PK : 0 < 2 ^ k) by (apply Z.pow_pos_nonneg; lia).
  assert (PD : ~ (inject_Z (D * 2 ^ k) == 0)%Q).
  { intros C. change 0%Q with (inject_Z 0) in C. rewrite inject_Z_injective in C. unfold D in C. lia. }
  assert (Ht : (t * inject_Z (D * 2 ^ k) == inject_Z N)%Q) by (unfold t; field; exact PD).
  assert (AB : (Qabs (inject_Z m2 - t) <= 1)%Q).
  { apply (abs_bound m2 N (D * 2 ^ k) t); [unfold D; lia|exact Ht|].
    rewrite <- Z.div_div by (unfold D; lia).
    replace (N / D) with q by (apply Z.div_unique with r; unfold D in *; lia). exact B2. }
  assert (TV : (inject_Z (Z.pos p) / 100 == t * pow2q e1)%Q).
  { apply (Qmult_inj_r _ _ (inject_Z (D * 2 ^ k)) PD).
    setoid_replace (t * pow2q e1 * inject_Z (D * 2 ^ k))%Q with (t * inject_Z (D * 2 ^ k) * pow2q e1)%Q by ring.
    rewrite Ht. unfold N. rewrite Hm. unfold D. change 7036874417766400 with (100 * 2 ^ 46).
    replace (Z.pos p * 2 ^ d * 2 ^ 53) with (Z.pos p * 2 ^ (d + 53)) by (rewrite Z.pow_add_r by lia; ring).
    replace (100 * 2 ^ 46 * 2 ^ k) with (100 * 2 ^ (46 + k)) by (rewrite Z.pow_add_r by lia; ring).
    rewrite !inject_Z_mult. change (inject_Z 100) with 100%Q.
    setoid_replace (inject_Z (Z.pos p) * inject_Z (2 ^ (d + 53)) * pow2q e1)%Q
      with (inject_Z (Z.pos p) * (pow2q e1 * inject_Z (2 ^ (d + 53))))%Q by ring.
    rewrite pow2q_shift by lia. replace (e1 + (d + 53)) with (46 + k) by lia. field. }
  assert (U : (pow2q e1 <= 1 # 134217728)%Q).
  { apply Qle_trans with (pow2q (-27)); [apply pow2q_mono; lia|discriminate]. }
  pose proof (pow2q_pos e1) as UP.
  assert (SG : (Qabs ((inject_Z m2 - t) * pow2q e1) <= 1 # 134217728)%Q).
  { rewrite Qabs_Qmult, (Qabs_pos (pow2q e1)) by (apply Qlt_le_weak; exact UP).
    apply Qle_trans with (1 * pow2q e1)%Q; [apply Qmult_le_compat_r; [exact AB|apply Qlt_le_weak; exact UP]|].
    rewrite Qmult_1_l. exact U. }
  destruct s.
  - change (Z.neg p) with (- Z.pos p). rewrite inject_Z_opp.
    setoid_replace (- inject_Z (Z.pos p) / 100)%Q with (- (inject_Z (Z.pos p) / 100))%Q by field.
    rewrite TV.
    setoid_replace (-1 * (inject_Z m2 * pow2q e1) - - (t * pow2q e1))%Q with (- ((inject_Z m2 - t) * pow2q e1))%Q by ring.
    rewrite Qabs_opp. exact SG.
  - rewrite TV.
    setoid_replace (1 * (inject_Z m2 * pow2q e1) - t * pow2q e1)%Q with ((inject_Z m2 - t) * pow2q e1)%Q by ring.
    exact SG.
Qed.

Lemma finite_bound_le x y b c : (Qabs (x - y) <= b)%Q -> (Qabs y <= c)%Q -> (Qabs x <= b + c)%Q.
Proof.
  intros H1 H2. setoid_replace x with ((x - y) + y)%Q by ring.
  apply Qle_trans with (Qabs (x - y) + Qabs y)%Q; [apply Qabs_triangle|]. apply Qplus_le_compat; assumption.
Qed.

(** Re-encoding a decoded coordinate moves it by at most one hundredth. *)
Lemma coord_cycle z : - 2 ^ 31 <= z < 2 ^ 31 ->
  exists z', enc_coord (PFloat (dec_coord z)) = Ok z' /\ z - 1 <= z' <= z + 1.
Proof.
  intros Hz. destruct (dec_coord_err z Hz) as (F & V & B).
  assert (Z31 : (Qabs (inject_Z z / 100) <= inject_Z (2 ^ 31))%Q).
  { apply Qabs_Qle_condition. split.
    - apply Qle_shift_div_l; [reflexivity|]. rewrite <- inject_Z_opp. change 100%Q with (inject_Z 100).
      rewrite <- inject_Z_mult, <- Zle_Qle. lia.
    - apply Qle_shift_div_r; [reflexivity|]. change 100%Q with (inject_Z 100).
      rewrite <- inject_Z_mult, <- Zle_Qle. lia. }
  destruct (enc_coord_float (dec_coord z) V F) as (z' & E & B' & _).
  { apply Qle_lt_trans with ((1 # 134217728) + inject_Z (2 ^ 31))%Q; [|reflexivity].
    apply finite_bound_le with (inject_Z z / 100)%Q; assumption. }
  exists z'. split; [exact E|].
  set (x := q_of (dec_coord z)) in *.
  assert (D : (Qabs (inject_Z z' - inject_Z z) < inject_Z 2)%Q).
  { setoid_replace (inject_Z z' - inject_Z z)%Q with ((inject_Z z' - 100 * x) + 100 * (x - inject_Z z / 100))%Q by field.
    apply Qle_lt_trans with (1 + 100 * (1 # 134217728))%Q; [|reflexivity].
    eapply Qle_trans; [apply Qabs_triangle|]. apply Qplus_le_compat; [exact B'|].
    rewrite Qabs_Qmult. change (Qabs 100) with 100%Q. apply Qmult_le_l; [reflexivity|exact B]. }
  apply Qabs_Qlt_condition in D as [D1 D2]. unfold Qminus in D1, D2. rewrite <- !inject_Z_opp, <- inject_Z_plus in *.
  rewrite <- Zlt_Qlt in *. lia.
Qed.
