(** Rounding to any binary format: the result is one of the two neighbours (no axioms). *)
From Coq Require Import Lia ZifyBool ZifyNat QArith Qabs Lqa.
From Verif Require Import Base BaseFacts Floats FloatsFacts Strings Dates Headers Order CoordFacts.
Open Scope Z_scope.

(** What a rounding to mantissa m2 at exponent e can produce *)
Definition outcome (prec emax : Z) (s : bool) (m2 e : Z) (r : flt) : Prop :=
  (r = S754_infinity s /\ emax - prec <= e /\ (e = emax - prec -> m2 = 2 ^ prec)) \/
  (m2 = 0 /\ r = S754_zero s) \/ (exists p, m2 = Z.pos p /\ r = S754_finite s p e) \/
  (exists p, m2 = 2 * Z.pos p /\ r = S754_finite s p (e + 1)).

Section Round.
  Variables prec emax : Z.
  Hypothesis Hp : 2 <= prec.
  Definition lowest := 3 - emax - prec.
  (** Exponent increase of the rounding of M * 2^E. *)
  Definition up (M E : Z) : Z := Z.max 0 (Z.max (Z.log2 M + 1 + E - prec) lowest - E).

  Lemma round_any s M E l : 0 < M ->
    exists m2, M / 2 ^ up M E <= m2 <= M / 2 ^ up M E + 1 /\
      (M mod 2 ^ up M E = 0 -> l = loc_Exact -> m2 = M / 2 ^ up M E) /\
      outcome prec emax s m2 (E + up M E) (binary_round_aux prec emax s M E l).
  Proof.
    intros HM. unfold binary_round_aux, shr_fexp at 1.
    rewrite Zdigits2_log2 by lia.
    set (k := fexp prec emax (Z.log2 M + 1 + E) - E).
    pose proof (Z.log2_spec M HM) as Hlog. pose proof (Z.log2_nonneg M) as Hl0.
    assert (Hf : fexp prec emax (Z.log2 M + 1 + E) = Z.max (Z.log2 M + 1 + E - prec) lowest) by reflexivity.
    assert (Hk : up M E = Z.max 0 k) by (unfold up, k; rewrite Hf; reflexivity).
    set (k' := up M E) in *.
    assert (Hs : exists mrs, shr (shr_record_of_loc M l) E k = (mrs, E + k') /\ shr_m mrs = M / 2 ^ k' /\
              (M mod 2 ^ k' = 0 -> l = loc_Exact -> loc_of_shr_record mrs = loc_Exact)).
    { destruct k as [|p|p] eqn:Ek; cbn [shr].
      - exists (shr_record_of_loc M l). rewrite Hk. split; [f_equal; lia|]. rewrite shr_m_of_loc. cbn. rewrite Z.div_1_r.
        split; [reflexivity|]. intros _ ->. reflexivity.
      - exists (iter_pos shr_1 p (shr_record_of_loc M l)). rewrite Hk. split; [f_equal; lia|].
        rewrite iter_shr_m by (rewrite shr_m_of_loc; lia). rewrite shr_m_of_loc. split; [reflexivity|].
        change (Z.max 0 (Z.pos p)) with (Z.pos p). intros HD ->. cbn [shr_record_of_loc].
        rewrite (Z.div_mod M (2 ^ Z.pos p)) by (apply Z.pow_nonzero; lia). rewrite HD, Z.add_0_r, Z.mul_comm.
        rewrite iter_shr_exact by (apply Z.div_pos; [lia|apply Z.pow_pos_nonneg; lia]). reflexivity.
      - exists (shr_record_of_loc M l). rewrite Hk. split; [f_equal; lia|]. rewrite shr_m_of_loc. cbn. rewrite Z.div_1_r.
        split; [reflexivity|]. intros _ ->. reflexivity. }
    destruct Hs as (mrs & Es & Em & Ex). rewrite Es. cbv beta iota.
    set (m1 := shr_m mrs) in *. set (e1 := E + k') in *.
    assert (Hk' : 0 <= k') by lia.
    assert (Hpk : 0 < 2 ^ k') by (apply Z.pow_pos_nonneg; lia).
    assert (Hm1 : 0 <= m1 < 2 ^ prec).
    { rewrite Em. split; [apply Z.div_pos; lia|]. apply Z.div_lt_upper_bound; [lia|].
      rewrite <- Z.pow_add_r by lia.
      apply Z.lt_le_trans with (2 ^ Z.succ (Z.log2 M)); [lia|]. apply Z.pow_le_mono_r; lia. }
    assert (He1lo : lowest <= e1) by lia.
    set (m2 := round_nearest_even m1 (loc_of_shr_record mrs)).
    assert (Hm2 : m1 <= m2 <= m1 + 1) by (destruct (rne_cases m1 (loc_of_shr_record mrs)); subst m2; lia).
    assert (Hex : M mod 2 ^ k' = 0 -> l = loc_Exact -> m2 = M / 2 ^ k').
    { intros K L. subst m2. rewrite (Ex K L). cbn [round_nearest_even]. exact Em. }
    clearbody m2.
    exists m2. split; [rewrite <- Em; assumption|]. split; [assumption|].
    unfold shr_fexp. destruct (Z.eq_dec m2 0) as [Z0|NZ].
    - unfold outcome. right. left. split; [assumption|]. rewrite Z0. cbn [Zdigits2].
      assert (Hn : fexp prec emax (0 + e1) - e1 <= 0) by (unfold fexp, emin, lowest in *; lia).
      destruct (fexp prec emax (0 + e1) - e1); cbn [shr]; try lia; reflexivity.
    - rewrite Zdigits2_log2 by lia.
      destruct (Z.eq_dec m2 (2 ^ prec)) as [E53|N53].
      + rewrite E53. rewrite Z.log2_pow2 by lia.
        replace (fexp prec emax (prec + 1 + e1) - e1) with 1 by (unfold fexp, emin, lowest in *; lia).
        assert (EP : exists q, 2 ^ prec = 2 * Z.pos q).
        { exists (Z.to_pos (2 ^ (prec - 1))). rewrite Z2Pos.id by (apply Z.pow_pos_nonneg; lia).
          replace prec with (1 + (prec - 1)) at 1 by lia. rewrite Z.pow_add_r by lia. reflexivity. }
        destruct EP as (q & EP). rewrite EP. cbn [shr iter_pos].
        assert (ES : shr_1 (shr_record_of_loc (2 * Z.pos q) loc_Exact) = Build_shr_record (Z.pos q) false false) by reflexivity.
        rewrite ES. cbn [shr_m]. destruct (Zle_bool (e1 + 1) (emax - prec)) eqn:EZ; [|left; split; [reflexivity|split; [apply Z.leb_gt in EZ; fold e1; lia|intros _; symmetry; exact EP]]].
        right. right. right. exists q. split; reflexivity.
      + assert (L : Z.log2 m2 < prec) by (apply Z.log2_lt_pow2; lia).
        assert (Hn : fexp prec emax (Z.log2 m2 + 1 + e1) - e1 <= 0) by (unfold fexp, emin, lowest in *; lia).
        destruct m2 as [|p|p]; try lia.
        assert (ES : shr (shr_record_of_loc (Z.pos p) loc_Exact) e1 (fexp prec emax (Z.log2 (Z.pos p) + 1 + e1) - e1)
                     = (shr_record_of_loc (Z.pos p) loc_Exact, e1)).
        { destruct (fexp prec emax (Z.log2 (Z.pos p) + 1 + e1) - e1); cbn [shr]; try lia; reflexivity. }
        rewrite ES. cbn [shr_m shr_record_of_loc].
        destruct (Zle_bool e1 (emax - prec)) eqn:EZ; [|left; split; [reflexivity|split; [apply Z.leb_gt in EZ; fold e1; lia|intros ?; apply Z.leb_gt in EZ; unfold e1 in *; lia]]].
        right. right. left. exists p. split; reflexivity.
  Qed.
End Round.

Lemma pow2q_add a b : (pow2q (a + b) == pow2q a * pow2q b)%Q.
Proof.
  set (j := Z.abs a). set (k := Z.abs b).
  assert (P : (~ inject_Z (2 ^ (j + k)) == 0)%Q).
  { intros C. assert (X : (0 < inject_Z (2 ^ (j + k)))%Q) by (change 0%Q with (inject_Z 0); rewrite <- Zlt_Qlt; apply Z.pow_pos_nonneg; lia).
    rewrite C in X. discriminate X. }
  apply (Qmult_inj_r _ _ (inject_Z (2 ^ (j + k))) P). rewrite pow2q_shift by lia.
  rewrite (Z.pow_add_r 2 j k) by lia. rewrite inject_Z_mult.
  setoid_replace (pow2q a * pow2q b * (inject_Z (2 ^ j) * inject_Z (2 ^ k)))%Q
    with ((pow2q a * inject_Z (2 ^ j)) * (pow2q b * inject_Z (2 ^ k)))%Q by ring.
  rewrite !pow2q_shift by lia. rewrite <- inject_Z_mult. f_equiv. rewrite <- Z.pow_add_r by lia. f_equal. lia.
Qed.
Lemma pow2q_nonneg k : 0 <= k -> pow2q k = inject_Z (2 ^ k).
Proof. intros H. unfold pow2q. destruct (Z.ltb_spec k 0); [lia|reflexivity]. Qed.

(** Aligning a mantissa to the target exponent keeps the value. *)
Lemma shl_align_value m e e' m2 e2 : shl_align m e e' = (m2, e2) ->
  e2 <= e /\ (inject_Z (Z.pos m2) * pow2q e2 == inject_Z (Z.pos m) * pow2q e)%Q /\
  (e <= e' -> m2 = m /\ e2 = e) /\ (e' < e -> e2 = e' /\ Z.pos m2 = Z.pos m * 2 ^ (e - e')).
Proof.
  unfold shl_align. destruct (e' - e) as [|d|d] eqn:D; intros [= <- <-].
  - split; [lia|]. split; [reflexivity|]. split; intros; [auto|lia].
  - split; [lia|]. split; [reflexivity|]. split; intros; [auto|lia].
  - split; [lia|]. split; [|split; intros; [lia|]].
    + rewrite shift_pos_mul. rewrite inject_Z_mult. rewrite <- (pow2q_nonneg (Z.pos d)) by lia.
      replace e with (Z.pos d + e') by lia. rewrite pow2q_add. ring.
    + split; [reflexivity|]. rewrite shift_pos_mul. do 2 f_equal. lia.
Qed.

(** Signed value of a sign and a magnitude *)
Definition sgn (s : bool) (q : Q) : Q := if s then (- q)%Q else q.
Lemma q_of_finite s m e : (q_of (S754_finite s m e) == sgn s (inject_Z (Z.pos m) * pow2q e))%Q.
Proof.
  unfold q_of, sgn. destruct s; [|reflexivity]. change (Z.neg m) with (- Z.pos m). rewrite inject_Z_opp. ring.
Qed.

(** Rounding a finite number: exact when [prec] bits suffice, else within one unit of the
    last place, which is at most 2^(1-prec) of the value or the smallest subnormal. *)
Lemma round_value prec emax s m e : 2 <= prec -> 2 <= emax -> let r := binary_round prec emax s m e in
  (r = S754_infinity s /\ emax - 1 <= Z.log2 (Z.pos m) + e) \/
  (finite r = true /\
   (Qabs (q_of r - sgn s (inject_Z (Z.pos m) * pow2q e)) <= inject_Z (Z.pos m) * pow2q e * pow2q (1 - prec) + pow2q (lowest prec emax))%Q /\
   (forall j, 0 <= j -> Z.pos m mod 2 ^ j = 0 -> Z.log2 (Z.pos m) - j < prec -> lowest prec emax <= e + j ->
      (q_of r == sgn s (inject_Z (Z.pos m) * pow2q e))%Q)).
Proof.
  intros Hp Hemax. cbv zeta. unfold binary_round.
  destruct (shl_align m e (fexp prec emax (Z.pos (digits2_pos m) + e))) as [mz ez] eqn:EA.
  apply shl_align_value in EA as (A1 & A2 & A3 & A4). rewrite digits2_pos_log2 in A3, A4.
  assert (F : fexp prec emax (Z.log2 (Z.pos m) + 1 + e) = Z.max (Z.log2 (Z.pos m) + 1 + e - prec) (lowest prec emax)) by reflexivity.
  rewrite F in A3, A4. clear F.
  destruct (round_any prec emax ltac:(lia) s (Z.pos mz) ez loc_Exact ltac:(lia)) as (m2 & B1 & B2 & B3).
  set (k := up prec emax (Z.pos mz) ez) in *.
  assert (EK : ez + k = Z.max (Z.log2 (Z.pos m) + 1 + e - prec) (lowest prec emax)).
  { unfold k, up.
    destruct (Z_lt_ge_dec (Z.max (Z.log2 (Z.pos m) + 1 + e - prec) (lowest prec emax)) e) as [L|G].
    - destruct (A4 L) as [-> E2]. rewrite E2, Z.log2_mul_pow2 by lia. lia.
    - destruct (A3 ltac:(lia)) as [-> ->]. lia. }
  unfold outcome in B3. destruct B3 as [(B3 & B4 & _)|B3]; [left; split; [exact B3|unfold lowest in EK; lia]|right].
  assert (Hk : 0 <= k) by (unfold k, up; lia).
  assert (PK : 0 < 2 ^ k) by (apply Z.pow_pos_nonneg; lia).
  set (r := binary_round_aux prec emax s (Z.pos mz) ez loc_Exact) in *.
  assert (V : finite r = true /\ (q_of r == sgn s (inject_Z m2 * pow2q (ez + k)))%Q).
  { destruct B3 as [[-> ->]|[(p & -> & ->)|(p & -> & ->)]].
    - split; [reflexivity|]. cbn [q_of]. unfold sgn. change (inject_Z 0) with 0%Q. destruct s; ring.
    - split; [reflexivity|]. apply q_of_finite.
    - split; [reflexivity|]. rewrite q_of_finite.
      assert (X2 : (inject_Z (Z.pos p) * pow2q (ez + k + 1) == inject_Z (2 * Z.pos p) * pow2q (ez + k))%Q).
      { rewrite (pow2q_add (ez + k) 1), inject_Z_mult. change (pow2q 1) with 2%Q. change (inject_Z 2) with 2%Q. ring. }
      unfold sgn. destruct s; rewrite X2; reflexivity. }
  clearbody r. clear B3. destruct V as [V1 V2]. split; [exact V1|]. split.
  - (* error *)
    assert (A2s : (sgn s (inject_Z (Z.pos m) * pow2q e) == sgn s (inject_Z (Z.pos mz) * pow2q ez))%Q)
      by (unfold sgn; destruct s; rewrite A2; reflexivity).
    rewrite V2, A2s, <- A2.
    assert (D1 : (Qabs (sgn s (inject_Z m2 * pow2q (ez + k)) - sgn s (inject_Z (Z.pos mz) * pow2q ez)) <=
                  pow2q (ez + k))%Q).
    { pose proof (pow2q_pos ez) as PE. pose proof (pow2q_pos (ez + k)) as PEK.
      assert (X : (pow2q (ez + k) == inject_Z (2 ^ k) * pow2q ez)%Q) by (rewrite pow2q_add, (pow2q_nonneg k) by lia; ring).
      assert (BQ1 : (inject_Z m2 * inject_Z (2 ^ k) <= inject_Z (Z.pos mz) + inject_Z (2 ^ k))%Q).
      { rewrite <- inject_Z_mult, <- inject_Z_plus, <- Zle_Qle.
        destruct (Z.eq_dec (Z.pos mz mod 2 ^ k) 0) as [E0|N0].
        - rewrite (B2 E0 eq_refl). pose proof (Z.div_mod (Z.pos mz) (2 ^ k)). nia.
        - pose proof (Z.div_mod (Z.pos mz) (2 ^ k)). nia. }
      assert (BQ2 : (inject_Z (Z.pos mz) - inject_Z (2 ^ k) <= inject_Z m2 * inject_Z (2 ^ k))%Q).
      { unfold Qminus. rewrite <- inject_Z_opp, <- inject_Z_mult, <- inject_Z_plus, <- Zle_Qle.
        pose proof (Z.div_mod (Z.pos mz) (2 ^ k)). pose proof (Z.mod_pos_bound (Z.pos mz) (2 ^ k) PK). nia. }
      assert (Y : (inject_Z m2 * pow2q (ez + k) == (inject_Z m2 * inject_Z (2 ^ k)) * pow2q ez)%Q) by (rewrite X; ring).
      apply Qabs_Qle_condition.
      assert (Z1 : ((inject_Z m2 * inject_Z (2 ^ k)) * pow2q ez <= (inject_Z (Z.pos mz) + inject_Z (2 ^ k)) * pow2q ez)%Q)
        by (apply Qmult_le_compat_r; [exact BQ1|apply Qlt_le_weak; exact PE]).
      assert (Z2 : ((inject_Z (Z.pos mz) - inject_Z (2 ^ k)) * pow2q ez <= (inject_Z m2 * inject_Z (2 ^ k)) * pow2q ez)%Q)
        by (apply Qmult_le_compat_r; [exact BQ2|apply Qlt_le_weak; exact PE]).
      unfold sgn. destruct s; rewrite Y, X; lra. }
    eapply Qle_trans; [exact D1|]. clear D1 V2.
    (* the unit *)
    assert (P0 : (0 <= inject_Z (Z.pos mz) * pow2q ez)%Q).
    { apply Qmult_le_0_compat; [discriminate|]. apply Qlt_le_weak, pow2q_pos. }
    assert (U : ez + k <= lowest prec emax \/ ez + k <= Z.log2 (Z.pos mz) + ez + (1 - prec)).
    { unfold k, up. 
      pose proof (Z.log2_nonneg (Z.pos mz)).
      destruct (Z_lt_ge_dec (Z.max (Z.log2 (Z.pos m) + 1 + e - prec) (lowest prec emax)) e) as [L|G].
      - destruct (A4 L) as [-> E2]. rewrite E2, Z.log2_mul_pow2 by lia. lia.
      - destruct (A3 ltac:(lia)) as [-> ->]. lia. }
    destruct U as [U|U].
    + eapply Qle_trans; [apply pow2q_mono; exact U|].
      assert (0 <= inject_Z (Z.pos mz) * pow2q ez * pow2q (1 - prec))%Q by (apply Qmult_le_0_compat; [exact P0|apply Qlt_le_weak, pow2q_pos]). lra.
    + apply Qle_trans with (inject_Z (Z.pos mz) * pow2q ez * pow2q (1 - prec))%Q; [|assert (0 < pow2q (lowest prec emax))%Q by apply pow2q_pos; lra].
      eapply Qle_trans; [apply pow2q_mono; exact U|]. 
      rewrite !pow2q_add. apply Qmult_le_compat_r; [|apply Qlt_le_weak, pow2q_pos]. apply Qmult_le_compat_r; [|apply Qlt_le_weak, pow2q_pos].
      rewrite pow2q_nonneg by apply Z.log2_nonneg. rewrite <- Zle_Qle. apply Z.log2_spec. lia.
  - (* exact *)
    intros j J0 JM L24 E149. rewrite V2.
    assert (A2s : (sgn s (inject_Z (Z.pos m) * pow2q e) == sgn s (inject_Z (Z.pos mz) * pow2q ez))%Q)
      by (unfold sgn; destruct s; rewrite A2; reflexivity).
    rewrite A2s.
    assert (K0 : Z.pos mz mod 2 ^ k = 0).
    { destruct (Z_lt_ge_dec (Z.max (Z.log2 (Z.pos m) + 1 + e - prec) (lowest prec emax)) e) as [L|G].
      - destruct (A4 L) as [E1 E2]. assert (k = 0).
        { unfold k, up. rewrite E1, E2, Z.log2_mul_pow2 by lia. lia. }
        rewrite H. apply Z.mod_1_r.
      - destruct (A3 ltac:(lia)) as [E1 E2]. assert (k <= j).
        { unfold k, up. rewrite E1, E2. lia. }
        rewrite E1. apply Z.mod_divide; [lia|]. apply Z.divide_trans with (2 ^ j).
        + exists (2 ^ (j - k)). rewrite <- Z.pow_add_r by lia. f_equal. lia.
        + apply Z.mod_divide; [apply Z.pow_nonzero; lia|exact JM]. }
    assert (EM : (inject_Z (Z.pos mz) * pow2q ez == inject_Z m2 * pow2q (ez + k))%Q).
    { rewrite (B2 K0 eq_refl). rewrite (Z.div_mod (Z.pos mz) (2 ^ k)) at 1 by lia. rewrite K0, Z.add_0_r.
      rewrite pow2q_add, (pow2q_nonneg k) by lia. rewrite inject_Z_mult. ring. }
    unfold sgn. destruct s; rewrite EM; reflexivity.
Qed.

(** A number not above the largest 32-bit float stays finite. *)
Lemma to32_fits s m e : (inject_Z (Z.pos m) * pow2q e <= inject_Z (2 ^ 24 - 1) * pow2q 104)%Q ->
  exists y, to32 (S754_finite s m e) = Ok y.
Proof.
  intros HB. cbn [to32]. unfold binary_round.
  destruct (shl_align m e (fexp p32 e32 (Z.pos (digits2_pos m) + e))) as [mz ez] eqn:EA.
  apply shl_align_value in EA as (A1 & A2 & A3 & A4). rewrite digits2_pos_log2 in A3, A4.
  assert (F : fexp p32 e32 (Z.log2 (Z.pos m) + 1 + e) = Z.max (Z.log2 (Z.pos m) + 1 + e - p32) (lowest p32 e32)) by reflexivity.
  rewrite F in A3, A4. clear F.
  destruct (round_any p32 e32 ltac:(unfold p32; lia) s (Z.pos mz) ez loc_Exact ltac:(lia)) as (m2 & B1 & B2 & B3).
  set (k := up p32 e32 (Z.pos mz) ez) in *.
  assert (EK : ez + k = Z.max (Z.log2 (Z.pos m) + 1 + e - p32) (lowest p32 e32)).
  { unfold k, up.
    destruct (Z_lt_ge_dec (Z.max (Z.log2 (Z.pos m) + 1 + e - p32) (lowest p32 e32)) e) as [L|G].
    - destruct (A4 L) as [-> E2]. rewrite E2, Z.log2_mul_pow2 by lia. lia.
    - destruct (A3 ltac:(lia)) as [-> ->]. lia. }
  assert (Hk : 0 <= k) by (unfold k, up; lia).
  assert (PK : 0 < 2 ^ k) by (apply Z.pow_pos_nonneg; lia).
  unfold outcome in B3. destruct B3 as [(B3 & B4 & B5)|B3].
  2: { destruct B3 as [[_ ->]|[(p & _ & ->)|(p & _ & ->)]]; eexists; reflexivity. }
  exfalso. change (e32 - p32) with 104 in B4, B5. change (lowest p32 e32) with (-149) in EK. change p32 with 24 in EK.
  assert (HV : (pow2q (Z.log2 (Z.pos m) + e) <= inject_Z (Z.pos m) * pow2q e)%Q).
  { rewrite pow2q_add. apply Qmult_le_compat_r; [|apply Qlt_le_weak, pow2q_pos].
    rewrite pow2q_nonneg by apply Z.log2_nonneg. rewrite <- Zle_Qle. apply Z.log2_spec. lia. }
  destruct (Z.eq_dec (ez + k) 104) as [E104|N104].
  - specialize (B5 E104). change p32 with 24 in B5.
    assert (HB2 : (inject_Z (Z.pos mz) * pow2q ez <= inject_Z (2 ^ 24 - 1) * pow2q 104)%Q) by (first [rewrite A2|rewrite <- A2]; exact HB). clear HB. rename HB2 into HB.
    rewrite <- E104, pow2q_add, (pow2q_nonneg k) in HB by lia.
    assert (HM : (inject_Z (Z.pos mz) <= inject_Z ((2 ^ 24 - 1) * 2 ^ k))%Q).
    { apply (Qmult_le_r _ _ (pow2q ez)); [apply pow2q_pos|]. rewrite inject_Z_mult.
      eapply Qle_trans; [exact HB|]. apply Qle_lteq. right. ring. }
    rewrite <- Zle_Qle in HM.
    assert (D : Z.pos mz / 2 ^ k = 2 ^ 24 - 1).
    { apply Z.le_antisymm; [|lia]. apply Z.div_le_upper_bound; [exact PK|]. rewrite Z.mul_comm. exact HM. }
    assert (Z.pos mz mod 2 ^ k = 0) as R.
    { pose proof (Z.div_mod (Z.pos mz) (2 ^ k) ltac:(lia)) as DM. pose proof (Z.mod_pos_bound (Z.pos mz) (2 ^ k) PK) as MB. rewrite D in DM.
      set (r := Z.pos mz mod 2 ^ k) in *. clearbody r. lia. }
    specialize (B2 R eq_refl). lia.
  - assert (L : 128 <= Z.log2 (Z.pos m) + e) by lia.
    assert (X : (pow2q 128 <= inject_Z (2 ^ 24 - 1) * pow2q 104)%Q).
    { eapply Qle_trans; [apply pow2q_mono; exact L|]. eapply Qle_trans; [exact HV|exact HB]. }
    vm_compute in X. apply X. reflexivity.
Qed.

(** An integral value is truncated to itself. *)
Lemma int_of_exact f n : finite f = true -> (q_of f == inject_Z n)%Q -> int_of_float f = Ok n.
Proof.
  destruct f as [s| | |s m e]; try discriminate; intros _ H.
  - cbn in H. cbn [int_of_float]. f_equal. unfold Qeq, inject_Z in H. cbn in H. lia.
  - rewrite q_of_finite in H. cbn [int_of_float]. f_equal.
    assert (T : (inject_Z (trunc_mag m e) == inject_Z (Z.pos m) * pow2q e)%Q).
    { unfold trunc_mag. destruct (Z.ltb_spec e 0) as [L|L].
      - assert (P : 0 < 2 ^ (- e)) by (apply Z.pow_pos_nonneg; lia).
        assert (X : (pow2q e * inject_Z (2 ^ (- e)) == 1)%Q).
        { rewrite pow2q_shift by lia. replace (e + - e) with 0 by lia. reflexivity. }
        assert (NZ : (~ inject_Z (2 ^ (- e)) == 0)%Q).
        { intros C. unfold Qeq, inject_Z in C. cbn in C. lia. }
        (* m = |n| * 2^(-e) *)
        assert (Y : Z.pos m = Z.abs n * 2 ^ (- e)).
        { assert (Y : (inject_Z (Z.pos m) == inject_Z (Z.abs n) * inject_Z (2 ^ (- e)))%Q).
          { assert (HA : (inject_Z (Z.pos m) * pow2q e == inject_Z (Z.abs n))%Q).
            { pose proof (pow2q_pos e) as PP. assert (P0 : (0 < inject_Z (Z.pos m) * pow2q e)%Q) by (apply Qmult_lt_0_compat; [reflexivity|exact PP]).
              unfold sgn in H. destruct s.
              - assert (n < 0). { rewrite Zlt_Qlt. change (inject_Z 0) with 0%Q. lra. }
                rewrite Z.abs_neq by lia. rewrite inject_Z_opp. lra.
              - assert (0 < n). { rewrite Zlt_Qlt. change (inject_Z 0) with 0%Q. lra. }
                rewrite Z.abs_eq by lia. exact H. }
            rewrite <- HA. setoid_replace (inject_Z (Z.pos m) * pow2q e * inject_Z (2 ^ (- e)))%Q
              with (inject_Z (Z.pos m) * (pow2q e * inject_Z (2 ^ (- e))))%Q by ring. rewrite X. ring. }
          rewrite <- inject_Z_mult in Y. unfold Qeq, inject_Z in Y. cbn [Qnum Qden] in Y. rewrite !Z.mul_1_r in Y. exact Y. }
        rewrite Y. rewrite Z.div_mul by lia. rewrite inject_Z_mult.
        setoid_replace (inject_Z (Z.abs n) * inject_Z (2 ^ (- e)) * pow2q e)%Q
          with (inject_Z (Z.abs n) * (pow2q e * inject_Z (2 ^ (- e))))%Q by ring. rewrite X. ring.
      - rewrite inject_Z_mult, pow2q_nonneg by lia. reflexivity. }
    assert (U : (inject_Z (if s then - trunc_mag m e else trunc_mag m e) == inject_Z n)%Q).
    { rewrite <- H. unfold sgn. destruct s; [rewrite inject_Z_opp|]; rewrite T; reflexivity. }
    unfold Qeq, inject_Z in U. cbn [Qnum Qden] in U. rewrite !Z.mul_1_r in U. exact U.
Qed.

(** Integers below 2^24 are exact in binary32. *)
Lemma np32_of_Z n : Z.abs n < 2 ^ 24 -> finite (np32 (of_Z n)) = true /\ (q_of (np32 (of_Z n)) == inject_Z n)%Q.
Proof.
  intros H. destruct (Z.eq_dec n 0) as [->|N0]; [vm_compute; auto|].
  assert (SG : exists (s : bool) p, n = (if s then Z.neg p else Z.pos p) /\ Z.pos p < 2 ^ 24).
  { destruct n as [|p|p]; [lia| |]; [exists false, p|exists true, p]; (split; [reflexivity|lia]). }
  destruct SG as (s & p & -> & HP). clear H N0.
  destruct (of_Z_exact s p ltac:(lia)) as (m & E & EM & D). cbv zeta in *. set (d := 52 - Z.log2 (Z.pos p)) in *.
  rewrite E. cbn [np32].
  assert (L : Z.log2 (Z.pos m) = 52) by (rewrite EM, Z.log2_mul_pow2 by lia; lia).
  assert (LP : Z.log2 (Z.pos p) < 24) by (apply Z.log2_lt_pow2; lia).
  assert (EV : (sgn s (inject_Z (Z.pos m) * pow2q (- d)) == inject_Z (if s then Z.neg p else Z.pos p))%Q).
  { assert (X : (inject_Z (Z.pos m) * pow2q (- d) == inject_Z (Z.pos p))%Q).
    { rewrite EM, inject_Z_mult. rewrite <- (pow2q_nonneg d) by lia.
      setoid_replace (inject_Z (Z.pos p) * pow2q d * pow2q (- d))%Q with (inject_Z (Z.pos p) * (pow2q d * pow2q (- d)))%Q by ring.
      rewrite <- pow2q_add. replace (d + - d) with 0 by lia. change (pow2q 0) with 1%Q. ring. }
    unfold sgn. destruct s; rewrite X; [|reflexivity]. rewrite <- inject_Z_opp. reflexivity. }
  destruct (round_value p32 e32 s m (- d) ltac:(unfold p32; lia) ltac:(unfold e32; lia)) as [[_ C]|(F & ER & EX)]; [unfold e32 in C; lia|].
  split; [exact F|]. rewrite (EX d) ; [exact EV|lia| |unfold p32; lia|unfold lowest, p32, e32; lia].
  rewrite EM. apply Z.mod_mul. apply Z.pow_nonzero; lia.
Qed.
