(** Rounding to two decimals in 32-bit floats: how far the result is from the number (no axioms). *)
From Coq Require Import Lia ZifyBool ZifyNat QArith Qabs Lqa.
From Verif Require Import Base BaseFacts Floats FloatsFacts Strings Dates Headers Order CoordFacts RoundFacts VgfBase.
Open Scope Z_scope.

Lemma pow2q_lt_inv a b : (pow2q a < pow2q b)%Q -> a < b.
Proof. intros H. destruct (Z_lt_ge_dec a b) as [L|G]; [exact L|]. pose proof (pow2q_mono b a ltac:(lia)). lra. Qed.

Lemma log2_below M E B : 0 < M -> (inject_Z M * pow2q E < pow2q B)%Q -> Z.log2 M + E < B.
Proof.
  intros HM H. apply pow2q_lt_inv. eapply Qle_lt_trans; [|exact H]. rewrite pow2q_add.
  apply Qmult_le_compat_r; [|apply Qlt_le_weak, pow2q_pos]. rewrite pow2q_nonneg by apply Z.log2_nonneg.
  rewrite <- Zle_Qle. apply Z.log2_spec. exact HM.
Qed.

(** A rounding whose operand is [t] units of 2^E, [M] being the whole part of [t]. *)
Lemma round_near prec emax s M E l B (t : Q) : 2 <= prec -> 0 < M -> lowest prec emax <= B + 1 - prec -> B < emax - prec -> Z.log2 M + E <= B ->
  (inject_Z M <= t)%Q -> (t <= inject_Z M + 1)%Q ->
  ((l = loc_Exact /\ (t == inject_Z M)%Q) \/ E <= B + 1 - prec) ->
  let r := binary_round_aux prec emax s M E l in
  finite r = true /\ (Qabs (q_of r - sgn s (t * pow2q E)) <= pow2q (B + 1 - prec))%Q.
Proof.
  intros HP HM HB1 HB2 HL T1 T2 HC. cbv zeta.
  destruct (round_any prec emax HP s M E l HM) as (m2 & B1 & B2 & B3).
  set (k := up prec emax M E) in *.
  assert (EK : k = Z.max 0 (Z.max (Z.log2 M + 1 + E - prec) (lowest prec emax) - E)) by reflexivity.
  assert (Hk : 0 <= k) by lia. assert (PK : 0 < 2 ^ k) by (apply Z.pow_pos_nonneg; lia).
  set (r := binary_round_aux prec emax s M E l) in *. pose proof (Z.log2_nonneg M) as L0.
  destruct B3 as [(_ & B4 & _)|B3]; [exfalso; lia|].
  assert (V : finite r = true /\ (q_of r == sgn s (inject_Z m2 * pow2q (E + k)))%Q).
  { destruct B3 as [[-> ->]|[(p & -> & ->)|(p & -> & ->)]].
    - split; [reflexivity|]. cbn [q_of]. unfold sgn. change (inject_Z 0) with 0%Q. destruct s; ring.
    - split; [reflexivity|]. apply q_of_finite.
    - split; [reflexivity|]. rewrite q_of_finite.
      assert (X2 : (inject_Z (Z.pos p) * pow2q (E + k + 1) == inject_Z (2 * Z.pos p) * pow2q (E + k))%Q).
      { rewrite (pow2q_add (E + k) 1), inject_Z_mult. change (pow2q 1) with 2%Q. change (inject_Z 2) with 2%Q. ring. }
      unfold sgn. destruct s; rewrite X2; reflexivity. }
  clearbody r. destruct V as [V1 V2]. split; [exact V1|]. rewrite V2. clear V1 V2 B3 r.
  pose proof (pow2q_pos E) as PE. pose proof (pow2q_pos (B + 1 - prec)) as PB.
  assert (X : (pow2q (E + k) == inject_Z (2 ^ k) * pow2q E)%Q) by (rewrite pow2q_add, (pow2q_nonneg k) by lia; ring).
  assert (D : (Qabs (inject_Z m2 * pow2q (E + k) - t * pow2q E) <= pow2q (B + 1 - prec))%Q).
  { destruct HC as [[-> TE]|HC].
    - destruct (Z.eq_dec k 0) as [K0|KN].
      + rewrite K0 in *. assert (E1 : m2 = M) by (rewrite (B2 (Z.mod_1_r M) eq_refl); apply Z.div_1_r).
        rewrite E1, Z.add_0_r, TE. setoid_replace (inject_Z M * pow2q E - inject_Z M * pow2q E)%Q with 0%Q by ring. cbn [Qabs]. apply Qlt_le_weak. exact PB.
      + apply Qle_trans with (pow2q (E + k)); [|apply pow2q_mono; lia].
        rewrite TE. pose proof (Z.div_mod M (2 ^ k) ltac:(lia)) as DM. pose proof (Z.mod_pos_bound M (2 ^ k) PK) as MB.
        assert (I1 : M - 2 ^ k <= m2 * 2 ^ k <= M + 2 ^ k) by nia.
        rewrite X. setoid_replace (inject_Z m2 * (inject_Z (2 ^ k) * pow2q E) - inject_Z M * pow2q E)%Q with (inject_Z (m2 * 2 ^ k - M) * pow2q E)%Q
          by (unfold Zminus; rewrite inject_Z_plus, inject_Z_opp, inject_Z_mult; ring).
        rewrite Qabs_Qmult, (Qabs_pos (pow2q E)) by (apply Qlt_le_weak, PE). apply Qmult_le_compat_r; [|apply Qlt_le_weak, PE].
        apply Qabs_Qle_condition. rewrite <- inject_Z_opp, <- !Zle_Qle. lia.
    - apply Qle_trans with (pow2q (E + k)); [|apply pow2q_mono; lia].
      pose proof (Z.div_mod M (2 ^ k) ltac:(lia)) as DM. pose proof (Z.mod_pos_bound M (2 ^ k) PK) as MB.
      assert (I1 : M + 1 - 2 ^ k <= m2 * 2 ^ k <= M + 2 ^ k) by nia.
      rewrite X. setoid_replace (inject_Z m2 * (inject_Z (2 ^ k) * pow2q E) - t * pow2q E)%Q with ((inject_Z (m2 * 2 ^ k) - t) * pow2q E)%Q
        by (rewrite inject_Z_mult; ring).
      rewrite Qabs_Qmult, (Qabs_pos (pow2q E)) by (apply Qlt_le_weak, PE). apply Qmult_le_compat_r; [|apply Qlt_le_weak, PE].
      destruct I1 as [I1 I2]. rewrite Zle_Qle in I1, I2. unfold Zminus in I1. rewrite !inject_Z_plus, inject_Z_opp in I1. rewrite inject_Z_plus in I2.
      change (inject_Z 1) with 1%Q in I1. apply Qabs_Qle_condition. lra. }
  unfold sgn. destruct s; [|exact D].
  setoid_replace (- (inject_Z m2 * pow2q (E + k)) - - (t * pow2q E))%Q with (- (inject_Z m2 * pow2q (E + k) - t * pow2q E))%Q by ring.
  rewrite Qabs_opp. exact D.
Qed.

Lemma aux_near s M E l B (t : Q) : 0 < M -> -100 <= B <= 100 -> Z.log2 M + E <= B ->
  (inject_Z M <= t)%Q -> (t <= inject_Z M + 1)%Q ->
  ((l = loc_Exact /\ (t == inject_Z M)%Q) \/ E <= B - 23) ->
  let r := binary_round_aux p32 e32 s M E l in
  finite r = true /\ (Qabs (q_of r - sgn s (t * pow2q E)) <= pow2q (B - 23))%Q.
Proof.
  intros HM HB HL T1 T2 HC. replace (B - 23) with (B + 1 - p32) in * by (unfold p32; lia).
  apply round_near; try assumption; unfold lowest, p32, e32; lia.
Qed.

Lemma abs_finite s m e : (Qabs (q_of (S754_finite s m e)) == inject_Z (Z.pos m) * pow2q e)%Q.
Proof.
  rewrite q_of_finite. assert (0 < inject_Z (Z.pos m) * pow2q e)%Q by (apply Qmult_lt_0_compat; [reflexivity|apply pow2q_pos]).
  unfold sgn. destruct s; [rewrite Qabs_opp|]; apply Qabs_pos; lra.
Qed.

Lemma hundred32 : of_Z32 100 = S754_finite false 13107200 (-17).
Proof. vm_compute. reflexivity. Qed.
Lemma hundred32_val : (inject_Z 13107200 * pow2q (-17) == 100)%Q.
Proof. vm_compute. reflexivity. Qed.

(** The product with 100 *)
Lemma mul100_near x : finite x = true -> (Qabs (q_of x) < 655)%Q ->
  finite (mul32 x (of_Z32 100)) = true /\ (Qabs (q_of (mul32 x (of_Z32 100)) - q_of x * 100) <= pow2q (-8))%Q.
Proof.
  intros F H. rewrite hundred32. destruct x as [s| | |s m e]; try discriminate F.
  { destruct s; split; try reflexivity; vm_compute; discriminate. }
  rewrite abs_finite in H. unfold mul32. cbn [SFmul]. rewrite xorb_false_r.
  assert (EV : (inject_Z (Z.pos (m * 13107200)) * pow2q (e + -17) == inject_Z (Z.pos m) * pow2q e * 100)%Q).
  { rewrite pow2q_add, <- hundred32_val, Pos2Z.inj_mul, inject_Z_mult. ring. }
  pose proof (aux_near s (Z.pos (m * 13107200)) (e + -17) loc_Exact 15 (inject_Z (Z.pos (m * 13107200)))) as A. cbv zeta in A.
  destruct A as [A1 A2]; [lia|lia| |lra|lra|left; split; reflexivity|].
  { assert (Z.log2 (Z.pos (m * 13107200)) + (e + -17) < 16); [|lia]. apply log2_below; [lia|]. rewrite EV. change (pow2q 16) with 65536%Q. lra. }
  split; [exact A1|]. change (15 - 23) with (-8) in A2.
  assert (Q0 : (sgn s (inject_Z (Z.pos (m * 13107200)) * pow2q (e + -17)) == q_of (S754_finite s m e) * 100)%Q).
  { rewrite q_of_finite. unfold sgn. destruct s; rewrite EV; ring. }
  rewrite <- Q0. exact A2.
Qed.

Lemma of_Z32_exact n : Z.abs n < 2 ^ 24 -> finite (of_Z32 n) = true /\ (q_of (of_Z32 n) == inject_Z n)%Q.
Proof.
  intros H. unfold of_Z32, binary_normalize. destruct n as [|p|p].
  - split; reflexivity.
  - destruct (round_value p32 e32 false p 0 ltac:(unfold p32; lia) ltac:(unfold e32; lia)) as [[_ I]|(I & _ & K)].
    { exfalso. assert (Z.log2 (Z.pos p) < 24) by (apply Z.log2_lt_pow2; lia). unfold e32 in I. lia. }
    split; [exact I|]. rewrite (K 0); [unfold sgn; change (pow2q 0) with 1%Q; ring|lia|apply Z.mod_1_r| |vm_compute; discriminate].
    assert (Z.log2 (Z.pos p) < 24) by (apply Z.log2_lt_pow2; lia). unfold p32. lia.
  - destruct (round_value p32 e32 true p 0 ltac:(unfold p32; lia) ltac:(unfold e32; lia)) as [[_ I]|(I & _ & K)].
    { exfalso. assert (Z.log2 (Z.pos p) < 24) by (apply Z.log2_lt_pow2; lia). unfold e32 in I. lia. }
    split; [exact I|]. rewrite (K 0); [unfold sgn; change (pow2q 0) with 1%Q; change (Z.neg p) with (- Z.pos p); rewrite inject_Z_opp; ring|lia|apply Z.mod_1_r| |vm_compute; discriminate].
    assert (Z.log2 (Z.pos p) < 24) by (apply Z.log2_lt_pow2; lia). unfold p32. lia.
Qed.

Lemma signed_value s f : finite (signed s f) = finite f /\ (q_of (signed s f) == sgn s (q_of f))%Q.
Proof.
  destruct s; [|split; reflexivity]. unfold signed, sgn. destruct f as [b| | |b m e]; split; try reflexivity.
  cbn [SFopp]. rewrite !q_of_finite. unfold sgn. destruct b; cbn [negb]; ring.
Qed.

(** Rounding to the nearest integer *)
Lemma rint_near y : finite y = true -> (Qabs (q_of y) < 65536)%Q ->
  exists n, finite (rint32 y) = true /\ (q_of (rint32 y) == inject_Z n)%Q /\ (Qabs (inject_Z n - q_of y) <= 1 # 2)%Q.
Proof.
  intros F H. destruct y as [s| | |s m e]; try discriminate F.
  { exists 0. split; [reflexivity|]. split; [reflexivity|]. vm_compute. discriminate. }
  rewrite abs_finite in H. cbn [rint32]. destruct (integral m e) eqn:EI.
  - unfold integral in EI.
    assert (G : exists N, (inject_Z (Z.pos m) * pow2q e == inject_Z N)%Q).
    { destruct (Z.leb_spec 0 e) as [L|L].
      - exists (Z.pos m * 2 ^ e). rewrite pow2q_nonneg, inject_Z_mult by lia. reflexivity.
      - cbn [orb] in EI. apply Z.eqb_eq in EI. exists (Z.pos m / 2 ^ (- e)).
        rewrite (Z.div_mod (Z.pos m) (2 ^ (- e))) at 1 by (apply Z.pow_nonzero; lia). rewrite EI, Z.add_0_r, inject_Z_mult.
        rewrite <- (pow2q_nonneg (- e)) by lia. setoid_replace (pow2q (- e) * inject_Z (Z.pos m / 2 ^ (- e)) * pow2q e)%Q
          with (inject_Z (Z.pos m / 2 ^ (- e)) * (pow2q (- e) * pow2q e))%Q by ring.
        rewrite <- pow2q_add. replace (- e + e) with 0 by lia. change (pow2q 0) with 1%Q. ring. }
    destruct G as (N & G). exists (if s then - N else N). split; [reflexivity|].
    assert (V : (q_of (S754_finite s m e) == inject_Z (if s then - N else N))%Q).
    { rewrite q_of_finite. unfold sgn. destruct s; rewrite G; [rewrite inject_Z_opp|]; reflexivity. }
    split; [exact V|]. rewrite V. setoid_replace (inject_Z (if s then - N else N) - inject_Z (if s then - N else N))%Q with 0%Q by ring. discriminate.
  - unfold integral in EI. destruct (Z.leb_spec 0 e) as [L|L]; [discriminate EI|]. cbn [orb] in EI.
    unfold nearest_mag. change (10 ^ 0) with 1. rewrite Z.mul_1_r. destruct (Z.ltb_spec e 0) as [_|]; [|lia].
    assert (PD : 0 < 2 ^ (- e)) by (apply Z.pow_pos_nonneg; lia). set (D := 2 ^ (- e)) in *.
    pose proof (Z.div_mod (Z.pos m) D ltac:(lia)) as DM. pose proof (Z.mod_pos_bound (Z.pos m) D PD) as MB.
    set (q := Z.pos m / D) in *. set (r := Z.pos m mod D) in *.
    set (n := if 2 * r <? D then q else if D <? 2 * r then q + 1 else if Z.even q then q else q + 1).
    assert (N1 : -D <= 2 * (n * D - Z.pos m) <= D).
    { unfold n. destruct (Z.ltb_spec (2 * r) D); [nia|]. destruct (Z.ltb_spec D (2 * r)); [nia|]. destruct (Z.even q); nia. }
    assert (Q0 : 0 <= q) by (apply Z.div_pos; lia).
    assert (N0 : 0 <= n) by (unfold n; destruct (2 * r <? D), (D <? 2 * r), (Z.even q); lia).
    assert (DQ : (inject_Z D * pow2q e == 1)%Q).
    { unfold D. rewrite <- (pow2q_nonneg (- e)), <- pow2q_add by lia. replace (- e + e) with 0 by lia. reflexivity. }
    pose proof (pow2q_pos e) as PE.
    assert (NV : (Qabs (inject_Z n - inject_Z (Z.pos m) * pow2q e) <= 1 # 2)%Q).
    { setoid_replace (inject_Z n - inject_Z (Z.pos m) * pow2q e)%Q with (inject_Z (n * D - Z.pos m) * pow2q e)%Q.
      2: { unfold Zminus. rewrite inject_Z_plus, inject_Z_opp, inject_Z_mult.
           setoid_replace ((inject_Z n * inject_Z D + - inject_Z (Z.pos m)) * pow2q e)%Q with (inject_Z n * (inject_Z D * pow2q e) - inject_Z (Z.pos m) * pow2q e)%Q by ring.
           rewrite DQ. ring. }
      rewrite Qabs_Qmult, (Qabs_pos (pow2q e)) by (apply Qlt_le_weak, PE).
      apply Qle_trans with ((1 # 2) * inject_Z D * pow2q e)%Q; [|rewrite <- Qmult_assoc, DQ; lra].
      apply Qmult_le_compat_r; [|apply Qlt_le_weak, PE]. destruct N1 as [A B]. rewrite Zle_Qle in A, B.
      rewrite inject_Z_mult in A, B. rewrite inject_Z_opp in A. change (inject_Z 2) with 2%Q in A, B.
      apply Qabs_Qle_condition. lra. }
    assert (NB : Z.abs n < 2 ^ 24).
    { rewrite Z.abs_eq by exact N0. rewrite Zlt_Qlt. apply Qabs_Qle_condition in NV. change (inject_Z (2 ^ 24)) with 16777216%Q. lra. }
    destruct (of_Z32_exact n NB) as [FN QN]. destruct (signed_value s (of_Z32 n)) as [FS QS].
    exists (if s then - n else n). split; [rewrite FS; exact FN|]. split.
    + rewrite QS. unfold sgn. destruct s; rewrite QN; [rewrite inject_Z_opp|]; reflexivity.
    + rewrite q_of_finite. unfold sgn. destruct s; [|exact NV]. rewrite inject_Z_opp.
      setoid_replace (- inject_Z n - - (inject_Z (Z.pos m) * pow2q e))%Q with (- (inject_Z n - inject_Z (Z.pos m) * pow2q e))%Q by ring.
      rewrite Qabs_opp. exact NV.
Qed.

(** The quotient by 100 *)
Lemma div100_near z n : finite z = true -> (q_of z == inject_Z n)%Q -> Z.abs n < 2 ^ 15 + 2 ^ 14 ->
  finite (div32 z (of_Z32 100)) = true /\ (Qabs (q_of (div32 z (of_Z32 100)) - inject_Z n / 100) <= pow2q (-15))%Q.
Proof.
  intros F V H. rewrite hundred32. destruct z as [s| | |s m e]; try discriminate F.
  { cbn [q_of] in V. destruct s; (split; [reflexivity|]); cbn [div32 SFdiv xorb]; change (0 == inject_Z n)%Q in V; rewrite <- V; vm_compute; discriminate. }
  assert (A0 : (inject_Z (Z.pos m) * pow2q e == inject_Z (Z.abs n))%Q).
  { rewrite <- (abs_finite s), V. reflexivity. }
  assert (NZ : 1 <= Z.abs n).
  { assert (0 < inject_Z (Z.abs n))%Q by (rewrite <- A0; apply Qmult_lt_0_compat; [reflexivity|apply pow2q_pos]).
    change 0%Q with (inject_Z 0) in H0. rewrite <- Zlt_Qlt in H0. lia. }
  assert (L1 : Z.log2 (Z.pos m) + e < 16).
  { apply log2_below; [lia|]. rewrite A0. change (pow2q 16) with (inject_Z 65536). rewrite <- Zlt_Qlt. lia. }
  assert (L2 : 0 <= Z.log2 (Z.pos m) + e).
  { assert (-1 < Z.log2 (Z.pos m) + e); [|lia]. assert (0 < Z.log2 (Z.pos m) + 1 + e); [|lia]. apply pow2q_lt_inv. change (pow2q 0) with (inject_Z 1).
    apply Qle_lt_trans with (inject_Z (Z.abs n)); [rewrite <- Zle_Qle; exact NZ|]. rewrite <- A0, (pow2q_add _ e).
    apply Qmult_lt_compat_r; [apply pow2q_pos|]. pose proof (Z.log2_nonneg (Z.pos m)). rewrite pow2q_nonneg by lia. rewrite <- Zlt_Qlt.
    apply Z.log2_spec. lia. }
  unfold div32. cbn [SFdiv]. rewrite xorb_false_r. unfold SFdiv_core_binary. rewrite !Zdigits2_log2 by lia.
  change (Z.log2 13107200) with 23.
  set (E := Z.min (fexp p32 e32 (Z.log2 (Z.pos m) + 1 + e - (23 + 1 + -17))) (e - -17)).
  set (k := e - -17 - E).
  assert (FE : fexp p32 e32 (Z.log2 (Z.pos m) + 1 + e - (23 + 1 + -17)) = Z.log2 (Z.pos m) + e - 30) by (unfold fexp, emin, p32, e32; lia).
  assert (HE : E <= Z.log2 (Z.pos m) + e - 30) by lia.
  assert (Hk : 0 <= k) by lia.
  assert (EM : match k with Z.pos _ => Z.shiftl (Z.pos m) k | 0 => Z.pos m | Z.neg _ => 0 end = Z.pos m * 2 ^ k).
  { destruct k as [|q|q] eqn:Ek; [cbn; lia|rewrite Z.shiftl_mul_pow2 by lia; reflexivity|lia]. }
  rewrite EM. set (N := Z.pos m * 2 ^ k).
  pose proof (Z_div_mod N 13107200 ltac:(lia)) as DM. destruct (Z.div_eucl N 13107200) as [q r]. destruct DM as [DM Rb].
  assert (QP : 0 < q).
  { assert (13107200 <= N); [|lia]. apply Z.le_trans with (2 ^ (Z.log2 (Z.pos m) + k)); [|].
    - change 13107200 with (100 * 2 ^ 17). apply Z.le_trans with (2 ^ 24); [lia|]. apply Z.pow_le_mono_r; lia.
    - pose proof (Z.log2_nonneg (Z.pos m)). rewrite Z.pow_add_r by lia. unfold N. apply Z.mul_le_mono_nonneg_r; [lia|]. apply Z.log2_spec. lia. }
  set (t := (inject_Z N / 13107200)%Q).
  assert (TD : (t * 13107200 == inject_Z N)%Q) by (unfold t; field).
  rewrite DM, inject_Z_plus, inject_Z_mult in TD. change (inject_Z 13107200) with 13107200%Q in TD.
  destruct Rb as [R1 R2]. rewrite Zle_Qle in R1. rewrite Zlt_Qlt in R2. change (inject_Z 0) with 0%Q in R1. change (inject_Z 13107200) with 13107200%Q in R2.
  assert (TV : (t * pow2q E == inject_Z (Z.abs n) / 100)%Q).
  { unfold t, N. rewrite inject_Z_mult, <- A0, <- hundred32_val. change (inject_Z 13107200) with 13107200%Q.
    rewrite <- (pow2q_nonneg k) by exact Hk.
    assert (PX : (pow2q k * pow2q E == pow2q e * pow2q 17)%Q) by (rewrite <- !pow2q_add; replace (k + E) with (e + 17) by lia; reflexivity).
    setoid_replace (inject_Z (Z.pos m) * pow2q k / 13107200 * pow2q E)%Q with (inject_Z (Z.pos m) / 13107200 * (pow2q k * pow2q E))%Q by field.
    rewrite PX. change (pow2q 17) with 131072%Q. change (pow2q (-17)) with (1 # 131072)%Q. field. }
  pose proof (aux_near s q E (new_location 13107200 r) 8 t) as A. cbv zeta in A.
  destruct A as [A1 A2]; [exact QP|lia| |lra|lra|right; lia|].
  { assert (Z.log2 q + E < 9); [|lia]. apply log2_below; [exact QP|].
    apply Qle_lt_trans with (t * pow2q E)%Q; [apply Qmult_le_compat_r; [lra|apply Qlt_le_weak, pow2q_pos]|].
    rewrite TV. change (pow2q 9) with 512%Q. assert (X : (inject_Z (Z.abs n) <= inject_Z 49152)%Q) by (rewrite <- Zle_Qle; lia).
    change (inject_Z 49152) with 49152%Q in X. apply (Qmult_lt_r _ _ 100); [reflexivity|].
    setoid_replace (inject_Z (Z.abs n) / 100 * 100)%Q with (inject_Z (Z.abs n)) by field. lra. }
  split; [exact A1|]. change (8 - 23) with (-15) in A2.
  assert (SV : (sgn s (t * pow2q E) == inject_Z n / 100)%Q).
  { rewrite q_of_finite in V. unfold sgn in *. destruct s; rewrite TV; rewrite A0 in V; rewrite <- V; field. }
  rewrite <- SV. exact A2.
Qed.

Lemma np32_near x : finite x = true -> (Qabs (q_of x) <= 360)%Q ->
  finite (np32 x) = true /\ (Qabs (q_of (np32 x) - q_of x) <= 44 # 1000000)%Q.
Proof.
  intros F H. destruct x as [s| | |s m e]; try discriminate F; [split; [reflexivity|]; vm_compute; discriminate|].
  rewrite abs_finite in H. cbn [np32].
  destruct (round_value p32 e32 s m e ltac:(unfold p32; lia) ltac:(unfold e32; lia)) as [[_ I]|(I & K & _)].
  { exfalso. assert (Z.log2 (Z.pos m) + e < 9); [|unfold e32 in I; lia]. apply log2_below; [lia|]. change (pow2q 9) with 512%Q. lra. }
  split; [exact I|]. setoid_rewrite (q_of_finite s m e). eapply Qle_trans; [exact K|].
  change (1 - p32) with (-23). change (lowest p32 e32) with (-149).
  apply Qle_trans with (360 * pow2q (-23) + pow2q (-149))%Q; [|vm_compute; discriminate].
  apply Qplus_le_compat; [|lra]. apply Qmult_le_compat_r; [exact H|apply Qlt_le_weak, pow2q_pos].
Qed.

Theorem around2_near x : finite x = true -> (Qabs (q_of x) <= 360)%Q ->
  finite (around2 (np32 x)) = true /\
  exists n, (Qabs (inject_Z n / 100 - q_of x) <= 51 # 10000)%Q /\ (Qabs (q_of (around2 (np32 x)) - inject_Z n / 100) <= 1 # 32768)%Q.
Proof.
  intros F H. destruct (np32_near x F H) as [F1 E1].
  apply Qabs_Qle_condition in H as H'. apply Qabs_Qle_condition in E1 as E1'.
  assert (B1 : (Qabs (q_of (np32 x)) < 361)%Q).
  { apply Qle_lt_trans with (3601 # 10)%Q; [|reflexivity]. apply Qabs_Qle_condition. lra. }
  destruct (mul100_near (np32 x) F1 ltac:(lra)) as [F2 E2]. change (pow2q (-8)) with (1 # 256)%Q in E2. apply Qabs_Qle_condition in E2.
  set (y := mul32 (np32 x) (of_Z32 100)) in *.
  destruct (rint_near y F2) as (n & F3 & V3 & E3).
  { apply Qle_lt_trans with 65535%Q; [|reflexivity]. apply Qabs_Qle_condition. lra. }
  apply Qabs_Qle_condition in E3.
  assert (NB : Z.abs n < 2 ^ 15 + 2 ^ 14).
  { rewrite Zlt_Qlt. change (inject_Z (Z.abs n)) with (Qabs (inject_Z n)). change (inject_Z (2 ^ 15 + 2 ^ 14)) with 49152%Q.
    apply Qle_lt_trans with 49151%Q; [|reflexivity]. apply Qabs_Qle_condition. lra. }
  destruct (div100_near _ n F3 V3 NB) as [F4 E4]. split; [exact F4|]. exists n. split; [|exact E4].
  assert (N1 : (inject_Z n / 100 * 100 == inject_Z n)%Q) by field. apply Qabs_Qle_condition. lra.
Qed.

(** The nearest integer to m * 2^e * 10^d *)
Lemma nearest_near m e d : 0 <= d -> 0 <= nearest_mag m e d /\
  (Qabs (inject_Z (nearest_mag m e d) - inject_Z (Z.pos m) * pow2q e * inject_Z (10 ^ d)) <= 1 # 2)%Q.
Proof.
  intros Hd. assert (PT : 0 < 10 ^ d) by (apply Z.pow_pos_nonneg; lia). unfold nearest_mag.
  destruct (Z.ltb_spec e 0) as [L|L].
  2: { split; [pose proof (Z.pow_pos_nonneg 2 e); nia|]. rewrite !inject_Z_mult, (pow2q_nonneg e) by lia.
       setoid_replace (inject_Z (Z.pos m) * inject_Z (10 ^ d) * inject_Z (2 ^ e) - inject_Z (Z.pos m) * inject_Z (2 ^ e) * inject_Z (10 ^ d))%Q with 0%Q by ring. discriminate. }
  assert (PN : 0 < Z.pos m * 10 ^ d) by lia.
  assert (EN : (inject_Z (Z.pos m) * pow2q e * inject_Z (10 ^ d) == inject_Z (Z.pos m * 10 ^ d) * pow2q e)%Q) by (rewrite inject_Z_mult; ring).
  rewrite EN. set (N := Z.pos m * 10 ^ d) in *. clearbody N. clear EN PT m.
  assert (PD : 0 < 2 ^ (- e)) by (apply Z.pow_pos_nonneg; lia).
  assert (DQ : (inject_Z (2 ^ (- e)) * pow2q e == 1)%Q).
  { rewrite <- (pow2q_nonneg (- e)), <- pow2q_add by lia. replace (- e + e) with 0 by lia. reflexivity. }
  set (D := 2 ^ (- e)) in *.
  pose proof (Z.div_mod N D ltac:(lia)) as DM. pose proof (Z.mod_pos_bound N D PD) as MB.
  set (q := N / D) in *. set (r := N mod D) in *.
  set (n := if 2 * r <? D then q else if D <? 2 * r then q + 1 else if Z.even q then q else q + 1).
  assert (N1 : -D <= 2 * (n * D - N) <= D).
  { unfold n. destruct (Z.ltb_spec (2 * r) D); [nia|]. destruct (Z.ltb_spec D (2 * r)); [nia|]. destruct (Z.even q); nia. }
  assert (Q0 : 0 <= q) by (apply Z.div_pos; lia).
  split; [unfold n; destruct (2 * r <? D), (D <? 2 * r), (Z.even q); lia|].
  pose proof (pow2q_pos e) as PE.
  setoid_replace (inject_Z n - inject_Z N * pow2q e)%Q with (inject_Z (n * D - N) * pow2q e)%Q.
  2: { unfold Zminus. rewrite inject_Z_plus, inject_Z_opp, inject_Z_mult.
       setoid_replace ((inject_Z n * inject_Z D + - inject_Z N) * pow2q e)%Q with (inject_Z n * (inject_Z D * pow2q e) - inject_Z N * pow2q e)%Q by ring.
       rewrite DQ. ring. }
  rewrite Qabs_Qmult, (Qabs_pos (pow2q e)) by (apply Qlt_le_weak, PE).
  apply Qle_trans with ((1 # 2) * inject_Z D * pow2q e)%Q; [|rewrite <- Qmult_assoc, DQ; lra].
  apply Qmult_le_compat_r; [|apply Qlt_le_weak, PE]. destruct N1 as [A B]. rewrite Zle_Qle in A, B.
  rewrite inject_Z_mult in A, B. rewrite inject_Z_opp in A. change (inject_Z 2) with 2%Q in A, B.
  apply Qabs_Qle_condition. lra.
Qed.

(** The quotient of two integers in 64-bit floats *)
Lemma div64_near n D : 0 <= n < 2 ^ 31 -> 1 <= D <= 1000 ->
  finite (fdiv (of_Z n) (of_Z D)) = true /\ (Qabs (q_of (fdiv (of_Z n) (of_Z D)) - inject_Z n / inject_Z D) <= pow2q (-22))%Q.
Proof.
  intros Hn HD. destruct D as [|dp|dp]; try lia. assert (DP : ~ (inject_Z (Z.pos dp) == 0)%Q) by discriminate.
  destruct (of_Z_exact false dp ltac:(lia)) as (dm & ED & Hdm & Hdd). cbv iota in ED. set (dd := 52 - Z.log2 (Z.pos dp)) in *.
  destruct n as [|p|p]; [| |lia].
  { change (of_Z 0) with (S754_zero false). rewrite ED. split; [reflexivity|]. unfold fdiv. cbn [SFdiv q_of].
    setoid_replace (0 - inject_Z 0 / inject_Z (Z.pos dp))%Q with 0%Q by (change (inject_Z 0) with 0%Q; field; exact DP). vm_compute. discriminate. }
  destruct (of_Z_exact false p ltac:(lia)) as (m & Em & Hm & Hd). cbv iota in Em. set (d := 52 - Z.log2 (Z.pos p)) in *.
  rewrite Em, ED. unfold fdiv. cbn [SFdiv xorb].
  assert (Lp : Z.log2 (Z.pos p) <= 30) by (assert (Z.log2 (Z.pos p) < 31) by (apply Z.log2_lt_pow2; lia); lia).
  assert (Lm : Z.log2 (Z.pos m) = 52) by (rewrite Hm, Z.log2_mul_pow2 by lia; lia).
  assert (Ldm : Z.log2 (Z.pos dm) = 52) by (rewrite Hdm, Z.log2_mul_pow2 by lia; lia).
  unfold SFdiv_core_binary. rewrite !Zdigits2_log2 by lia. rewrite Lm, Ldm.
  assert (EE : Z.min (fexp p64 e64 (52 + 1 + - d - (52 + 1 + - dd))) (- d - - dd) = dd - d - 53) by (unfold fexp, emin, p64, e64; lia).
  rewrite EE. replace (- d - - dd - (dd - d - 53)) with 53 by lia. cbv iota. rewrite Z.shiftl_mul_pow2 by lia.
  set (N := Z.pos m * 2 ^ 53). set (E := dd - d - 53).
  pose proof (Z_div_mod N (Z.pos dm) ltac:(lia)) as DM. destruct (Z.div_eucl N (Z.pos dm)) as [q r]. destruct DM as [DM Rb].
  pose proof (Z.log2_spec (Z.pos m) ltac:(lia)) as Sm. pose proof (Z.log2_spec (Z.pos dm) ltac:(lia)) as Sd. rewrite Lm in Sm. rewrite Ldm in Sd.
  change (Z.succ 52) with 53 in Sm, Sd.
  assert (QP : 0 < q) by (unfold N in DM; nia).
  set (t := (inject_Z N / inject_Z (Z.pos dm))%Q).
  assert (DZ : ~ (inject_Z (Z.pos dm) == 0)%Q) by discriminate.
  assert (TD : (t * inject_Z (Z.pos dm) == inject_Z N)%Q) by (unfold t; field; exact DZ).
  assert (T1 : (inject_Z q <= t)%Q).
  { apply (Qmult_le_r _ _ (inject_Z (Z.pos dm))); [reflexivity|]. rewrite TD, <- inject_Z_mult, <- Zle_Qle. lia. }
  assert (T2 : (t <= inject_Z q + 1)%Q).
  { apply (Qmult_le_r _ _ (inject_Z (Z.pos dm))); [reflexivity|]. rewrite TD. change 1%Q with (inject_Z 1). rewrite <- inject_Z_plus, <- inject_Z_mult, <- Zle_Qle. lia. }
  assert (TV : (t * pow2q E == inject_Z (Z.pos p) / inject_Z (Z.pos dp))%Q).
  { apply (Qmult_inj_r _ _ (inject_Z (Z.pos dm)) DZ).
    setoid_replace (t * pow2q E * inject_Z (Z.pos dm))%Q with (t * inject_Z (Z.pos dm) * pow2q E)%Q by ring. rewrite TD. unfold N. rewrite Hm, Hdm.
    rewrite !inject_Z_mult, <- !pow2q_nonneg by lia.
    setoid_replace (inject_Z (Z.pos p) * pow2q d * pow2q 53 * pow2q E)%Q with (inject_Z (Z.pos p) * (pow2q d * pow2q 53 * pow2q E))%Q by ring.
    rewrite <- !pow2q_add. replace (d + 53 + E) with dd by (unfold E; lia). field. exact DP. }
  pose proof (round_near p64 e64 false q E (new_location (Z.pos dm) r) 30 t) as A. cbv zeta in A.
  destruct A as [A1 A2]; [unfold p64; lia|exact QP|vm_compute; discriminate|reflexivity| |exact T1|exact T2|right; unfold E, d, p64; lia|].
  { assert (Z.log2 q + E < 31); [|lia]. apply log2_below; [exact QP|].
    apply Qle_lt_trans with (t * pow2q E)%Q; [apply Qmult_le_compat_r; [exact T1|apply Qlt_le_weak, pow2q_pos]|]. rewrite TV.
    apply (Qmult_lt_r _ _ (inject_Z (Z.pos dp))); [reflexivity|].
    setoid_replace (inject_Z (Z.pos p) / inject_Z (Z.pos dp) * inject_Z (Z.pos dp))%Q with (inject_Z (Z.pos p)) by (field; exact DP).
    change (pow2q 31) with (inject_Z (2 ^ 31)). rewrite <- inject_Z_mult, <- Zlt_Qlt. nia. }
  split; [exact A1|]. change (30 + 1 - p64) with (-22) in A2. unfold sgn in A2. rewrite TV in A2. exact A2.
Qed.

(** Python's round *)
Lemma py_round_near d x : 0 <= d <= 3 -> finite x = true -> (Qabs (q_of x) <= 2000000)%Q ->
  finite (py_round d x) = true /\
  (Qabs (q_of (py_round d x) - q_of x) <= (1 # 2) / inject_Z (10 ^ d) + pow2q (-22))%Q.
Proof.
  intros Hd F H. assert (PT : 0 < 10 ^ d) by (apply Z.pow_pos_nonneg; lia).
  assert (PQ : (0 < inject_Z (10 ^ d))%Q) by (change 0%Q with (inject_Z 0); rewrite <- Zlt_Qlt; exact PT).
  assert (PI : (0 < (1 # 2) / inject_Z (10 ^ d))%Q) by (apply Qmult_lt_0_compat; [reflexivity|apply Qinv_lt_0_compat, PQ]).
  pose proof (pow2q_pos (-22)) as P22.
  assert (Z0 : forall y, (Qabs (q_of y - q_of y) <= (1 # 2) / inject_Z (10 ^ d) + pow2q (-22))%Q).
  { intros y. setoid_replace (q_of y - q_of y)%Q with 0%Q by ring. cbn [Qabs]. change (Qabs 0) with 0%Q. apply Qle_trans with (0 + 0)%Q; [discriminate|apply Qplus_le_compat; apply Qlt_le_weak; assumption]. }
  destruct x as [s| | |s m e]; try discriminate F; [split; [reflexivity|apply Z0]|].
  cbn [py_round]. destruct (integral m e); [split; [exact F|apply Z0]|]. clear Z0. rewrite abs_finite in H.
  destruct (nearest_near m e d ltac:(lia)) as [N0 NE]. set (n := nearest_mag m e d) in *. clearbody n.
  assert (DR : 1 <= 10 ^ d <= 1000) by (split; [lia|]; change 1000 with (10 ^ 3); apply Z.pow_le_mono_r; lia).
  assert (V0 : (0 < inject_Z (Z.pos m) * pow2q e)%Q) by (apply Qmult_lt_0_compat; [reflexivity|apply pow2q_pos]).
  set (v := (inject_Z (Z.pos m) * pow2q e)%Q) in *.
  assert (TB : (v * inject_Z (10 ^ d) <= 2000000000)%Q).
  { apply Qle_trans with (2000000 * inject_Z (10 ^ d))%Q; [apply Qmult_le_compat_r; [exact H|apply Qlt_le_weak, PQ]|].
    assert (X : (inject_Z (10 ^ d) <= inject_Z 1000)%Q) by (rewrite <- Zle_Qle; lia). change (inject_Z 1000) with 1000%Q in X. lra. }
  apply Qabs_Qle_condition in NE as NE'.
  assert (NB : n < 2 ^ 31) by (rewrite Zlt_Qlt; change (inject_Z (2 ^ 31)) with 2147483648%Q; lra).
  destruct (div64_near n (10 ^ d) ltac:(lia) DR) as [FD QD]. destruct (signed_value s (fdiv (of_Z n) (of_Z (10 ^ d)))) as [FS QS].
  split; [rewrite FS; exact FD|]. rewrite QS, q_of_finite. fold v.
  assert (M : (Qabs (inject_Z n / inject_Z (10 ^ d) - v) <= (1 # 2) / inject_Z (10 ^ d))%Q).
  { assert (PZ : ~ (inject_Z (10 ^ d) == 0)%Q) by (intros C; rewrite C in PQ; discriminate PQ).
    setoid_replace (inject_Z n / inject_Z (10 ^ d) - v)%Q with ((inject_Z n - v * inject_Z (10 ^ d)) * / inject_Z (10 ^ d))%Q by (field; exact PZ).
    rewrite Qabs_Qmult, (Qabs_pos (/ _)) by (apply Qlt_le_weak, Qinv_lt_0_compat, PQ). apply Qmult_le_compat_r; [exact NE|apply Qlt_le_weak, Qinv_lt_0_compat, PQ]. }
  assert (S : (Qabs (q_of (fdiv (of_Z n) (of_Z (10 ^ d))) - v) <= (1 # 2) / inject_Z (10 ^ d) + pow2q (-22))%Q).
  { setoid_replace (q_of (fdiv (of_Z n) (of_Z (10 ^ d))) - v)%Q
      with ((inject_Z n / inject_Z (10 ^ d) - v) + (q_of (fdiv (of_Z n) (of_Z (10 ^ d))) - inject_Z n / inject_Z (10 ^ d)))%Q by ring.
    eapply Qle_trans; [apply Qabs_triangle|]. apply Qplus_le_compat; assumption. }
  unfold sgn. destruct s; [|exact S].
  setoid_replace (- q_of (fdiv (of_Z n) (of_Z (10 ^ d))) - - v)%Q with (- (q_of (fdiv (of_Z n) (of_Z (10 ^ d))) - v))%Q by ring.
  rewrite Qabs_opp. exact S.
Qed.
