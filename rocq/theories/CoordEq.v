(** Equal coordinates are stored alike, whatever their Python representation. *)
From Coq Require Import Lia ZifyBool ZifyNat QArith Qabs.
From Verif Require Import Base BaseFacts Floats FloatsFacts Strings Dates Headers Order OrderFacts CoordFacts SpecStation.
Open Scope Z_scope.

Lemma valid64_finite s m e : valid64 (S754_finite s m e) = true ->
  Z.pos m < 2 ^ 53 /\ -1074 <= e /\ (2 ^ 52 <= Z.pos m \/ e = -1074).
Proof.
  unfold valid64. cbn [valid_binary]. unfold bounded. intros H. apply andb_prop in H as [H _].
  unfold canonical_mantissa in H. apply Zeq_bool_eq in H. rewrite digits2_pos_log2 in H.
  unfold fexp, emin, p64, e64 in H. pose proof (Z.log2_spec (Z.pos m) ltac:(lia)) as [L1 L2].
  assert (HL : Z.log2 (Z.pos m) < 53) by lia.
  assert (U : Z.pos m < 2 ^ 53).
  { apply Z.lt_le_trans with (2 ^ Z.succ (Z.log2 (Z.pos m))); [exact L2|]. apply Z.pow_le_mono_r; lia. }
  split; [exact U|]. split; [lia|].
  destruct (Z.eq_dec e (-1074)) as [->|N]; [right; reflexivity|]. left.
  assert (Z.log2 (Z.pos m) = 52) as E52 by lia. rewrite E52 in L1. exact L1.
Qed.

Lemma pow2q_lt_mul m1 e1 m2 e2 : e1 <= e2 -> (inject_Z m1 * pow2q e1 == inject_Z m2 * pow2q e2)%Q ->
  m1 = m2 * 2 ^ (e2 - e1).
Proof.
  intros H Q. set (j := Z.abs e1 + Z.abs e2).
  assert (Q1 : (inject_Z m1 * (pow2q e1 * inject_Z (2 ^ j)) == inject_Z m2 * (pow2q e2 * inject_Z (2 ^ j)))%Q).
  { rewrite !Qmult_assoc, Q. reflexivity. }
  rewrite !pow2q_shift in Q1 by lia. rewrite <- !inject_Z_mult in Q1. rewrite inject_Z_injective in Q1.
  replace (e2 + j) with ((e2 - e1) + (e1 + j)) in Q1 by lia. rewrite (Z.pow_add_r 2 (e2 - e1)) in Q1 by lia.
  assert (2 ^ (e1 + j) <> 0) by (apply Z.pow_nonzero; lia). nia.
Qed.

Lemma valid64_value s1 m1 e1 s2 m2 e2 :
  valid64 (S754_finite s1 m1 e1) = true -> valid64 (S754_finite s2 m2 e2) = true ->
  (q_of (S754_finite s1 m1 e1) == q_of (S754_finite s2 m2 e2))%Q -> S754_finite s1 m1 e1 = S754_finite s2 m2 e2.
Proof.
  intros V1 V2 Q. apply valid64_finite in V1 as (A1 & A2 & A3). apply valid64_finite in V2 as (B1 & B2 & B3).
  assert (P : forall m e, (0 < inject_Z (Z.pos m) * pow2q e)%Q).
  { intros m e. apply Qmult_lt_0_compat; [reflexivity|apply pow2q_pos]. }
  pose proof (P m1 e1) as P1. pose proof (P m2 e2) as P2.
  assert (SG : s1 = s2 /\ (inject_Z (Z.pos m1) * pow2q e1 == inject_Z (Z.pos m2) * pow2q e2)%Q).
  { unfold q_of in Q. change (Z.neg m1) with (- Z.pos m1) in Q. change (Z.neg m2) with (- Z.pos m2) in Q.
    destruct s1, s2; rewrite ?inject_Z_opp in Q.
    - split; [reflexivity|]. setoid_replace (inject_Z (Z.pos m1) * pow2q e1)%Q with (- (- inject_Z (Z.pos m1) * pow2q e1))%Q by ring. rewrite Q. ring.
    - exfalso. rewrite <- Q in P2. revert P2. apply Qle_not_lt. setoid_replace (- inject_Z (Z.pos m1) * pow2q e1)%Q with (- (inject_Z (Z.pos m1) * pow2q e1))%Q by ring.
      apply (Qopp_le_compat 0). apply Qlt_le_weak. exact P1.
    - exfalso. rewrite Q in P1. revert P1. apply Qle_not_lt. setoid_replace (- inject_Z (Z.pos m2) * pow2q e2)%Q with (- (inject_Z (Z.pos m2) * pow2q e2))%Q by ring.
      apply (Qopp_le_compat 0). apply Qlt_le_weak. exact P2.
    - split; [reflexivity|exact Q]. }
  destruct SG as [-> QM].
  assert (EE : e1 = e2).
  { destruct (Z.lt_trichotomy e1 e2) as [L|[L|L]]; [|exact L|].
    - apply pow2q_lt_mul in QM; [|lia]. exfalso.
      assert (2 ^ 1 <= 2 ^ (e2 - e1)) by (apply Z.pow_le_mono_r; lia). change (2 ^ 1) with 2 in *. change (2 ^ 53) with (2 * 2 ^ 52) in A1.
      destruct B3 as [B3| ->]; [|lia]. nia.
    - symmetry in QM. apply pow2q_lt_mul in QM; [|lia]. exfalso.
      assert (2 ^ 1 <= 2 ^ (e1 - e2)) by (apply Z.pow_le_mono_r; lia). change (2 ^ 1) with 2 in *. change (2 ^ 53) with (2 * 2 ^ 52) in B1.
      destruct A3 as [A3| ->]; [|lia]. nia. }
  subst e2. apply pow2q_lt_mul in QM; [|lia]. rewrite Z.sub_diag in QM. f_equal. lia.
Qed.

Lemma coord_same a b : coord_ok a -> coord_ok b -> num_cmp a b = Eq -> enc_coord a = enc_coord b.
Proof.
  intros HA HB H. unfold num_cmp in H. apply then_cmp_eq in H as [_ H]. apply Qeq_alt in H.
  destruct a as [n|f], b as [m|g]; cbn [num_value coord_ok] in *.
  - rewrite inject_Z_injective in H. subst. reflexivity.
  - destruct HB as (B1 & _ & _). symmetry in H. rewrite (enc_coord_whole g n B1 H HA). reflexivity.
  - destruct HA as (B1 & _ & _). rewrite (enc_coord_whole f m B1 H HB). reflexivity.
  - destruct HA as (A1 & A2 & _), HB as (B1 & B2 & _).
    destruct f as [s|s| |s mm e], g as [s'|s'| |s' m' e']; try discriminate A1; try discriminate B1.
    + destruct s, s'; reflexivity.
    + exfalso. change (q_of (S754_zero s)) with (inject_Z 0) in H. symmetry in H.
      pose proof (enc_coord_whole _ 0 B1 H) as X. clear X.
      unfold q_of in H. pose proof (pow2q_pos e') as P.
      assert (P' : ~ (pow2q e' == 0)%Q) by (intros E; rewrite E in P; discriminate P).
      destruct s'; apply Qmult_integral in H as [H|H]; try contradiction; change 0%Q with (inject_Z 0) in H; rewrite inject_Z_injective in H; discriminate H.
    + exfalso. change (q_of (S754_zero s')) with (inject_Z 0) in H.
      unfold q_of in H. pose proof (pow2q_pos e) as P.
      assert (P' : ~ (pow2q e == 0)%Q) by (intros E; rewrite E in P; discriminate P).
      destruct s; apply Qmult_integral in H as [H|H]; try contradiction; change 0%Q with (inject_Z 0) in H; rewrite inject_Z_injective in H; discriminate H.
    + rewrite (valid64_value _ _ _ _ _ _ A2 B2 H). reflexivity.
Qed.
