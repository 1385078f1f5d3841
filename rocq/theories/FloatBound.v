(** Bounds on the size of the results of floating-point operations (no axioms). *)
From Coq Require Import Lia ZifyBool ZifyNat QArith Qabs Lqa.
From Verif Require Import Base BaseFacts Floats FloatsFacts Order CoordFacts RoundFacts GribQFacts GridDataFacts.
Open Scope Z_scope.

(** A finite number is below 2^(k+1) in magnitude. *)
Definition small (k : Z) (x : flt) : Prop :=
  match x with S754_finite _ m e => Z.log2 (Z.pos m) + e <= k | _ => True end.

Lemma small_mono k k' x : k <= k' -> small k x -> small k' x.
Proof. destruct x; cbn; lia. Qed.

Lemma aux_small s M E l k : 0 < M -> Z.log2 M + E <= k -> -1000 <= k -> small (k + 1) (binary_round_aux p64 e64 s M E l).
Proof.
  intros HM HL HK. destruct (round_any p64 e64 ltac:(unfold p64; lia) s M E l HM) as (m2 & B1 & _ & B3).
  set (u := up p64 e64 M E) in *.
  assert (U : 0 <= u /\ (u <= Z.log2 M + 1 \/ E + u <= -1074)).
  { pose proof (Z.log2_nonneg M). unfold u, up, lowest, p64, e64. lia. }
  destruct U as [U0 U]. clearbody u.
  assert (PK : 0 < 2 ^ u) by (apply Z.pow_pos_nonneg; lia).
  assert (Q0 : 0 <= M / 2 ^ u) by (apply Z.div_pos; lia).
  assert (G : 0 < m2 -> Z.log2 m2 + (E + u) <= k + 1).
  { intros P2. pose proof (Z.log2_spec M HM) as [_ LM]. pose proof (Z.log2_nonneg M).
    destruct (Z_le_gt_dec u (Z.log2 M + 1)) as [Le|Gt].
    - assert (D : M / 2 ^ u < 2 ^ (Z.log2 M + 1 - u)).
      { apply Z.div_lt_upper_bound; [exact PK|]. rewrite <- Z.pow_add_r by lia. replace (u + (Z.log2 M + 1 - u)) with (Z.succ (Z.log2 M)) by lia. exact LM. }
      assert (L2 : Z.log2 m2 <= Z.log2 M + 1 - u).
      { apply Z.le_trans with (Z.log2 (2 ^ (Z.log2 M + 1 - u))); [apply Z.log2_le_mono; lia|]. rewrite Z.log2_pow2 by lia. lia. }
      lia.
    - assert (D : M / 2 ^ u = 0).
      { apply Z.div_small. split; [lia|]. apply Z.lt_le_trans with (1 := LM). apply Z.pow_le_mono_r; lia. }
      assert (m2 = 1) by lia. subst m2. change (Z.log2 1) with 0. lia. }
  unfold outcome in B3. destruct B3 as [(-> & _)|[[_ ->]|[(p & -> & ->)|(p & -> & ->)]]]; cbn [small]; try exact I.
  - apply G. lia.
  - specialize (G ltac:(lia)). rewrite Z.log2_double in G by lia. lia.
Qed.

Lemma round_small s m e k : Z.log2 (Z.pos m) + e <= k -> -1000 <= k -> small (k + 1) (binary_round p64 e64 s m e).
Proof.
  intros H HK. unfold binary_round. destruct (shl_align m e _) as [mz ez] eqn:EA.
  apply shl_align_value in EA as (A1 & _ & A3 & A4).
  apply aux_small; [lia| |exact HK].
  destruct (Z_le_gt_dec e (fexp p64 e64 (Z.pos (digits2_pos m) + e))) as [L|G].
  - destruct (A3 L) as [-> ->]. exact H.
  - destruct (A4 ltac:(lia)) as [-> ->]. rewrite Z.log2_mul_pow2 by lia. lia.
Qed.
Lemma normalize_small z e s k : z <> 0 -> Z.log2 (Z.abs z) + e <= k -> -1000 <= k -> small (k + 1) (binary_normalize p64 e64 z e s).
Proof. intros HZ H HK. destruct z as [|m|m]; [lia| |]; apply round_small; assumption. Qed.

Lemma align_log m e ez : ez <= e -> Z.log2 (Z.pos (fst (shl_align m e ez))) + ez = Z.log2 (Z.pos m) + e.
Proof.
  intros H. destruct (shl_align m e ez) as [mz e2] eqn:EA. apply shl_align_value in EA as (A1 & _ & A3 & A4). cbn [fst].
  destruct (Z.eq_dec e ez) as [->|N]; [destruct (A3 ltac:(lia)) as [-> _]; reflexivity|].
  destruct (A4 ltac:(lia)) as [_ ->]. rewrite Z.log2_mul_pow2 by lia. lia.
Qed.
Lemma sum_log a b k e : Z.log2 a + e <= k -> Z.log2 b + e <= k -> 0 < a -> 0 < b -> forall z, z <> 0 -> Z.abs z <= a + b -> Z.log2 (Z.abs z) + e <= k + 1.
Proof.
  intros Ha Hb Pa Pb z Hz HB. pose proof (Z.log2_spec a Pa) as [_ LA]. pose proof (Z.log2_spec b Pb) as [_ LB].
  pose proof (Z.log2_nonneg a). pose proof (Z.log2_nonneg b).
  assert (X : Z.abs z < 2 ^ (k - e + 2)).
  { replace (k - e + 2) with (Z.succ (k - e + 1)) by lia. rewrite Z.pow_succ_r by lia.
    assert (a < 2 ^ (k - e + 1)) by (apply Z.lt_le_trans with (1 := LA); apply Z.pow_le_mono_r; lia).
    assert (b < 2 ^ (k - e + 1)) by (apply Z.lt_le_trans with (1 := LB); apply Z.pow_le_mono_r; lia). lia. }
  apply Z.log2_lt_pow2 in X; [|lia]. lia.
Qed.
Lemma add_core k sx mx ex sy my ey (f : Z -> Z -> Z) : (forall x y, Z.abs (f x y) <= Z.abs x + Z.abs y) ->
  Z.log2 (Z.pos mx) + ex <= k -> Z.log2 (Z.pos my) + ey <= k -> -1000 <= k ->
  small (k + 2) (binary_normalize p64 e64 (f (cond_Zopp sx (Z.pos (fst (shl_align mx ex (Z.min ex ey))))) (cond_Zopp sy (Z.pos (fst (shl_align my ey (Z.min ex ey))))))
     (Z.min ex ey) false).
Proof.
  intros Hf H1 H2 HK. set (ez := Z.min ex ey).
  pose proof (align_log mx ex ez ltac:(lia)) as A1. pose proof (align_log my ey ez ltac:(lia)) as A2.
  set (a := fst (shl_align mx ex ez)) in *. set (b := fst (shl_align my ey ez)) in *. clearbody a b ez.
  set (z := f _ _). assert (B : Z.abs z <= Z.pos a + Z.pos b).
  { unfold z. eapply Z.le_trans; [apply Hf|]. unfold cond_Zopp. destruct sx, sy; lia. }
  clearbody z. destruct (Z.eq_dec z 0) as [->|N]; [exact I|].
  replace (k + 2) with (k + 1 + 1) by lia. apply normalize_small; [exact N| |lia].
  apply (sum_log (Z.pos a) (Z.pos b)); try lia.
Qed.
Lemma fadd_small k x y : small k x -> small k y -> -1000 <= k -> small (k + 2) (fadd x y).
Proof.
  intros Hx Hy HK. unfold fadd. destruct x as [s1|s1| |s1 m1 e1], y as [s2|s2| |s2 m2 e2]; cbn [SFadd]; try exact I;
    try (destruct (Bool.eqb _ _); exact I); try (cbn [small] in *; lia).
  apply (add_core k s1 m1 e1 s2 m2 e2 Z.add); try assumption. lia.
Qed.
Lemma fsub_small k x y : small k x -> small k y -> -1000 <= k -> small (k + 2) (fsub x y).
Proof.
  intros Hx Hy HK. unfold fsub. destruct x as [s1|s1| |s1 m1 e1], y as [s2|s2| |s2 m2 e2]; cbn [SFsub]; try exact I;
    try (destruct (Bool.eqb _ _); exact I); try (cbn [small] in *; lia).
  apply (add_core k s1 m1 e1 s2 m2 e2 Z.sub); try assumption. lia.
Qed.
Lemma fmul_small a b x y : small a x -> small b y -> -1000 <= a + b -> small (a + b + 2) (fmul x y).
Proof.
  intros Hx Hy HK. unfold fmul. destruct x as [s1|s1| |s1 m1 e1], y as [s2|s2| |s2 m2 e2]; cbn [SFmul]; try exact I.
  replace (a + b + 2) with (a + b + 1 + 1) by lia. apply aux_small; [lia| |lia]. cbn [small] in *.
  rewrite Pos2Z.inj_mul. pose proof (Z.log2_mul_above (Z.pos m1) (Z.pos m2)). pose proof (Z.log2_spec (Z.pos m1) ltac:(lia)) as [_ L1]. pose proof (Z.log2_spec (Z.pos m2) ltac:(lia)) as [_ L2].
  pose proof (Z.log2_nonneg (Z.pos m1)). pose proof (Z.log2_nonneg (Z.pos m2)).
  assert (X : Z.pos m1 * Z.pos m2 < 2 ^ (Z.succ (Z.log2 (Z.pos m1)) + Z.succ (Z.log2 (Z.pos m2)))).
  { rewrite Z.pow_add_r by lia. apply Z.mul_lt_mono_nonneg; lia. }
  apply Z.log2_lt_pow2 in X; lia.
Qed.
Lemma sqrt_small k x : small (2 * k) x -> -1000 <= k -> small (k + 1) (SFsqrt p64 e64 x).
Proof.
  intros Hx HK. destruct x as [s|[|]| |[|] m e]; cbn [SFsqrt]; try exact I. cbn [small] in Hx.
  unfold SFsqrt_core_binary. cbv zeta. set (e' := Z.min _ (Z.div2 e)).
  assert (E' : 2 * e' <= e) by (pose proof (Z.div2_odd e); unfold e'; destruct (Z.odd e); cbn [Z.b2z] in *; lia).
  clearbody e'. set (m' := match e - 2 * e' with Z0 => _ | Zpos _ => _ | Zneg _ => _ end).
  assert (M : m' = Z.pos m * 2 ^ (e - 2 * e')).
  { unfold m'. destruct (e - 2 * e') eqn:D; [rewrite Z.mul_1_r; reflexivity| |lia]. rewrite Z.shiftl_mul_pow2 by lia. reflexivity. }
  clearbody m'. pose proof (Z.sqrtrem_spec m' ltac:(subst m'; apply Z.mul_nonneg_nonneg; [lia|apply Z.pow_nonneg; lia])) as S.
  destruct (Z.sqrtrem m') as [q r]. destruct S as [S1 S2].
  assert (P : 0 < m') by (subst m'; apply Z.mul_pos_pos; [lia|apply Z.pow_pos_nonneg; lia]).
  assert (Q : 0 < q) by nia.
  apply aux_small; [exact Q| |exact HK].
  assert (L : Z.log2 m' = Z.log2 (Z.pos m) + (e - 2 * e')) by (rewrite M, Z.log2_mul_pow2 by lia; lia).
  assert (L2 : 2 * Z.log2 q <= Z.log2 m').
  { pose proof (Z.log2_spec q Q) as [K _]. pose proof (Z.log2_nonneg q). apply Z.log2_le_pow2; [exact P|].
    replace (2 * Z.log2 q) with (Z.log2 q + Z.log2 q) by lia. rewrite Z.pow_add_r by lia. nia. }
  lia.
Qed.
(** A number below 2^127 is a 32-bit float. *)
Lemma small_to32 x : small 126 x -> exists y, to32 x = Ok y.
Proof.
  destruct x as [s|s| |s m e]; try (intros _; eexists; reflexivity). cbn [small]. intros H. apply to32_fits.
  apply Qle_trans with (pow2q 127).
  - pose proof (Z.log2_spec (Z.pos m) ltac:(lia)) as [_ L]. pose proof (Z.log2_nonneg (Z.pos m)).
    assert (E : (inject_Z (2 ^ Z.succ (Z.log2 (Z.pos m))) * pow2q e == pow2q (Z.succ (Z.log2 (Z.pos m)) + e))%Q) by (rewrite pow2q_add, (pow2q_nonneg (Z.succ (Z.log2 (Z.pos m)))) by lia; reflexivity).
    apply Qle_trans with (inject_Z (2 ^ Z.succ (Z.log2 (Z.pos m))) * pow2q e)%Q.
    + apply Qmult_le_compat_r; [rewrite <- Zle_Qle; lia|apply Qlt_le_weak, pow2q_pos].
    + rewrite E. apply pow2q_mono. lia.
  - vm_compute. discriminate.
Qed.
(** From a bound on the value. *)
Lemma bounded_small k x : 0 <= k -> (finite x = true -> (Qabs (q_of x) < inject_Z (2 ^ k))%Q) -> small (k - 1) x.
Proof.
  intros HK H. destruct x as [s|s| |s m e]; try exact I. cbn [small]. specialize (H eq_refl).
  assert (A : (Qabs (q_of (S754_finite s m e)) == inject_Z (Z.pos m) * pow2q e)%Q).
  { rewrite q_of_finite. assert (P : (0 <= inject_Z (Z.pos m) * pow2q e)%Q) by (apply Qmult_le_0_compat; [discriminate|apply Qlt_le_weak, pow2q_pos]).
    unfold sgn. destruct s; [rewrite Qabs_opp|]; apply Qabs_pos; exact P. }
  rewrite A in H. pose proof (Z.log2_spec (Z.pos m) ltac:(lia)) as [L _]. pose proof (Z.log2_nonneg (Z.pos m)).
  destruct (Z_le_gt_dec (Z.log2 (Z.pos m) + e) (k - 1)) as [Hle|G]; [exact Hle|exfalso].
  assert (X : (inject_Z (2 ^ k) <= inject_Z (Z.pos m) * pow2q e)%Q).
  { apply Qle_trans with (inject_Z (2 ^ Z.log2 (Z.pos m)) * pow2q e)%Q.
    - rewrite <- !pow2q_nonneg by lia. rewrite <- pow2q_add. apply pow2q_mono. lia.
    - apply Qmult_le_compat_r; [rewrite <- Zle_Qle; exact L|apply Qlt_le_weak, pow2q_pos]. }
  lra.
Qed.
