(** Lemmas about Real.v. *)
From Coq Require Import Lia ZifyBool ZifyNat QArith.
From Verif Require Import Base BaseFacts SpecGrib SpecReal Grib GribFacts Real.
Open Scope Z_scope.
Ltac Zify.zify_post_hook ::= Z.div_mod_to_equations.

Definition i32 (w : Z) : Prop := - 2 ^ 31 <= w < 2 ^ 31.

Lemma wrap32_testbit v k : 0 <= k < 32 -> Z.testbit (wrap32 v) k = Z.testbit v k.
Proof.
  intros H. rewrite <- (Z.mod_pow2_bits_low (wrap32 v) 32 k), <- (Z.mod_pow2_bits_low v 32 k) by lia.
  change (2 ^ 32) with two32. rewrite wrap32_mod. reflexivity.
Qed.

Lemma ones_testbit b k : 0 <= b -> 0 <= k -> Z.testbit (2 ^ b - 1) k = (k <? b).
Proof.
  intros Hb Hk. replace (2 ^ b - 1) with (Z.ones b) by (rewrite Z.ones_equiv; lia).
  destruct (Z.ltb_spec k b); [apply Z.ones_spec_low|apply Z.ones_spec_high]; lia.
Qed.

Lemma mask_value b : 1 <= b <= 32 -> fortran_ishift 4294967295 (b - 32) = 2 ^ b - 1.
Proof.
  intros Hb. unfold fortran_ishift. destruct (Z.gtb_spec (b - 32) 0); [lia|].
  destruct (Z.ltb_spec (b - 32) 0).
  - change (4294967295 <? 0) with false. cbv iota. rewrite Z.abs_neq by lia. replace (- (b - 32)) with (32 - b) by lia.
    change 4294967295 with (Z.ones 32). rewrite Z.shiftr_div_pow2 by lia. rewrite Z.ones_equiv.
    assert (E : 2 ^ 32 = 2 ^ b * 2 ^ (32 - b)) by (rewrite <- Z.pow_add_r by lia; f_equal; lia).
    rewrite E. assert (0 < 2 ^ (32 - b)) by (apply Z.pow_pos_nonneg; lia).
    symmetry. apply Z.div_unique_pos with (r := 2 ^ (32 - b) - 1); lia.
  - replace b with 32 by lia. reflexivity.
Qed.

(** bits of a 32-bit word shifted by the Fortran shift *)
Lemma ishift_testbit w s k : i32 w -> -32 < s < 32 -> 0 <= k < 32 ->
  Z.testbit (fortran_ishift w s) k = (0 <=? k - s) && (k - s <? 32) && Z.testbit w (k - s).
Proof.
  intros Hw Hs Hk. unfold fortran_ishift. destruct (Z.gtb_spec s 0).
  - rewrite wrap32_testbit by lia. rewrite Z.shiftl_spec by lia.
    destruct (Z.leb_spec 0 (k - s)); cbn [andb].
    + destruct (Z.ltb_spec (k - s) 32); [reflexivity|lia].
    + apply Z.testbit_neg_r. lia.
  - destruct (Z.ltb_spec s 0).
    + rewrite Z.abs_neq by lia. destruct (Z.leb_spec 0 (k - s)); [|lia]. cbn [andb].
      destruct (Z.ltb_spec w 0).
      * rewrite Z.shiftr_spec by lia. replace (k + - s) with (k - s) by lia.
        rewrite Z.land_spec. change 4294967295 with (2 ^ 32 - 1). rewrite ones_testbit by lia.
        apply andb_comm.
      * rewrite Z.shiftr_spec by lia. replace (k + - s) with (k - s) by lia.
        destruct (Z.ltb_spec (k - s) 32); [reflexivity|]. cbn [andb].
        apply Z.bits_above_log2; [lia|]. unfold i32 in Hw.
        destruct (Z.eq_dec w 0) as [->|]; [cbn; lia|].
        assert (Z.log2 w < 31) by (apply Z.log2_lt_pow2; lia). lia.
    + replace s with 0 by lia. rewrite Z.sub_0_r.
      destruct (Z.leb_spec 0 k); [|lia]. destruct (Z.ltb_spec k 32); [|lia]. reflexivity.
Qed.

Lemma lsb_testbit ws : forall j, 0 <= j ->
  Z.testbit (lsb_number ws) j = Z.testbit (nth (Z.to_nat (j / 32)) ws 0) (j mod 32).
Proof.
  induction ws as [|w ws IH]; intros j Hj.
  - cbn [lsb_number fold_right]. destruct (Z.to_nat (j / 32)); cbn [nth]; rewrite !Z.bits_0; reflexivity.
  - cbn [lsb_number fold_right]. fold (lsb_number ws).
    destruct (Z_lt_ge_dec j 32).
    + replace (Z.to_nat (j / 32)) with O by lia. cbn [nth]. replace (j mod 32) with j by lia.
      rewrite <- (Z.mod_pow2_bits_low _ 32 j) by lia.
      rewrite (Z.mul_comm (2 ^ 32)), Z.mod_add by lia. rewrite Z.mod_mod by lia.
      apply Z.mod_pow2_bits_low. lia.
    + replace (Z.to_nat (j / 32)) with (S (Z.to_nat ((j - 32) / 32))) by lia. cbn [nth].
      replace (j mod 32) with ((j - 32) mod 32) by lia. rewrite <- IH by lia.
      replace j with ((j - 32) + 32) at 1 by lia. rewrite <- Z.div_pow2_bits by lia.
      rewrite (Z.mul_comm (2 ^ 32)), Z.div_add by lia.
      rewrite Z.div_small by (apply Z.mod_pos_bound; lia). reflexivity.
Qed.

Lemma bit_field_testbit n s b k : 0 <= s -> 0 <= b -> 0 <= k ->
  Z.testbit (bit_field n s b) k = (k <? b) && Z.testbit n (k + s).
Proof.
  intros. unfold bit_field. destruct (Z.ltb_spec k b).
  - rewrite Z.mod_pow2_bits_low by lia. rewrite Z.div_pow2_bits by lia. reflexivity.
  - apply Z.mod_pow2_bits_high. lia.
Qed.

Lemma nth_i32 ws i : Forall i32 ws -> i32 (nth i ws 0).
Proof.
  intros H. destruct (Nat.lt_ge_cases i (length ws)) as [Hi|Hi].
  - rewrite Forall_forall in H. apply H, nth_In, Hi.
  - rewrite nth_overflow by exact Hi. unfold i32. lia.
Qed.

Lemma unpack_field_spec ws bits t : Forall i32 ws -> 1 <= bits <= 32 -> 0 <= t -> t + bits <= 32 * Zlen ws ->
  unpack_field ws bits t = Ok (bit_field (lsb_number ws) t bits).
Proof.
  intros HW Hb Ht HL. unfold unpack_field.
  rewrite py_index_nth by lia. cbn [bind]. rewrite mask_value by exact Hb.
  set (w1 := nth (Z.to_nat (t / 32)) ws 0). assert (H1 : i32 w1) by apply nth_i32, HW.
  replace (1 - (t mod 32 + 1)) with (- (t mod 32)) by lia.
  destruct (Z.gtb_spec (t mod 32 + 1 + bits - 1) 32) as [G|G].
  - rewrite py_index_nth by lia. cbn [bind].
    set (w2 := nth (Z.to_nat (t / 32 + 1)) ws 0). assert (H2 : i32 w2) by apply nth_i32, HW.
    f_equal. apply Z.bits_inj'. intros k Hk.
    rewrite bit_field_testbit by lia. rewrite Z.lor_spec, !Z.land_spec, ones_testbit by lia.
    destruct (Z.ltb_spec k bits) as [Hkb|Hkb]; [|rewrite !andb_false_r; reflexivity].
    rewrite !andb_true_r. cbn [andb].
    rewrite !ishift_testbit by (try assumption; lia).
    rewrite lsb_testbit by lia.
    destruct (Z_lt_ge_dec (t mod 32 + k) 32) as [C|C].
    + replace ((k + t) / 32) with (t / 32) by lia. replace ((k + t) mod 32) with (k - - (t mod 32)) by lia.
      fold w1. destruct (Z.leb_spec 0 (k - (- (t mod 32) + 32))); [lia|].
      cbn [andb]. rewrite orb_false_r.
      destruct (Z.leb_spec 0 (k - - (t mod 32))); [|lia].
      destruct (Z.ltb_spec (k - - (t mod 32)) 32); [reflexivity|lia].
    + replace ((k + t) / 32) with (t / 32 + 1) by lia. replace ((k + t) mod 32) with (k - (- (t mod 32) + 32)) by lia.
      fold w2. destruct (Z.ltb_spec (k - - (t mod 32)) 32); [lia|]. rewrite andb_false_r. cbn [andb orb].
      destruct (Z.leb_spec 0 (k - (- (t mod 32) + 32))); [|lia].
      destruct (Z.ltb_spec (k - (- (t mod 32) + 32)) 32); [reflexivity|lia].
  - f_equal. apply Z.bits_inj'. intros k Hk.
    rewrite bit_field_testbit by lia. rewrite !Z.land_spec, ones_testbit by lia.
    destruct (Z.ltb_spec k bits) as [Hkb|Hkb]; [|rewrite !andb_false_r; reflexivity].
    rewrite !andb_true_r. cbn [andb].
    rewrite !ishift_testbit by (try assumption; lia).
    rewrite lsb_testbit by lia.
    replace ((k + t) / 32) with (t / 32) by lia. replace ((k + t) mod 32) with (k - - (t mod 32)) by lia.
    fold w1. destruct (Z.leb_spec 0 (k - - (t mod 32))); [|lia].
    destruct (Z.ltb_spec (k - - (t mod 32)) 32); [reflexivity|lia].
Qed.

Definition okparms (parms : list packed_parm) : Prop := Forall (fun p => 1 <= pp_bits p <= 32) parms.

Definition spec_parm (n t : Z) (p : packed_parm) : option Q :=
  field_value (pp_bits p) (pp_offset p) (pp_scale p) (bit_field n t (pp_bits p)).

Lemma total_nonneg parms : okparms parms -> 0 <= total (map pp_bits parms).
Proof.
  induction 1 as [|p l Hp _ IH]; [cbn; lia|]. cbn [map total fold_right]. unfold total in IH. lia.
Qed.

Lemma unpack_record_spec ws : Forall i32 ws -> forall parms t, okparms parms -> 0 <= t ->
  t + total (map pp_bits parms) <= 32 * Zlen ws ->
  exists out, unpack_record ws parms t = Ok out /\ length out = length parms /\
    forall i p, nth_error parms i = Some p ->
      nth_error out i = Some (spec_parm (lsb_number ws) (t + total (map pp_bits (firstn i parms))) p).
Proof.
  intros HW. induction parms as [|p parms IH]; intros t HP Ht HL.
  - exists []. repeat split. intros [|i] q; discriminate.
  - inversion HP as [|? ? Hp HP']; subst. cbn [map total fold_right] in HL. fold (total (map pp_bits parms)) in HL.
    pose proof (total_nonneg parms HP') as HT.
    cbn [unpack_record]. rewrite unpack_field_spec by (try assumption; lia). cbn [bind].
    destruct (IH (t + pp_bits p) HP' ltac:(lia) ltac:(lia)) as (out & HO & HLen & HN).
    rewrite HO. cbn [bind]. eexists. split; [reflexivity|]. split; [cbn; congruence|].
    intros [|i] q Hq; cbn [nth_error] in *.
    + injection Hq as <-. cbn [firstn map total fold_right]. rewrite Z.add_0_r.
      unfold spec_parm, field_value. rewrite mask_value by exact Hp. reflexivity.
    + rewrite (HN i q Hq). do 2 f_equal. cbn [firstn map total fold_right]. unfold total. lia.
Qed.

Lemma fold_left_add l : forall a, fold_left Z.add l a = a + total l.
Proof. induction l as [|x l IH]; intros a; cbn [fold_left total fold_right]; [lia|]. rewrite IH. unfold total. lia. Qed.

Lemma sum_bits_total parms : sum_bits parms = total (map pp_bits parms).
Proof. unfold sum_bits. rewrite fold_left_add. lia. Qed.

Lemma Forall_firstn {A} (P : A -> Prop) n l : Forall P l -> Forall P (firstn n l).
Proof. intros H; revert n; induction H; intros [|n]; cbn; constructor; auto. Qed.
Lemma Forall_skipn {A} (P : A -> Prop) n l : Forall P l -> Forall P (skipn n l).
Proof. intros H; revert n; induction H; intros [|n]; cbn; auto. Qed.

Lemma unpack_records_spec buf pw parms : Forall i32 buf -> okparms parms -> 0 <= pw ->
  total (map pp_bits parms) <= 32 * pw -> forall n ii, 0 <= ii -> ii + Z.of_nat n * pw <= Zlen buf ->
  exists out, unpack_records n buf pw parms ii = Ok out /\
    length out = (n * length parms)%nat /\
    forall r i p, (r < n)%nat -> nth_error parms i = Some p ->
      nth_error out (r * length parms + i) =
      Some (spec_parm (lsb_number (firstn (Z.to_nat pw) (skipn (Z.to_nat (ii + Z.of_nat r * pw)) buf)))
              (total (map pp_bits (firstn i parms))) p).
Proof.
  intros HW HP Hpw HT. induction n as [|n IH]; intros ii Hii HL.
  - exists []. repeat split. intros; lia.
  - cbn [unpack_records]. rewrite py_slice_in by nia.
    replace (ii + pw - ii) with pw by lia.
    set (ws := firstn (Z.to_nat pw) (skipn (Z.to_nat ii) buf)).
    assert (HWs : Forall i32 ws) by (apply Forall_firstn, Forall_skipn, HW).
    assert (HLs : Zlen ws = pw) by (unfold ws; autorewrite with zlen; nia).
    destruct (unpack_record_spec ws HWs parms 0 HP ltac:(lia) ltac:(lia)) as (o1 & HO1 & HL1 & HN1).
    rewrite HO1. cbn [bind].
    destruct (IH (ii + pw) ltac:(lia) ltac:(nia)) as (o2 & HO2 & HL2 & HN2).
    rewrite HO2. cbn [bind]. eexists. split; [reflexivity|].
    split; [rewrite app_length, HL1, HL2; lia|].
    intros r i p Hr Hi.
    assert (Hil : (i < length parms)%nat) by (apply nth_error_Some; congruence).
    destruct r as [|r].
    + cbn [Nat.mul Nat.add]. rewrite nth_error_app1 by lia. rewrite (HN1 i p Hi).
      rewrite Z.add_0_l. unfold ws. do 5 f_equal. lia.
    + rewrite nth_error_app2 by nia.
      replace (S r * length parms + i - length o1)%nat with (r * length parms + i)%nat by nia.
      rewrite (HN2 r i p ltac:(lia) Hi). do 6 f_equal. nia.
Qed.

Lemma unpack_real_spec buf parms n : Forall i32 buf -> okparms parms -> parms <> [] ->
  let pw := - ((- total (map pp_bits parms)) / 32) in
  Zlen buf = Z.of_nat n * pw ->
  exists out, unpack_real buf parms (Zlen buf) = Ok out /\
    length out = (n * length parms)%nat /\
    forall r i p, (r < n)%nat -> nth_error parms i = Some p ->
      nth_error out (r * length parms + i) =
      Some (spec_parm (lsb_number (firstn (Z.to_nat pw) (skipn (Z.to_nat (Z.of_nat r * pw)) buf)))
              (total (map pp_bits (firstn i parms))) p).
Proof.
  intros HW HP Hne pw HL. unfold unpack_real. rewrite sum_bits_total.
  assert (HT : 1 <= total (map pp_bits parms)).
  { destruct HP as [|p l Hp HP]; [congruence|]. pose proof (total_nonneg l HP). cbn [map total fold_right]. unfold total in *. lia. }
  set (T := total (map pp_bits parms)) in *.
  assert (Epw : (T - 1) / 32 + 1 = pw) by (unfold pw; lia). rewrite Epw.
  assert (Hpw : 1 <= pw) by (unfold pw; lia).
  destruct (Z.eqb_spec pw 0); [lia|].
  assert (En : (Zlen buf - 1) / pw + 1 = Z.of_nat n).
  { rewrite HL. assert (E : (Z.of_nat n * pw - 1) / pw = Z.of_nat n - 1); [|lia].
    symmetry. apply Z.div_unique_pos with (r := pw - 1); lia. }
  rewrite En, HL, Z.eqb_refl. cbn [negb]. rewrite Nat2Z.id.
  destruct (unpack_records_spec buf pw parms HW HP ltac:(lia) ltac:(fold T; unfold pw; lia) n 0 ltac:(lia) ltac:(lia)) as (out & HO & HLen & HN).
  exists out. split; [exact HO|]. split; [exact HLen|]. exact HN.
Qed.

Lemma unpack_real_mismatch buf parms : okparms parms -> parms <> [] ->
  let pw := - ((- total (map pp_bits parms)) / 32) in
  Zlen buf mod pw <> 0 -> unpack_real buf parms (Zlen buf) = Err ValueError.
Proof.
  intros HP Hne pw HM. unfold unpack_real. rewrite sum_bits_total.
  assert (HT : 1 <= total (map pp_bits parms)).
  { destruct HP as [|p l Hp HP]; [congruence|]. pose proof (total_nonneg l HP). cbn [map total fold_right]. unfold total in *. lia. }
  set (T := total (map pp_bits parms)) in *.
  assert (Epw : (T - 1) / 32 + 1 = pw) by (unfold pw; lia). rewrite Epw.
  assert (Hpw : 1 <= pw) by (unfold pw; lia).
  destruct (Z.eqb_spec pw 0); [lia|].
  destruct (Z.eqb_spec (((Zlen buf - 1) / pw + 1) * pw) (Zlen buf)) as [E|E]; cbn [negb]; [|reflexivity].
  exfalso. apply HM. rewrite <- E. apply Z.mod_mul. lia.
Qed.

(** fields of a number built from fields *)
Lemma fields_number_field : forall l i b v,
  Forall (fun bv => 0 <= fst bv /\ 0 <= snd bv < 2 ^ fst bv) l -> nth_error l i = Some (b, v) ->
  bit_field (fields_number l) (total (map fst (firstn i l))) b = v.
Proof.
  induction l as [|[b0 v0] l IH]; intros i b v HF Hi; [destruct i; discriminate|].
  inversion HF as [|? ? [H1 H2] HF']; subst. cbn [fst snd] in *.
  destruct i as [|i]; cbn [nth_error] in Hi.
  - injection Hi as -> ->. cbn [firstn map total fold_right]. unfold bit_field.
    rewrite Z.pow_0_r, Z.div_1_r. cbn [fields_number fold_right fst snd].
    rewrite (Z.mul_comm (2 ^ b)), Z.mod_add by (apply Z.pow_nonzero; lia). apply Z.mod_small, H2.
  - specialize (IH i b v HF' Hi). cbn [firstn map total fold_right fst].
    fold (total (map fst (firstn i l))). set (T := total (map fst (firstn i l))) in *.
    assert (HT : 0 <= T).
    { unfold T. assert (G : forall l', Forall (fun bv : Z * Z => 0 <= fst bv /\ 0 <= snd bv < 2 ^ fst bv) l' -> 0 <= total (map fst l')).
      { induction 1 as [|x l' [? ?] _ IHl]; [cbn; lia|]. cbn [map total fold_right]. unfold total in IHl. lia. }
      apply G, Forall_firstn, HF'. }
    rewrite <- IH. unfold bit_field. f_equal. cbn [fields_number fold_right fst snd].
    fold (fields_number l). rewrite Z.pow_add_r by lia.
    rewrite <- Z.div_div by (try apply Z.pow_nonzero; try apply Z.pow_pos_nonneg; lia).
    rewrite (Z.mul_comm (2 ^ b0)), Z.div_add by (apply Z.pow_nonzero; lia).
    rewrite (Z.div_small v0) by exact H2. reflexivity.
Qed.

(** ** difference packing *)
Lemma msb_testbit ws : forall j, 0 <= j < 32 * Zlen ws ->
  Z.testbit (concat_bits 32 (map (fun w => w mod two32) ws)) (32 * Zlen ws - 1 - j)
  = Z.testbit (nth (Z.to_nat (j / 32)) ws 0) (31 - j mod 32).
Proof.
  intros j Hj.
  set (us := map (fun w => w mod two32) ws).
  pose proof (pre_shift ws (j / 32 + 1) ltac:(lia)) as HP. fold us in HP.
  replace (32 * Zlen ws - 1 - j) with ((31 - j mod 32) + 32 * (Zlen ws - (j / 32 + 1))) by lia.
  rewrite <- Z.shiftr_spec by lia. rewrite HP.
  rewrite pre_succ by (unfold us; rewrite Zlen_map; lia).
  rewrite <- (Z.mod_pow2_bits_low _ 32) by lia.
  rewrite Z.add_comm, Z.mod_add by lia.
  unfold us. change 0 with (0 mod two32) at 1. rewrite map_nth with (f := fun w => w mod two32).
  change (2 ^ 32) with two32. rewrite Z.mod_mod by (unfold two32; lia).
  change two32 with (2 ^ 32). apply Z.mod_pow2_bits_low. lia.
Qed.

Lemma field_testbit n ws i k : 1 <= n <= 32 -> 0 <= i -> n * (i + 1) <= 32 * Zlen ws -> 0 <= k ->
  Z.testbit (field n ws i) k = (k <? n) &&
    let j := n * i + (n - 1 - k) in Z.testbit (nth (Z.to_nat (j / 32)) ws 0) (31 - j mod 32).
Proof.
  intros Hn Hi HL Hk. unfold field. cbn zeta.
  destruct (Z.ltb_spec k n).
  - rewrite Z.mod_pow2_bits_low by lia. rewrite Z.shiftr_spec by lia. cbn [andb].
    rewrite <- msb_testbit by nia. f_equal. lia.
  - apply Z.mod_pow2_bits_high. lia.
Qed.

Lemma diff_code_spec m ws i : Forall i32 ws -> 1 <= dm_bits m <= 32 -> 0 <= i ->
  dm_bits m * (i + 1) <= 32 * Zlen ws ->
  diff_code m ws (dm_bits m * i / 32) ((dm_bits m * i) mod 32 + 1) = Ok (field (dm_bits m) ws i).
Proof.
  intros HW Hb Hi HL. set (n := dm_bits m) in *. unfold diff_code. fold n.
  assert (HLb : n * i + n <= 32 * Zlen ws) by lia.
  set (x := n * i) in *. assert (Hx : 0 <= x) by (unfold x; nia).
  set (q := x / 32). set (b := x mod 32). assert (Hxb : x = 32 * q + b /\ 0 <= b < 32) by (unfold q, b; clear; lia).
  assert (Hq : 0 <= q) by lia.
  rewrite py_index_nth by lia. cbn [bind].
  set (w1 := nth (Z.to_nat q) ws 0). assert (H1 : i32 w1) by apply nth_i32, HW.
  replace (n + (b + 1) - 33) with (n + b - 32) by lia.
  assert (Hj : forall k, 0 <= k < n -> x + (n - 1 - k) = 32 * q + (b + n - 1 - k)) by lia.
  destruct (Z.gtb_spec (n + b - 32) 0) as [G|G].
  - rewrite py_index_nth by lia. cbn [bind].
    set (w2 := nth (Z.to_nat (q + 1)) ws 0). assert (H2 : i32 w2) by apply nth_i32, HW.
    f_equal. apply Z.bits_inj'. intros k Hk.
    rewrite field_testbit by lia. fold x. cbn zeta.
    rewrite Z.lor_spec, Z.land_spec, ones_testbit by lia.
    destruct (Z.ltb_spec k n) as [Hkn|Hkn].
    + rewrite andb_true_r. cbn [andb]. rewrite !ishift_testbit by (try assumption; lia).
      rewrite Hj by lia.
      destruct (Z_lt_ge_dec (b + n - 1 - k) 32) as [C|C].
      * replace ((32 * q + (b + n - 1 - k)) / 32) with q by lia. fold w1.
        replace (31 - (32 * q + (b + n - 1 - k)) mod 32) with (k - (n + b - 32)) by lia.
        destruct (Z.leb_spec 0 (k - (n + b - 32))); [|lia].
        destruct (Z.ltb_spec (k - (n + b - 32)) 32); [|lia].
        destruct (Z.ltb_spec (k - (n + b - 32 - 32)) 32); [lia|]. rewrite andb_false_r. cbn [andb]. apply orb_false_r.
      * replace ((32 * q + (b + n - 1 - k)) / 32) with (q + 1) by lia. fold w2.
        replace (31 - (32 * q + (b + n - 1 - k)) mod 32) with (k - (n + b - 32 - 32)) by lia.
        destruct (Z.leb_spec 0 (k - (n + b - 32))); [lia|]. cbn [andb orb].
        destruct (Z.leb_spec 0 (k - (n + b - 32 - 32))); [|lia].
        destruct (Z.ltb_spec (k - (n + b - 32 - 32)) 32); [reflexivity|lia].
    + rewrite andb_false_r. cbn [andb orb].
      destruct (Z_lt_ge_dec k 32) as [K|K].
      * rewrite ishift_testbit by (try assumption; lia).
        destruct (Z.ltb_spec (k - (n + b - 32 - 32)) 32); [lia|]. rewrite andb_false_r. reflexivity.
      * (* a right shift of a 32-bit word has no high bits *)
        unfold fortran_ishift. destruct (Z.gtb_spec (n + b - 32 - 32) 0); [lia|].
        destruct (Z.ltb_spec (n + b - 32 - 32) 0); [|lia].
        rewrite Z.abs_neq by lia. unfold i32 in H2. destruct (Z.ltb_spec w2 0).
        -- rewrite Z.shiftr_spec, Z.land_spec by lia. change 4294967295 with (2 ^ 32 - 1).
           rewrite ones_testbit by lia. destruct (Z.ltb_spec (k + - (n + b - 32 - 32)) 32); [lia|apply andb_false_r].
        -- rewrite Z.shiftr_spec by lia. destruct (Z.eq_dec w2 0) as [->|]; [apply Z.bits_0|].
           apply Z.bits_above_log2; [lia|]. assert (Z.log2 w2 < 31) by (apply Z.log2_lt_pow2; lia). lia.
  - f_equal. apply Z.bits_inj'. intros k Hk.
    rewrite field_testbit by lia. fold x. cbn zeta.
    rewrite Z.land_spec, ones_testbit by lia.
    destruct (Z.ltb_spec k n) as [Hkn|Hkn]; [|apply andb_false_r].
    rewrite andb_true_r. cbn [andb]. rewrite ishift_testbit by (try assumption; lia).
    rewrite Hj by lia.
    replace ((32 * q + (b + n - 1 - k)) / 32) with q by lia. fold w1.
    replace (31 - (32 * q + (b + n - 1 - k)) mod 32) with (k - (n + b - 32)) by lia.
    destruct (Z.leb_spec 0 (k - (n + b - 32))); [|lia].
    destruct (Z.ltb_spec (k - (n + b - 32)) 32); [reflexivity|lia].
Qed.

Lemma diff_advance_spec m i : 1 <= dm_bits m <= 32 -> 0 <= i ->
  diff_advance m (dm_bits m * i / 32) ((dm_bits m * i) mod 32 + 1)
  = (dm_bits m * (i + 1) / 32, (dm_bits m * (i + 1)) mod 32 + 1).
Proof.
  intros Hb Hi. unfold diff_advance. replace (dm_bits m * (i + 1)) with (dm_bits m * i + dm_bits m) by lia.
  generalize (dm_bits m * i). intros x.
  destruct (Z.gtb_spec (x mod 32 + 1 + dm_bits m) 32); f_equal; lia.
Qed.

(** the values of a row, given its codes *)
Fixpoint vrow (m : dmeta) (codes : list Z) (s : dvals) : dvals * list (option Q) :=
  match codes with
  | [] => (s, [])
  | c :: r => let '(s', v) := diff_value m s c in
              let '(s2, vs) := vrow m r s' in (s2, v :: vs)
  end.
Fixpoint vrows (m : dmeta) (rows : list (list Z)) (s : dvals) : list (list (option Q)) :=
  match rows with
  | [] => []
  | r :: rest => let '(s2, vs) := vrow m r (mk_dv (dv_first s) false (dv_psav s) (dv_plin s)) in
                 vs :: vrows m rest s2
  end.

Definition krange (a : Z) (n : nat) : list Z := map (fun i => a + Z.of_nat i) (seq 0 n).
Lemma krange_S a n : krange a (S n) = a :: krange (a + 1) n.
Proof.
  unfold krange. cbn [seq map]. f_equal; [lia|]. rewrite <- seq_shift, map_map. apply map_ext. intros; lia.
Qed.

Lemma diff_row_spec m ws : Forall i32 ws -> 1 <= dm_bits m <= 32 -> forall kx i s, 0 <= i ->
  dm_bits m * (i + Z.of_nat kx) <= 32 * Zlen ws ->
  diff_row m ws kx (dm_bits m * i / 32) ((dm_bits m * i) mod 32 + 1) s =
  let '(s2, vs) := vrow m (map (field (dm_bits m) ws) (krange i kx)) s in
  Ok (dm_bits m * (i + Z.of_nat kx) / 32, (dm_bits m * (i + Z.of_nat kx)) mod 32 + 1, s2, vs).
Proof.
  intros HW Hb. induction kx as [|kx IH]; intros i s Hi HL.
  - cbn [diff_row krange seq map vrow]. rewrite Z.add_0_r. reflexivity.
  - cbn [diff_row]. rewrite diff_code_spec by (try assumption; nia). cbn [bind].
    rewrite diff_advance_spec by assumption. rewrite krange_S. cbn [map vrow].
    destruct (diff_value m s (field (dm_bits m) ws i)) as [s' v].
    rewrite IH by (try nia). destruct (vrow m _ s') as [s2 vs]. cbn [bind].
    replace (i + 1 + Z.of_nat kx) with (i + Z.of_nat (S kx)) by lia. reflexivity.
Qed.

Lemma diff_rows_spec m ws kx : Forall i32 ws -> 1 <= dm_bits m <= 32 -> forall ky i s, 0 <= i ->
  dm_bits m * (i + Z.of_nat ky * Z.of_nat kx) <= 32 * Zlen ws ->
  diff_rows m ws ky kx (dm_bits m * i / 32) ((dm_bits m * i) mod 32 + 1) s =
  Ok (vrows m (map (fun j => map (field (dm_bits m) ws) (krange (i + Z.of_nat j * Z.of_nat kx) kx)) (seq 0 ky)) s).
Proof.
  intros HW Hb. induction ky as [|ky IH]; intros i s Hi HL; [reflexivity|].
  cbn [diff_rows seq map vrows]. rewrite diff_row_spec by (try assumption; nia).
  replace (i + Z.of_nat 0 * Z.of_nat kx) with i by lia.
  destruct (vrow m _ _) as [s2 vs]. cbn [bind].
  rewrite IH by nia. cbn [bind]. do 2 f_equal. rewrite <- seq_shift, map_map.
  f_equal. apply map_ext. intros j. do 2 f_equal. lia.
Qed.

(** meaning of the values *)
Definition is_missing (m : dmeta) (c : Z) : Prop := dm_flag m = true /\ c = 2 ^ dm_bits m - 1.
Definition delta (m : dmeta) (c : Z) : Q := (dm_diffmin m + inject_Z c * dm_scale m)%Q.

(** predecessor of a cell: last present cell before it in the row, else the first present cell of
    the nearest earlier row with one *)
Definition pred_value (rows : list (list (option Q))) (row_before : list (option Q)) : option Q :=
  match last_present row_before with
  | Some v => Some v
  | None => last_row_start rows
  end.
Definition cell_ok (m : dmeta) (rows : list (list (option Q))) (before : list (option Q)) (c : Z) (v : option Q) : Prop :=
  (is_missing m c /\ v = None) \/
  (~ is_missing m c /\ match pred_value rows before with
                       | None => v = Some (dm_ref m)
                       | Some p => v = Some (p + delta m c)%Q
                       end).

Lemma first_present_app a b : first_present (a ++ b) =
  match first_present a with Some v => Some v | None => first_present b end.
Proof. induction a as [|[v|] a IH]; cbn; auto. Qed.
Lemma last_present_snoc a v : last_present (a ++ [v]) =
  match v with Some x => Some x | None => last_present a end.
Proof. unfold last_present. rewrite rev_app_distr. cbn. destruct v; reflexivity. Qed.

(** state invariant: [rows] done before, [before] done in the current row *)
Definition dinv (s : dvals) (rows : list (list (option Q))) (before : list (option Q)) : Prop :=
  (dv_first s = true -> last_row_start rows = None /\ last_present before = None) /\
  (dv_first s = false ->
     (dv_line s = true -> last_present before = Some (dv_psav s) /\ first_present before = Some (dv_plin s)) /\
     (dv_line s = false -> last_present before = None /\ first_present before = None /\ last_row_start rows = Some (dv_plin s))).

Lemma first_last_none l : first_present l = None <-> last_present l = None.
Proof.
  unfold last_present. induction l as [|[v|] l IH]; cbn.
  - tauto.
  - split; [discriminate|]. rewrite first_present_app. cbn. destruct (first_present (rev l)); discriminate.
  - rewrite first_present_app. cbn. destruct (first_present (rev l)); [|exact IH].
    split; intros H; [apply IH in H; discriminate|discriminate].
Qed.

Lemma diff_value_spec m s rows before c s' v : dinv s rows before -> diff_value m s c = (s', v) ->
  cell_ok m rows before c v /\ dinv s' rows (before ++ [v]).
Proof.
  intros [I1 I2] H. unfold diff_value in H.
  destruct (dm_flag m && (c =? 2 ^ dm_bits m - 1)) eqn:E.
  - injection H as <- <-. apply andb_true_iff in E as [E1 E2]. apply Z.eqb_eq in E2.
    split; [left; split; [split; assumption|reflexivity]|].
    unfold dinv. rewrite last_present_snoc, first_present_app. cbn [first_present].
    split.
    + exact I1.
    + intros Hf. destruct (I2 Hf) as [J1 J2]. split.
      * intros Hl. destruct (J1 Hl) as [K1 K2]. split; [exact K1|]. rewrite K2. reflexivity.
      * intros Hl. destruct (J2 Hl) as (K1 & K2 & K3). rewrite K2. auto.
  - assert (NM : ~ is_missing m c).
    { intros [M1 M2]. rewrite M1, M2, Z.eqb_refl in E. discriminate. }
    destruct (dv_first s) eqn:F.
    + injection H as <- <-. destruct (I1 eq_refl) as [K1 K2]. split.
      * right. split; [exact NM|]. unfold pred_value. rewrite K2, K1. reflexivity.
      * unfold dinv. cbn [dv_first dv_line dv_psav dv_plin]. split; [discriminate|]. intros _.
        split; [|discriminate]. intros _. rewrite last_present_snoc, first_present_app.
        apply first_last_none in K2. rewrite K2. split; reflexivity.
    + destruct (I2 eq_refl) as [J1 J2]. destruct (dv_line s) eqn:LN; cbn [negb] in H.
      * injection H as <- <-. destruct (J1 eq_refl) as [K1 K2]. split.
        -- right. split; [exact NM|]. unfold pred_value. rewrite K1. reflexivity.
        -- unfold dinv. cbn [dv_first dv_line dv_psav dv_plin]. split; [discriminate|]. intros _.
           split; [|discriminate]. intros _. rewrite last_present_snoc, first_present_app, K2. split; reflexivity.
      * injection H as <- <-. destruct (J2 eq_refl) as (K1 & K2 & K3). split.
        -- right. split; [exact NM|]. unfold pred_value. rewrite K1, K3. reflexivity.
        -- unfold dinv. cbn [dv_first dv_line dv_psav dv_plin]. split; [discriminate|]. intros _.
           split; [|discriminate]. intros _. rewrite last_present_snoc, first_present_app, K2. split; reflexivity.
Qed.

Lemma vrow_spec m rows : forall codes s before s2 vs, dinv s rows before -> vrow m codes s = (s2, vs) ->
  length vs = length codes /\ dinv s2 rows (before ++ vs) /\
  forall i c, nth_error codes i = Some c -> exists v, nth_error vs i = Some v /\ cell_ok m rows (before ++ firstn i vs) c v.
Proof.
  induction codes as [|c codes IH]; intros s before s2 vs HI H; cbn [vrow] in H.
  - injection H as <- <-. rewrite app_nil_r. split; [reflexivity|]. split; [exact HI|]. intros [|i] c; discriminate.
  - destruct (diff_value m s c) as [s' v] eqn:E. destruct (vrow m codes s') as [s3 vs'] eqn:E2.
    injection H as <- <-. destruct (diff_value_spec _ _ _ _ _ _ _ HI E) as [HC HI'].
    destruct (IH _ _ _ _ HI' E2) as (HL & HD & HN). rewrite <- app_assoc in HD. cbn [app] in HD.
    split; [cbn; congruence|]. split; [exact HD|].
    intros [|i] c' Hc; cbn [nth_error] in *.
    + injection Hc as <-. exists v. split; [reflexivity|]. cbn [firstn]. rewrite app_nil_r. exact HC.
    + destruct (HN i c' Hc) as (v' & Hv & HC'). exists v'. split; [exact Hv|].
      rewrite <- app_assoc in HC'. exact HC'.
Qed.

Lemma vrows_spec m : forall rows_c s done, dinv s done [] \/ (exists last before, done = before ++ [last] /\ dinv s before last) ->
  length (vrows m rows_c s) = length rows_c /\
  forall j codes, nth_error rows_c j = Some codes ->
    exists vs, nth_error (vrows m rows_c s) j = Some vs /\ length vs = length codes /\
      forall i c, nth_error codes i = Some c ->
        exists v, nth_error vs i = Some v /\ cell_ok m (done ++ firstn j (vrows m rows_c s)) (firstn i vs) c v.
Proof.
  induction rows_c as [|codes rows_c IH]; intros s done HD.
  - split; [reflexivity|]. intros [|j] ?; discriminate.
  - cbn [vrows]. set (s0 := mk_dv (dv_first s) false (dv_psav s) (dv_plin s)).
    assert (HI : dinv s0 done []).
    { unfold s0, dinv. cbn [dv_first dv_line dv_psav dv_plin last_present rev first_present].
      destruct HD as [[I1 I2]|(last & before & -> & I1 & I2)].
      - split; [intros F; destruct (I1 F); auto|]. intros F. split; [discriminate|]. intros _.
        destruct (I2 F) as [J1 J2]. destruct (dv_line s).
        + destruct (J1 eq_refl) as [K _]. discriminate K.
        + destruct (J2 eq_refl) as (_ & _ & K). auto.
      - unfold last_row_start. rewrite map_app. cbn [map]. rewrite last_present_snoc.
        split.
        + intros F. destruct (I1 F) as [K1 K2]. apply first_last_none in K2. rewrite K2. auto.
        + intros F. split; [discriminate|]. intros _. destruct (I2 F) as [J1 J2]. destruct (dv_line s).
          * destruct (J1 eq_refl) as [_ K]. rewrite K. auto.
          * destruct (J2 eq_refl) as (_ & K2 & K3). rewrite K2. auto. }
    destruct (vrow m codes s0) as [s2 vs] eqn:E.
    destruct (vrow_spec m done codes s0 [] s2 vs HI E) as (HL & HI2 & HN). cbn [app] in HI2, HN.
    destruct (IH s2 (done ++ [vs])) as [HLr HNr]; [right; exists vs, done; auto|].
    split; [cbn; congruence|].
    intros [|j] codes' Hc; cbn [nth_error] in *.
    + injection Hc as <-. exists vs. split; [reflexivity|]. split; [exact HL|].
      cbn [firstn]. rewrite app_nil_r. exact HN.
    + destruct (HNr j codes' Hc) as (vs' & Hvs & HL' & HN'). exists vs'. split; [exact Hvs|]. split; [exact HL'|].
      intros i c Hi. destruct (HN' i c Hi) as (v & Hv & HC). exists v. split; [exact Hv|].
      cbn [firstn]. rewrite <- app_assoc in HC. exact HC.
Qed.

Lemma combine_fst {A B} (l : list A) (l' : list B) : length l' = length l -> map fst (combine l l') = l.
Proof.
  revert l'; induction l as [|a l IH]; intros [|b l'] H; cbn in *; try discriminate; [reflexivity|].
  f_equal. apply IH. lia.
Qed.
Lemma combine_nth_error {A B} (l : list A) (l' : list B) i a b :
  nth_error l i = Some a -> nth_error l' i = Some b -> nth_error (combine l l') i = Some (a, b).
Proof.
  revert l' i; induction l as [|x l IH]; intros [|y l'] [|i] H1 H2; cbn in *; try discriminate.
  - congruence.
  - apply IH; assumption.
Qed.

Lemma unpack_real_inverse record parms values :
  Forall i32 record -> okparms parms -> parms <> [] -> length values = length parms ->
  Forall (fun pv => 0 <= snd pv < 2 ^ pp_bits (fst pv)) (combine parms values) ->
  Zlen record = - ((- total (map pp_bits parms)) / 32) ->
  lsb_number record = fields_number (combine (map pp_bits parms) values) ->
  exists out, unpack_real record parms (Zlen record) = Ok out /\
    length out = length parms /\
    forall i p v, nth_error parms i = Some p -> nth_error values i = Some v ->
      nth_error out i = Some (field_value (pp_bits p) (pp_offset p) (pp_scale p) v).
Proof.
  intros HW HP Hne HL HF HR HN.
  destruct (unpack_real_spec record parms 1 HW HP Hne ltac:(lia)) as (out & HO & HLen & HS).
  exists out. split; [exact HO|]. split; [lia|].
  intros i p v Hp Hv. specialize (HS O i p ltac:(lia) Hp). cbn [Nat.mul Nat.add] in HS. rewrite HS.
  unfold spec_parm. do 2 f_equal. rewrite Z.mul_0_l. cbn [Z.to_nat skipn].
  rewrite firstn_all2 by (unfold Zlen in HR; lia). rewrite HN.
  assert (HC : Forall (fun bv => 0 <= fst bv /\ 0 <= snd bv < 2 ^ fst bv) (combine (map pp_bits parms) values)).
  { clear - HP HF. revert values HF. induction HP as [|q l Hq HP IH]; intros [|x xs] HF; cbn [map combine] in *; constructor.
    - inversion HF; subst. cbn [fst snd] in *. split; [lia|assumption].
    - apply IH. inversion HF; assumption. }
  rewrite <- (fields_number_field _ i (pp_bits p) v HC).
  - f_equal. f_equal. rewrite <- !firstn_map.
    rewrite combine_fst by (rewrite map_length; exact HL). reflexivity.
  - apply combine_nth_error; [|exact Hv]. apply map_nth_error. exact Hp.
Qed.

Lemma unpack_diff_spec m buf ky kx :
  Forall i32 buf -> 1 <= dm_bits m <= 32 -> 2 <= Zlen buf ->
  dm_bits m * (Z.of_nat ky * Z.of_nat kx) <= 32 * Zlen buf ->
  exists g, unpack_diff m buf ky kx = Ok (Some g) /\ length g = ky /\
  forall j, (j < ky)%nat -> exists row, nth_error g j = Some row /\ length row = kx /\
  forall i, (i < kx)%nat ->
    let cell := Z.of_nat j * Z.of_nat kx + Z.of_nat i in
    let bits := concat_bits 32 (map (fun w => w mod 2 ^ 32) buf) in
    let code := (bits / 2 ^ (32 * Zlen buf - dm_bits m * (cell + 1))) mod 2 ^ dm_bits m in
    exists v, nth_error row i = Some v /\
      if dm_flag m && (code =? 2 ^ dm_bits m - 1) then v = None
      else match pred_value (firstn j g) (firstn i row) with
           | None => v = Some (dm_ref m)
           | Some p => v = Some (p + (dm_diffmin m + inject_Z code * dm_scale m))%Q
           end.
Proof.
  intros HW Hb HL HB. unfold unpack_diff. destruct (Z.gtb_spec (Zlen buf) 1); [|lia].
  pose proof (diff_rows_spec m buf kx HW Hb ky 0 (mk_dv true false 0 0) ltac:(lia) ltac:(lia)) as HD.
  rewrite Z.mul_0_r in HD. change (0 / 32) with 0 in HD. change (0 mod 32 + 1) with 1 in HD.
  rewrite HD. cbn [bind].
  set (rows_c := map _ (seq 0 ky)). set (s0 := mk_dv true false 0 0).
  destruct (vrows_spec m rows_c s0 []) as [HLr HN].
  { left. unfold dinv, s0. cbn. split; [auto|discriminate]. }
  exists (vrows m rows_c s0). split; [reflexivity|].
  split; [rewrite HLr; unfold rows_c; rewrite map_length, seq_length; reflexivity|].
  intros j Hj.
  destruct (HN j (map (field (dm_bits m) buf) (krange (0 + Z.of_nat j * Z.of_nat kx) kx))) as (row & Hrow & HLrow & HC).
  { unfold rows_c. rewrite (map_nth_error _ _ _ (d := j)); [reflexivity|].
    rewrite (nth_error_nth' _ O) by (rewrite seq_length; lia). rewrite seq_nth by lia. reflexivity. }
  exists row. split; [exact Hrow|].
  split; [rewrite HLrow; unfold krange; rewrite !map_length, seq_length; reflexivity|].
  intros i Hi. cbn zeta.
  destruct (HC i (field (dm_bits m) buf (Z.of_nat j * Z.of_nat kx + Z.of_nat i))) as (v & Hv & Hcell).
  { rewrite (map_nth_error _ _ _ (d := Z.of_nat j * Z.of_nat kx + Z.of_nat i)); [reflexivity|].
    unfold krange. rewrite (map_nth_error _ _ _ (d := i)); [f_equal; lia|].
    rewrite (nth_error_nth' _ O) by (rewrite seq_length; lia). rewrite seq_nth by lia. reflexivity. }
  exists v. split; [exact Hv|]. cbn [app] in Hcell.
  assert (EF : field (dm_bits m) buf (Z.of_nat j * Z.of_nat kx + Z.of_nat i) =
    (concat_bits 32 (map (fun w => w mod 2 ^ 32) buf) / 2 ^ (32 * Zlen buf - dm_bits m * (Z.of_nat j * Z.of_nat kx + Z.of_nat i + 1))) mod 2 ^ dm_bits m).
  { unfold field. rewrite Z.shiftr_div_pow2; [reflexivity|].
    assert (Hc : Z.of_nat j * Z.of_nat kx + Z.of_nat i + 1 <= Z.of_nat ky * Z.of_nat kx) by nia.
    apply Z.mul_le_mono_nonneg_l with (p := dm_bits m) in Hc; lia. }
  rewrite <- EF. set (c := field _ _ _) in *. unfold cell_ok, is_missing, delta in Hcell.
  destruct (dm_flag m); cbn [andb].
  - destruct (Z.eqb_spec c (2 ^ dm_bits m - 1)).
    + destruct Hcell as [[_ Hv']|[NM _]]; [exact Hv'|exfalso; apply NM; auto].
    + destruct Hcell as [[[_ E] _]|[_ HP]]; [contradiction|exact HP].
  - destruct Hcell as [[[E _] _]|[_ HP]]; [discriminate|exact HP].
Qed.
