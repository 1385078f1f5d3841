(** Lemmas about the integer part of Grib.v: bit packing. *)
From Coq Require Import Lia ZifyBool ZifyNat.
From Verif Require Import Base BaseFacts SpecGrib Grib.
Open Scope Z_scope.
Ltac Zify.zify_post_hook ::= Z.div_mod_to_equations.

Lemma concat_bits_app b l x : concat_bits b (l ++ [x]) = concat_bits b l * 2 ^ b + x.
Proof. unfold concat_bits. rewrite fold_left_app. reflexivity. Qed.

Lemma firstn_S_nth {A} (l : list A) i d : (i < length l)%nat ->
  firstn (S i) l = firstn i l ++ [nth i l d].
Proof.
  revert i; induction l as [|x l IH]; intros i H; cbn [length] in H; [lia|].
  destruct i as [|i]; [reflexivity|]. change (x :: firstn (S i) l = x :: (firstn i l ++ [nth i l d])). rewrite IH by lia. reflexivity.
Qed.

(** prefix of the digits *)
Definition pre (b : Z) (l : list Z) (i : Z) : Z := concat_bits b (firstn (Z.to_nat i) l).

Lemma pre_0 b l : pre b l 0 = 0.
Proof. reflexivity. Qed.
Lemma pre_succ b l i : 0 <= i < Zlen l -> pre b l (i + 1) = pre b l i * 2 ^ b + nth (Z.to_nat i) l 0.
Proof.
  intros H. unfold pre. replace (Z.to_nat (i + 1)) with (S (Z.to_nat i)) by lia.
  rewrite (firstn_S_nth l _ 0) by (unfold Zlen in H; lia). apply concat_bits_app.
Qed.
Lemma pre_all b l : pre b l (Zlen l) = concat_bits b l.
Proof. unfold pre. rewrite Zlen_length, firstn_all. reflexivity. Qed.

Lemma nth_fits b l i : 0 <= b -> Forall (fits b) l -> fits b (nth i l 0).
Proof.
  intros Hb H. destruct (Nat.lt_ge_cases i (length l)) as [Hi|Hi].
  - rewrite Forall_forall in H. apply H, nth_In, Hi.
  - rewrite nth_overflow by exact Hi. unfold fits. split; [lia|apply Z.pow_pos_nonneg; lia].
Qed.

Lemma Z_ind_nonneg (P : Z -> Prop) n : P 0 -> (forall i, 0 <= i < n -> P i -> P (i + 1)) ->
  forall i, 0 <= i <= n -> P i.
Proof.
  intros H0 HS i Hi. replace i with (Z.of_nat (Z.to_nat i)) by lia.
  assert (Hle : Z.of_nat (Z.to_nat i) <= n) by lia.
  induction (Z.to_nat i) as [|m IH]; [exact H0|].
  rewrite Nat2Z.inj_succ. unfold Z.succ. apply HS; [lia|]. apply IH. lia.
Qed.

Lemma pre_range b l i : 0 <= b -> Forall (fits b) l -> 0 <= i <= Zlen l -> 0 <= pre b l i < 2 ^ (b * i).
Proof.
  intros Hb HF Hi. revert i Hi. apply (Z_ind_nonneg _ (Zlen l)).
  - rewrite pre_0, Z.mul_0_r. cbn. lia.
  - intros i Hi IH. rewrite pre_succ by exact Hi.
    pose proof (nth_fits b l (Z.to_nat i) Hb HF) as Hn. unfold fits in Hn.
    rewrite Z.mul_add_distr_l, Z.mul_1_r, Z.pow_add_r by (try apply Z.mul_nonneg_nonneg; lia).
    set (v := nth (Z.to_nat i) l 0) in *. clearbody v.
    set (A := 2 ^ (b * i)) in *. set (B := 2 ^ b) in *. clearbody A B.
    set (p := pre b l i) in *. clearbody p. nia.
Qed.

(** scaled prefix, [sh] may be negative *)
Lemma shiftl_pos a n : 0 <= n -> Z.shiftl a n = a * 2 ^ n.
Proof. apply Z.shiftl_mul_pow2. Qed.
Lemma shiftl_neg a n : n <= 0 -> Z.shiftl a n = a / 2 ^ (- n).
Proof.
  intros H. rewrite <- Z.shiftr_div_pow2 by lia. rewrite <- Z.shiftl_opp_r, Z.opp_involutive. reflexivity.
Qed.

Lemma wrap32_range v : - two31 <= wrap32 v < two31.
Proof.
  unfold wrap32. pose proof (to_signed32_range (v mod two32)) as H.
  unfold in_i32 in H. assert (0 <= v mod two32 < two32) by (apply Z.mod_pos_bound; unfold two32; lia).
  specialize (H H0). lia.
Qed.
Lemma wrap32_mod v : wrap32 v mod two32 = v mod two32.
Proof. unfold wrap32. apply to_signed32_inj. apply Z.mod_pos_bound; unfold two32; lia. Qed.
Lemma wrap32_id v : 0 <= v < two31 -> wrap32 v = v.
Proof.
  intros H. unfold wrap32. apply to_signed32_mod. unfold in_i32. lia.
Qed.

Section Pack.
Variable n : Z.
Hypothesis Hn : 1 <= n <= 31.

Lemma word_shift_spec i : 0 <= i ->
  word_shift n i = 32 * ((n * (i + 1) - 1) / 32 + 1) - n * (i + 1).
Proof.
  intros Hi. unfold word_shift. replace ((i + 1) * n) with (n * (i + 1)) by lia.
  generalize (n * (i + 1)). intros e. lia.
Qed.

Lemma word_shift_range i : 0 <= word_shift n i < 32.
Proof. unfold word_shift. lia. Qed.

Definition clen (k : Z) : Z := (n * k + 31) / 32.

Lemma packed_length_clen k : packed_length n k = clen k.
Proof.
  unfold packed_length, clen. generalize (n * k). intros e.
  destruct (Z.eqb_spec (e / 32 * 32) e); lia.
Qed.

Lemma zrange_succ k : 0 <= k -> zrange (k + 1) = zrange k ++ [k].
Proof.
  intros H. unfold zrange. replace (Z.to_nat (k + 1)) with (S (Z.to_nat k)) by lia.
  rewrite seq_S, map_app. cbn [map]. rewrite Nat.add_0_l, Z2Nat.id by lia. reflexivity.
Qed.

Lemma starts_spec k : 0 <= k ->
  word_start_idxs n k = map (fun w => (32 * w) / n) (zrange (clen k)).
Proof.
  intros Hk. revert k Hk. apply (natlike_ind (fun k => word_start_idxs n k = map (fun w => (32 * w) / n) (zrange (clen k)))).
  - unfold clen. rewrite Z.mul_0_r. reflexivity.
  - intros k Hk IH. unfold Z.succ. unfold word_start_idxs in *. rewrite zrange_succ, filter_app, IH by lia.
    cbn [filter]. rewrite word_shift_spec by lia.
    assert (HC : clen k = (n * k + 31) / 32) by reflexivity.
    assert (HC1 : clen (k + 1) = (n * k + n + 31) / 32)
      by (unfold clen; f_equal; lia).
    replace (n * (k + 1)) with (n * k + n) by lia.
    set (x := n * k) in *. assert (Hx : 0 <= x) by (unfold x; lia).
    destruct (Z.geb_spec (32 * ((x + n - 1) / 32 + 1) - (x + n)) (32 - n)) as [Hs|Hs].
    + assert (E1 : clen (k + 1) = clen k + 1) by lia.
      rewrite E1, zrange_succ, map_app by lia. cbn [map]. f_equal. f_equal.
      apply Z.div_unique_pos with (r := 32 * clen k - x); [lia|]. unfold x. lia.
    + assert (E1 : clen (k + 1) = clen k) by lia. rewrite E1. apply app_nil_r.
Qed.

Definition st (w : Z) : Z := (32 * w) / n.

Lemma st_spec w : n * st w <= 32 * w < n * st w + n.
Proof.
  unfold st. pose proof (Z_div_mod_eq_full (32 * w) n). pose proof (Z.mod_pos_bound (32 * w) n). lia.
Qed.

Lemma st_nonneg w : 0 <= w -> 0 <= st w.
Proof. intros H. unfold st. apply Z.div_pos; lia. Qed.

Definition rmax (k w : Z) : Z := if w =? clen k - 1 then k - 1 else st (w + 1).

Lemma row_maxes_seq k : forall m a, Z.of_nat (a + m) = clen k ->
  combine (map st (map Z.of_nat (seq a m))) (row_maxes (map st (map Z.of_nat (seq a m))) k) =
  map (fun w => (st w, rmax k w)) (map Z.of_nat (seq a m)).
Proof.
  induction m as [|m IH]; intros a H; [reflexivity|].
  cbn [seq map]. destruct m as [|m].
  - cbn [seq map row_maxes combine]. unfold rmax.
    destruct (Z.eqb_spec (Z.of_nat a) (clen k - 1)); [reflexivity|lia].
  - specialize (IH (S a)). cbn [seq map] in IH |- *.
    cbn [row_maxes]. cbn [combine]. f_equal.
    + unfold rmax. destruct (Z.eqb_spec (Z.of_nat a) (clen k - 1)); [lia|].
      do 2 f_equal. lia.
    + apply IH. lia.
Qed.

Variable vals : list Z.
Hypothesis HV : Forall (fits n) vals.
Let k := Zlen vals.

(** scaled prefix sums for output word w *)
Definition S_ (w i : Z) : Z := Z.shiftl (pre n vals i) (32 * (w + 1) - n * i).

Lemma v_fits i : fits n (nth i vals 0).
Proof. apply nth_fits; [lia|exact HV]. Qed.

(** exact contribution of an element when there is no wrap-around *)
Definition term0 (v sh : Z) : Z := Z.shiftl v sh.

Lemma S_step w i : 0 <= i < k -> n * i <= 32 * (w + 1) ->
  S_ w (i + 1) = S_ w i + Z.shiftl (nth (Z.to_nat i) vals 0) (32 * (w + 1) - n * (i + 1)).
Proof.
  intros Hi Hw. unfold S_. rewrite pre_succ by exact Hi.
  set (p := pre n vals i). set (v := nth (Z.to_nat i) vals 0).
  replace (32 * (w + 1) - n * i) with (32 * (w + 1) - n * (i + 1) + n) by lia.
  set (sh := 32 * (w + 1) - n * (i + 1)).
  assert (Hsh : 0 <= sh + n) by (unfold sh; lia).
  destruct (Z_le_gt_dec 0 sh) as [H0|H0].
  - rewrite !shiftl_pos by lia. rewrite Z.pow_add_r by lia. ring.
  - rewrite (shiftl_neg (p * 2 ^ n + v)), (shiftl_neg v), (shiftl_pos p) by lia.
    replace (2 ^ n) with (2 ^ (sh + n) * 2 ^ (- sh)) by (rewrite <- Z.pow_add_r by lia; f_equal; lia).
    rewrite Z.mul_assoc, Z.div_add_l; [reflexivity|]. apply Z.pow_nonzero; lia.
Qed.

Lemma S_stable w i : 0 <= i < k -> 32 * (w + 1) <= n * i -> S_ w (i + 1) = S_ w i.
Proof.
  intros Hi Hw. unfold S_. rewrite pre_succ by exact Hi.
  pose proof (v_fits (Z.to_nat i)) as Hv. unfold fits in Hv.
  set (p := pre n vals i). set (v := nth (Z.to_nat i) vals 0) in *.
  set (m := n * i - 32 * (w + 1)). assert (Hm : 0 <= m) by (unfold m; lia).
  replace (32 * (w + 1) - n * i) with (- m) by (unfold m; lia).
  replace (32 * (w + 1) - n * (i + 1)) with (- (n + m)) by (unfold m; lia).
  rewrite !shiftl_neg by lia. rewrite !Z.opp_involutive.
  rewrite Z.pow_add_r by lia. rewrite <- Z.div_div by (try apply Z.pow_nonzero; try apply Z.pow_pos_nonneg; lia).
  rewrite Z.div_add_l by (apply Z.pow_nonzero; lia). rewrite (Z.div_small v) by exact Hv.
  rewrite Z.add_0_r. reflexivity.
Qed.

Lemma S_stable_all w i : 0 <= i <= k -> 32 * (w + 1) <= n * i -> S_ w k = S_ w i.
Proof.
  intros Hi Hw.
  assert (G : forall d, 0 <= d <= k - i -> S_ w (i + d) = S_ w i).
  { apply (Z_ind_nonneg _ (k - i)).
    - f_equal; lia.
    - intros d Hd IH. rewrite <- IH. replace (i + (d + 1)) with (i + d + 1) by lia.
      apply S_stable; nia. }
  specialize (G (k - i)). rewrite <- G by lia. f_equal. lia.
Qed.

Lemma S_start w : 0 <= w -> S_ w (st w) mod two32 = 0.
Proof.
  intros Hw. unfold S_. pose proof (st_spec w).
  rewrite shiftl_pos by lia.
  replace (32 * (w + 1) - n * st w) with (32 + (32 * w - n * st w)) by lia.
  rewrite Z.pow_add_r by lia. change (2 ^ 32) with two32.
  rewrite Z.mul_assoc, (Z.mul_comm _ two32), <- Z.mul_assoc, Z.mul_comm. apply Z_mod_mult.
Qed.

(** a term after the first one is exact *)
Lemma row_term_exact i sh : 0 <= i -> - n <= sh -> sh + n <= 31 ->
  row_term vals (i, sh) = Z.shiftl (nth (Z.to_nat i) vals 0) sh.
Proof.
  intros Hi H1 H2. unfold row_term. destruct (Z.geb_spec i 0); [|lia].
  pose proof (v_fits (Z.to_nat i)) as Hv. unfold fits in Hv.
  set (v := nth (Z.to_nat i) vals 0) in *.
  destruct (Z.gtb_spec sh 0).
  - apply wrap32_id. rewrite shiftl_pos by lia. split; [apply Z.mul_nonneg_nonneg; [lia|apply Z.pow_nonneg; lia]|].
    apply Z.lt_le_trans with (2 ^ n * 2 ^ sh).
    + apply Z.mul_lt_mono_pos_r; [apply Z.pow_pos_nonneg; lia|lia].
    + rewrite <- Z.pow_add_r by lia. change two31 with (2 ^ 31). apply Z.pow_le_mono_r; lia.
  - rewrite Z.abs_neq by lia. rewrite shiftl_neg by lia. apply Z.shiftr_div_pow2. lia.
Qed.

Lemma row_entries_dead m N : Forall (fun e => row_term vals e = 0) (row_entries n N m (-1) 0).
Proof.
  induction N as [|N IH]; [constructor|]. cbn [row_entries]. constructor; [reflexivity|].
  rewrite Z.eqb_refl, orb_true_r. exact IH.
Qed.

Lemma fold_add_zero l a : Forall (fun x => x = 0) l -> fold_left Z.add l a = a.
Proof. intros H; revert a; induction H; intros a; cbn [fold_left]; [reflexivity|]. subst. rewrite IHForall. lia. Qed.

Lemma Forall_map_eq {A B} (f : A -> B) P l : Forall (fun x => P (f x)) l -> Forall P (map f l).
Proof. intros H. apply Forall_map. exact H. Qed.

(** sum of the terms from element i on *)
Lemma row_sum w m : m < k -> n * m <= 32 * (w + 1) ->
  forall N i a, 0 <= i <= m -> 32 * (w + 1) - n * i <= 31 ->
  fold_left Z.add (map (row_term vals) (row_entries n N m i (32 * (w + 1) - n * (i + 1)))) a
  = a + (S_ w (Z.min (m + 1) (i + Z.of_nat N)) - S_ w i).
Proof.
  intros Hm Hnm. induction N as [|N IH]; intros i a Hi Hs.
  - cbn [row_entries map fold_left]. replace (Z.min (m + 1) (i + Z.of_nat 0)) with i by lia. lia.
  - cbn [row_entries map fold_left].
    assert (Hni : n * i <= 32 * (w + 1)) by nia.
    rewrite row_term_exact by lia.
    destruct (Z.gtb_spec (i + 1) m) as [Hg|Hg]; cbn [orb].
    + rewrite fold_add_zero by (apply Forall_map_eq with (P := fun x => x = 0); apply row_entries_dead).
      replace (Z.min (m + 1) (i + Z.of_nat (S N))) with (i + 1) by lia.
      rewrite S_step by lia. lia.
    + destruct (Z.eqb_spec i (-1)); [lia|].
      replace (32 * (w + 1) - n * (i + 1) - n) with (32 * (w + 1) - n * (i + 1 + 1)) by lia.
      rewrite IH by lia.
      replace (i + 1 + Z.of_nat N) with (i + Z.of_nat (S N)) by lia.
      rewrite (S_step w i) by lia. lia.
Qed.

Lemma S_bound w i j : 0 <= i -> i <= j -> j <= k -> n * i <= 32 * (w + 1) ->
  S_ w i <= S_ w j < S_ w i + 2 ^ (32 * (w + 1) - n * i).
Proof.
  intros H0 Hij Hjk Hni.
  (* P j = P i * 2^(n(j-i)) + r, 0 <= r < 2^(n(j-i)) *)
  assert (G : forall d, 0 <= d <= k - i -> pre n vals i * 2 ^ (n * d) <= pre n vals (i + d) < (pre n vals i + 1) * 2 ^ (n * d)).
  { apply (Z_ind_nonneg _ (k - i)).
    - rewrite Z.mul_0_r, Z.add_0_r. cbn. lia.
    - intros d Hd IH. replace (i + (d + 1)) with (i + d + 1) by lia.
      rewrite pre_succ by (fold k; lia).
      pose proof (v_fits (Z.to_nat (i + d))) as Hv. unfold fits in Hv.
      rewrite Z.mul_add_distr_l, Z.mul_1_r, Z.pow_add_r by (try apply Z.mul_nonneg_nonneg; lia).
      set (v := nth (Z.to_nat (i + d)) vals 0) in *. set (A := 2 ^ (n * d)) in *. set (B := 2 ^ n) in *.
      set (p := pre n vals (i + d)) in *. set (q := pre n vals i) in *.
      assert (0 < A) by (apply Z.pow_pos_nonneg; lia). clearbody v A B p q. nia. }
  specialize (G (j - i)). replace (i + (j - i)) with j in G by lia. specialize (G ltac:(lia)).
  unfold S_. set (p := pre n vals i) in *. set (q := pre n vals j) in *.
  set (E := 32 * (w + 1) - n * i) in *. assert (HE : 0 <= E) by (unfold E; lia).
  replace (32 * (w + 1) - n * j) with (E - n * (j - i)) by (unfold E; lia).
  set (d := n * (j - i)) in *. assert (Hd : 0 <= d) by (unfold d; nia).
  rewrite (shiftl_pos p) by lia.
  clearbody d E p q.
  destruct (Z_le_gt_dec 0 (E - d)) as [Hc|Hc].
  - rewrite shiftl_pos by lia. replace (2 ^ E) with (2 ^ d * 2 ^ (E - d)) by (rewrite <- Z.pow_add_r by lia; f_equal; lia).
    assert (0 < 2 ^ (E - d)) by (apply Z.pow_pos_nonneg; lia).
    set (A := 2 ^ (E - d)) in *. set (B := 2 ^ d) in *. clearbody A B. nia.
  - rewrite shiftl_neg by lia.
    replace (2 ^ d) with (2 ^ E * 2 ^ (- (E - d))) in G by (rewrite <- Z.pow_add_r by lia; f_equal; lia).
    assert (0 < 2 ^ (- (E - d))) by (apply Z.pow_pos_nonneg; lia).
    set (A := 2 ^ (- (E - d))) in *. set (B := 2 ^ E) in *. clearbody A B.
    split; [apply Z.div_le_lower_bound; [lia|nia]|]. apply Z.div_lt_upper_bound; [lia|nia].
Qed.

(** value of output word w given enough input words *)
Lemma out_word w N : 0 <= w -> 32 * w < n * k ->
  (rmax k w - st w + 1 <= Z.of_nat N \/ (32 mod n = 0 /\ 32 <= n * Z.of_nat N)) ->
  (1 <= N)%nat ->
  let o := fold_left Z.add (map (row_term vals)
             (row_entries n N (rmax k w) (st w) (word_shift n (st w)))) 0 in
  o mod two32 = S_ w k mod two32 /\ - two31 <= o < two31.
Proof.
  intros Hw Hk HN HN1. cbn zeta.
  pose proof (st_spec w) as Hst. pose proof (st_nonneg w Hw) as Hst0.
  pose proof (st_spec (w + 1)) as Hst1.
  assert (Hstk : st w < k) by nia.
  (* rmax facts *)
  assert (HR : st w <= rmax k w < k /\ n * rmax k w <= 32 * (w + 1) /\
               (rmax k w + 1 = k \/ 32 * (w + 1) <= n * (rmax k w + 1))).
  { unfold rmax. destruct (Z.eqb_spec w (clen k - 1)) as [He|Hne].
    - split; [lia|]. assert (n * k <= 32 * (w + 1)) by (unfold clen in He; clear - He; lia).
      split; [lia|]. left; lia.
    - assert (Hlt : w + 1 < clen k).
      { assert (w < clen k) by (unfold clen; clear - Hk; lia). lia. }
      assert (32 * (w + 1) < n * k) by (unfold clen in Hlt; clear - Hlt; lia).
      split; [split; nia|]. split; [lia|]. right. nia. }
  destruct HR as ((HR1 & HR2) & HR3 & HR4).
  (* the shift of the first element *)
  assert (Hsh : word_shift n (st w) = 32 * (w + 1) - n * (st w + 1)).
  { rewrite word_shift_spec by lia. do 2 f_equal.
    assert (E : (n * (st w + 1) - 1) / 32 = w).
    { symmetry. apply Z.div_unique_pos with (r := n * (st w + 1) - 1 - 32 * w); lia. }
    rewrite E. reflexivity. }
  rewrite Hsh. destruct N as [|N]; [lia|].
  cbn [row_entries map fold_left].
  set (sh := 32 * (w + 1) - n * (st w + 1)) in *.
  assert (Hshr : 32 - n <= sh <= 31) by (unfold sh; lia).
  set (v := nth (Z.to_nat (st w)) vals 0).
  assert (HT : row_term vals (st w, sh) = wrap32 (Z.shiftl v sh)).
  { unfold row_term. destruct (Z.geb_spec (st w) 0); [|lia].
    destruct (Z.gtb_spec sh 0); [reflexivity|lia]. }
  rewrite HT.
  assert (HS1 : S_ w (st w + 1) = S_ w (st w) + Z.shiftl v sh).
  { apply S_step; lia. }
  (* remaining terms *)
  assert (HREST : exists j, st w + 1 <= j <= k /\ S_ w j = S_ w k /\
     fold_left Z.add (map (row_term vals)
       (if (st w + 1 >? rmax k w) || (st w =? -1)
        then row_entries n N (rmax k w) (-1) 0
        else row_entries n N (rmax k w) (st w + 1) (sh - n))) (0 + wrap32 (Z.shiftl v sh))
     = wrap32 (Z.shiftl v sh) + (S_ w j - S_ w (st w + 1))).
  { destruct (Z.gtb_spec (st w + 1) (rmax k w)) as [Hg|Hg]; cbn [orb].
    - exists (st w + 1). split; [lia|]. split.
      + replace (rmax k w + 1) with (st w + 1) in HR4 by lia.
        destruct HR4 as [E|E]; [rewrite E; reflexivity|]. symmetry. apply S_stable_all; lia.
      + rewrite fold_add_zero by (apply Forall_map_eq with (P := fun x => x = 0); apply row_entries_dead). lia.
    - destruct (Z.eqb_spec (st w) (-1)); [lia|].
      replace (sh - n) with (32 * (w + 1) - n * (st w + 1 + 1)) by (unfold sh; lia).
      rewrite row_sum by lia.
      exists (Z.min (rmax k w + 1) (st w + 1 + Z.of_nat N)). split; [lia|]. split; [|lia].
      destruct (Z_le_gt_dec (rmax k w + 1) (st w + 1 + Z.of_nat N)) as [Hle|Hgt].
      + rewrite Z.min_l by lia. destruct HR4 as [E|E]; [rewrite E; reflexivity|].
        symmetry. apply S_stable_all; lia.
      + rewrite Z.min_r by lia. destruct HN as [HN|[HN HN']]; [lia|].
        symmetry. apply S_stable_all; [lia|].
        assert (E32 : n * st w = 32 * w).
        { apply Z.mod_divide in HN; [|lia]. destruct HN as [q Hq].
          unfold st. rewrite Hq. replace (q * n * w) with (q * w * n) by ring.
          rewrite Z.div_mul by lia. ring. }
        lia. }
  destruct HREST as (j & Hj & HSj & HF). rewrite HF, HSj.
  pose proof (S_bound w (st w + 1) k ltac:(lia) ltac:(lia) ltac:(lia) ltac:(unfold sh in Hshr; lia)) as HB.
  fold sh in HB.
  split.
  - rewrite HS1. pose proof (S_start w Hw) as HS0.
    rewrite <- Zplus_mod_idemp_l, wrap32_mod, Zplus_mod_idemp_l.
    replace (Z.shiftl v sh + (S_ w k - (S_ w (st w) + Z.shiftl v sh))) with (S_ w k - S_ w (st w)) by lia.
    rewrite Zminus_mod, HS0, Z.sub_0_r, Z.mod_mod by (unfold two32; lia). reflexivity.
  - pose proof (wrap32_range (Z.shiftl v sh)) as HW.
    (* wrap32 (v*2^sh) is a multiple of 2^sh *)
    assert (HM : exists c, wrap32 (Z.shiftl v sh) = c * 2 ^ sh).
    { unfold wrap32, to_signed32. rewrite shiftl_pos by lia.
      assert (E : two32 = 2 ^ (32 - sh) * 2 ^ sh) by (rewrite <- Z.pow_add_r by lia; change two32 with (2 ^ 32); f_equal; lia).
      assert (Em : (v * 2 ^ sh) mod two32 = (v mod 2 ^ (32 - sh)) * 2 ^ sh)
        by (rewrite E; apply Zmult_mod_distr_r).
      rewrite Em. destruct (_ <? _).
      - eexists; reflexivity.
      - rewrite E. exists (v mod 2 ^ (32 - sh) - 2 ^ (32 - sh)). ring. }
    destruct HM as [c Hc].
    assert (E31 : two31 = 2 ^ (31 - sh) * 2 ^ sh) by (rewrite <- Z.pow_add_r by lia; change two31 with (2 ^ 31); f_equal; lia).
    assert (0 < 2 ^ sh) by (apply Z.pow_pos_nonneg; lia).
    rewrite Hc in *. rewrite E31 in *.
    set (A := 2 ^ sh) in *. set (B := 2 ^ (31 - sh)) in *. clearbody A B. clear - HW HB H. 
    assert (c < B) by nia. nia.
Qed.

Lemma diffs_spec f m a : diffs (map f (map Z.of_nat (seq a (S m)))) =
  map (fun w => f (w + 1) - f w) (map Z.of_nat (seq a m)).
Proof.
  revert a; induction m as [|m IH]; intros a; [reflexivity|].
  specialize (IH (S a)).
  change (diffs (map f (map Z.of_nat (seq a (S (S m)))))) with
    ((f (Z.of_nat (S a)) - f (Z.of_nat a)) :: diffs (map f (map Z.of_nat (seq (S a) (S m))))).
  rewrite IH. cbn [seq map]. do 3 f_equal. lia.
Qed.

Lemma fold_max_ge l a : a <= fold_left Z.max l a /\ Forall (fun x => x <= fold_left Z.max l a) l.
Proof.
  revert a; induction l as [|x l IH]; intros a; cbn [fold_left]; [split; [lia|constructor]|].
  destruct (IH (Z.max a x)) as [H1 H2]. split; [lia|]. constructor; [lia|exact H2].
Qed.

Lemma list_max_ge l d : list_max l = Ok d -> Forall (fun x => x <= d) l.
Proof.
  unfold list_max. destruct l as [|x l]; [discriminate|]. intros H; injection H as <-.
  destruct (fold_max_ge l x). constructor; assumption.
Qed.

Lemma clen_pos : 0 <= clen k.
Proof. unfold clen. assert (0 <= n * k) by (unfold k; pose proof (Zlen_nonneg vals); nia). lia. Qed.

Lemma pack_words_spec out : pack_words n vals = Ok out ->
  length out = Z.to_nat (clen k) /\ 2 <= clen k /\
  forall w, 0 <= w < clen k ->
    nth (Z.to_nat w) out 0 mod two32 = S_ w k mod two32 /\
    - two31 <= nth (Z.to_nat w) out 0 < two31.
Proof.
  unfold pack_words. fold k. pose proof (Zlen_nonneg vals) as Hk0. fold k in Hk0.
  rewrite starts_spec by exact Hk0.
  change (fun w => 32 * w / n) with st.
  pose proof clen_pos as HC0.
  intros H. inv_ok.
  unfold n_input_words in H. inv_ok.
  destruct (Z_lt_ge_dec (clen k) 2) as [Hc2|Hc2].
  { exfalso. unfold zrange in H.
    destruct (Z.to_nat (clen k)) as [|[|?]] eqn:E; try lia; cbn in H; discriminate. }
  assert (HD : forall w, 0 <= w < clen k - 1 -> st (w + 1) - st w <= x0).
  { intros w Hw. apply list_max_ge in H.
    unfold zrange in H. replace (Z.to_nat (clen k)) with (S (Z.to_nat (clen k - 1))) in H by lia.
    rewrite diffs_spec in H. rewrite Forall_forall in H. apply H.
    apply in_map_iff. exists w. split; [reflexivity|].
    apply in_map_iff. exists (Z.to_nat w). split; [lia|]. apply in_seq. lia. }
  assert (Hrows : combine (map st (zrange (clen k))) (row_maxes (map st (zrange (clen k))) k) =
                  map (fun w => (st w, rmax k w)) (zrange (clen k))).
  { apply (row_maxes_seq k (Z.to_nat (clen k)) 0). lia. }
  rewrite Hrows. split; [|split; [lia|]].
  - unfold zrange. rewrite !map_length, seq_length. reflexivity.
  - intros w Hw. unfold zrange. rewrite !map_map.
    set (F := fun x1 => _).
    erewrite nth_indep with (d' := F O) by (rewrite map_length, seq_length; lia).
    rewrite map_nth with (f := F). rewrite seq_nth by lia. unfold F. cbn [fst snd].
    replace (Z.of_nat (0 + Z.to_nat w)) with w by lia.
    pose proof (st_spec 1) as H1. pose proof (HD 0 ltac:(lia)) as HD0.
    change (0 + 1) with 1 in HD0. assert (Hst0 : st 0 = 0) by (unfold st; reflexivity).
    apply out_word; try lia.
    + unfold clen in Hw. clear - Hw. lia.
    + destruct (Z.eqb_spec (32 mod n) 0) as [Hdiv|Hdiv].
      * right. split; [exact Hdiv|]. rewrite Z2Nat.id by nia.
        apply Z.mod_divide in Hdiv; [|lia]. destruct Hdiv as [q Hq].
        assert (st 1 = q) by (unfold st; rewrite Z.mul_1_r, Hq; apply Z.div_mul; lia). nia.
      * left. rewrite Z2Nat.id by nia. unfold rmax.
        destruct (Z.eqb_spec w (clen k - 1)) as [He|Hne].
        -- pose proof (st_spec w). pose proof (st_spec 1).
           assert (n * k <= 32 * (w + 1)) by (subst w; unfold clen; clear; lia). nia.
        -- pose proof (HD w ltac:(lia)). lia.
    + destruct (Z.eqb_spec (32 mod n) 0); nia.
Qed.

(** success: pack_words works as soon as there are two output words *)
Lemma pack_words_ok : 2 <= clen k -> exists out, pack_words n vals = Ok out.
Proof.
  intros H. unfold pack_words. fold k. pose proof (Zlen_nonneg vals) as Hk0. fold k in Hk0.
  rewrite starts_spec by exact Hk0. unfold n_input_words, zrange.
  replace (Z.to_nat (clen k)) with (S (S (Z.to_nat (clen k - 2)))) by lia.
  rewrite diffs_spec. cbn [seq map list_max bind]. eexists. reflexivity.
Qed.
Lemma pack_words_fail : clen k < 2 -> pack_words n vals = Err ValueError.
Proof.
  intros H. unfold pack_words. fold k. pose proof (Zlen_nonneg vals) as Hk0. fold k in Hk0.
  rewrite starts_spec by exact Hk0. unfold n_input_words, zrange. pose proof clen_pos.
  destruct (Z.to_nat (clen k)) as [|[|?]] eqn:E; try lia; reflexivity.
Qed.

(** the big number written: the fields followed by zero padding *)
Lemma packed_number out : pack_words n vals = Ok out ->
  concat_bits 32 (map (fun w => w mod two32) out) = concat_bits n vals * 2 ^ (32 * clen k - n * k).
Proof.
  intros H. apply pack_words_spec in H as (HL & HC & HW).
  set (us := map (fun w => w mod two32) out).
  assert (Hlen : Zlen us = clen k) by (unfold us; rewrite Zlen_map; unfold Zlen; lia).
  assert (G : forall w, 0 <= w <= clen k -> pre 32 us w = Z.shiftl (pre n vals k) (32 * w - n * k)).
  { apply (Z_ind_nonneg _ (clen k)).
    - rewrite pre_0. rewrite Z.mul_0_r.
      pose proof (Zlen_nonneg vals) as Hk0. fold k in Hk0.
      rewrite shiftl_neg by nia. symmetry. apply Z.div_small.
      pose proof (pre_range n vals k ltac:(lia) HV ltac:(fold k; lia)) as HP.
      replace (- (0 - n * k)) with (n * k) by lia. exact HP.
    - intros w Hw IH. rewrite pre_succ by lia. rewrite IH.
      destruct (HW w Hw) as [HW1 _]. unfold us.
      replace 0 with (0 mod two32) at 1 by reflexivity.
      rewrite map_nth with (f := fun w => w mod two32). rewrite HW1.
      unfold S_. set (V := pre n vals k). set (e := 32 * w - n * k).
      replace (32 * (w + 1) - n * k) with (e + 32) by (unfold e; lia).
      change two32 with (2 ^ 32). rewrite <- (Z.land_ones _ 32) by lia.
      assert (E : Z.shiftl V e = Z.shiftr (Z.shiftl V (e + 32)) 32).
      { destruct (Z_le_gt_dec 0 e).
        - rewrite Z.shiftr_shiftl_l by lia. f_equal. lia.
        - destruct (Z_le_gt_dec 0 (e + 32)).
          + rewrite Z.shiftr_shiftl_r by lia. rewrite shiftl_neg by lia.
            rewrite Z.shiftr_div_pow2 by lia. do 2 f_equal. lia.
          + rewrite !shiftl_neg by lia. rewrite Z.shiftr_div_pow2 by lia.
            rewrite Z.div_div by (try apply Z.pow_nonzero; try apply Z.pow_pos_nonneg; lia).
            rewrite <- Z.pow_add_r by lia. do 2 f_equal. lia. }
      rewrite E. rewrite Z.shiftr_div_pow2, Z.land_ones by lia.
      rewrite Z.mul_comm. symmetry. apply Z.div_mod. lia. }
  rewrite <- pre_all, Hlen, G by lia.
  rewrite <- pre_all. fold k. rewrite shiftl_pos; [reflexivity|].
  unfold clen. clear. lia.
Qed.

End Pack.

(** ** unpacking *)
Lemma mod_pow_low y x a b : 0 <= b <= a -> (y * 2 ^ a + x mod 2 ^ a) mod 2 ^ b = x mod 2 ^ b.
Proof.
  intros H. assert (E : 2 ^ a = 2 ^ b * 2 ^ (a - b)) by (rewrite <- Z.pow_add_r by lia; f_equal; lia).
  rewrite E. rewrite Z.rem_mul_r by (try apply Z.pow_nonzero; try apply Z.pow_pos_nonneg; lia).
  replace (y * (2 ^ b * 2 ^ (a - b)) + (x mod 2 ^ b + 2 ^ b * ((x / 2 ^ b) mod 2 ^ (a - b))))
    with (x mod 2 ^ b + (y * 2 ^ (a - b) + (x / 2 ^ b) mod 2 ^ (a - b)) * 2 ^ b) by ring.
  rewrite Z.mod_add by (apply Z.pow_nonzero; lia). apply Z.mod_mod, Z.pow_nonzero; lia.
Qed.

Lemma py_index_nth l i : 0 <= i < Zlen l -> py_index l i = Ok (nth (Z.to_nat i) l 0).
Proof.
  intros H. unfold py_index. destruct (Z.ltb_spec i 0); [lia|].
  destruct (Z.ltb_spec i 0); [lia|]. rewrite (nth_error_nth' l 0) by (unfold Zlen in H; lia). reflexivity.
Qed.

Lemma combine_map_r {A B} (f : A -> B) l : combine l (map f l) = map (fun x => (x, f x)) l.
Proof. induction l as [|x l IH]; [reflexivity|]. cbn [map combine]. rewrite IH. reflexivity. Qed.

(** the field with index i of the bit string *)
Definition field (n : Z) (words : list Z) (i : Z) : Z :=
  Z.shiftr (concat_bits 32 (map (fun w => w mod two32) words)) (32 * Zlen words - n * (i + 1)) mod 2 ^ n.

Section Unpack.
Variable words : list Z.
Let us := map (fun w => w mod two32) words.
Let L := Zlen words.

Lemma us_fits : Forall (fits 32) us.
Proof.
  unfold us. apply Forall_map. apply Forall_forall. intros x _. unfold fits.
  change (2 ^ 32) with two32. apply Z.mod_pos_bound. unfold two32; lia.
Qed.

Lemma us_nth i : nth i us 0 = nth i words 0 mod two32.
Proof. unfold us. change 0 with (0 mod two32) at 1. apply map_nth with (f := fun w => w mod two32). Qed.

Lemma pre_shift j : 0 <= j <= L -> Z.shiftr (concat_bits 32 us) (32 * (L - j)) = pre 32 us j.
Proof.
  intros Hj.
  assert (HL : Zlen us = L) by (unfold us; apply Zlen_map).
  assert (G : forall d, 0 <= d <= L -> Z.shiftr (concat_bits 32 us) (32 * d) = pre 32 us (L - d)).
  { apply (Z_ind_nonneg _ L).
    - rewrite Z.mul_0_r, Z.shiftr_0_r, Z.sub_0_r, <- HL, pre_all. reflexivity.
    - intros d Hd IH. replace (32 * (d + 1)) with (32 * d + 32) by lia.
      rewrite <- Z.shiftr_shiftr by lia. rewrite IH.
      replace (L - d) with (L - (d + 1) + 1) by lia. rewrite pre_succ by lia.
      rewrite Z.shiftr_div_pow2 by lia. rewrite Z.div_add_l by lia.
      pose proof (nth_fits 32 us (Z.to_nat (L - (d + 1))) ltac:(lia) us_fits) as Hf. unfold fits in Hf.
      rewrite Z.div_small by exact Hf. lia. }
  rewrite G by lia. f_equal. lia.
Qed.

Variable n : Z.
Hypothesis Hn : 1 <= n <= 31.

Definition lastw (i : Z) : Z := (n * (i + 1) - 1) / 32.

Lemma incr_spec i : 0 <= i ->
  (if is_split n i || is_even n i then 1 else 0) =
  lastw i - (if i =? 0 then 0 else lastw (i - 1)).
Proof.
  intros Hi. unfold is_split, is_even, u_shift. rewrite word_shift_spec by lia. fold (lastw i).
  unfold lastw.
  destruct (Z.eqb_spec i 0) as [->|H0]; cbn [negb andb].
  - replace (n * (0 + 1)) with n by lia. rewrite orb_false_r.
    destruct (Z.ltb_spec (- (32 * ((n - 1) / 32 + 1) - n)) (n - 32)); lia.
  - rewrite word_shift_spec by lia.
    replace (i - 1 + 1) with i by lia. replace (n * (i + 1)) with (n * i + n) by lia.
    set (x := n * i). assert (1 <= x) by (unfold x; nia). clearbody x.
    destruct (Z.ltb_spec (- (32 * ((x + n - 1) / 32 + 1) - (x + n))) (n - 32));
    destruct (Z.eqb_spec (- (32 * ((x - 1) / 32 + 1) - x)) 0); cbn [orb]; lia.
Qed.

Lemma cumsum_seq (f g : Z -> Z) m : forall a acc,
  (forall i, (a <= i < a + m)%nat -> f (Z.of_nat i) = g (Z.of_nat i) - (if (i =? a)%nat then acc else g (Z.of_nat i - 1))) ->
  cumsum_from acc (map f (map Z.of_nat (seq a m))) = map g (map Z.of_nat (seq a m)).
Proof.
  induction m as [|m IH]; intros a acc H; [reflexivity|].
  cbn [seq map cumsum_from].
  pose proof (H a ltac:(lia)) as Ha. rewrite Nat.eqb_refl in Ha.
  assert (E : acc + f (Z.of_nat a) = g (Z.of_nat a)) by lia. rewrite E. f_equal.
  apply IH. intros i Hi. rewrite (H i) by lia.
  destruct (Nat.eqb_spec i a); [lia|]. destruct (Nat.eqb_spec i (S a)); [|reflexivity].
  subst. do 2 f_equal. lia.
Qed.

Lemma u_index_spec kxky : u_index n kxky = map lastw (zrange kxky).
Proof.
  unfold u_index, zrange. apply cumsum_seq. intros i Hi. rewrite incr_spec by lia.
  destruct (Nat.eqb_spec i 0); destruct (Z.eqb_spec (Z.of_nat i) 0); try lia.
Qed.

Lemma unpack_one i : 0 <= i -> n * (i + 1) <= 32 * L ->
  (a <- u_term words (2 ^ n - 1) (lastw i) (u_shift n i) ;;
   b <- (if is_split n i then u_term words (2 ^ n - 1) (lastw i - 1) (u_shift n i + 32) else Ok 0) ;;
   Ok (a + b)) = Ok (field n words i).
Proof.
  intros Hi HL.
  set (e := n * (i + 1)) in *. set (a := lastw i).
  assert (Ha : 32 * a < e <= 32 * (a + 1)) by (unfold a, lastw; fold e; clear; lia).
  assert (He : 1 <= e) by (unfold e; nia).
  assert (Ha0 : 0 <= a) by lia. assert (HaL : a < L) by lia.
  set (s := word_shift n i).
  assert (Hs : s = 32 * (a + 1) - e) by (unfold s; rewrite word_shift_spec by lia; reflexivity).
  assert (Hs0 : 0 <= s < 32) by lia.
  (* the field n words in terms of prefixes *)
  assert (HF : field n words i = Z.shiftr (pre 32 us (a + 1)) s mod 2 ^ n).
  { unfold field. fold us L e. f_equal. rewrite <- pre_shift by lia.
    rewrite Z.shiftr_shiftr by lia. f_equal. lia. }
  assert (HP : pre 32 us (a + 1) = pre 32 us a * 2 ^ 32 + nth (Z.to_nat a) us 0).
  { apply pre_succ. unfold us. rewrite Zlen_map. lia. }
  set (ua := nth (Z.to_nat a) us 0) in *.
  assert (Hua : 0 <= ua < 2 ^ 32) by (apply nth_fits; [lia|apply us_fits]).
  assert (HSR : Z.shiftr (pre 32 us (a + 1)) s = pre 32 us a * 2 ^ (32 - s) + ua / 2 ^ s).
  { rewrite HP, Z.shiftr_div_pow2 by lia.
    replace (2 ^ 32) with (2 ^ (32 - s) * 2 ^ s) by (rewrite <- Z.pow_add_r by lia; f_equal; lia).
    rewrite Z.mul_assoc, Z.div_add_l by (apply Z.pow_nonzero; lia). reflexivity. }
  assert (Hdiv : 0 <= ua / 2 ^ s < 2 ^ (32 - s)).
  { split; [apply Z.div_pos; [lia|apply Z.pow_pos_nonneg; lia]|].
    apply Z.div_lt_upper_bound; [apply Z.pow_pos_nonneg; lia|].
    rewrite <- Z.pow_add_r by lia. replace (s + (32 - s)) with 32 by lia. lia. }
  assert (HT1 : u_term words (2 ^ n - 1) a (u_shift n i) = Ok ((ua / 2 ^ s) mod 2 ^ n)).
  { unfold u_term. destruct (Z.geb_spec a 0); [|lia]. rewrite py_index_nth by (fold L; lia). cbn [bind].
    unfold u_shift. fold s. destruct (Z.gtb_spec (- s) 0); [lia|].
    rewrite Z.abs_opp, Z.abs_eq by lia. rewrite <- us_nth. fold ua.
    rewrite Z.shiftr_div_pow2 by lia. replace (2 ^ n - 1) with (Z.ones n) by (rewrite Z.ones_equiv; lia).
    rewrite Z.land_ones by lia. reflexivity. }
  rewrite HT1. cbn [bind].
  assert (Hsplit : is_split n i = (n * i <? 32 * a)).
  { unfold is_split, u_shift. fold s. unfold e in *. lia. }
  rewrite Hsplit. rewrite HF, HSR.
  destruct (Z.ltb_spec (n * i) (32 * a)) as [Hsp|Hsp].
  - assert (Ha1 : 1 <= a) by nia.
    unfold u_term. destruct (Z.geb_spec (a - 1) 0); [|lia].
    rewrite py_index_nth by (fold L; lia). cbn [bind].
    unfold u_shift. fold s. destruct (Z.gtb_spec (- s + 32) 0); [|lia].
    set (wp := nth (Z.to_nat (a - 1)) words 0).
    f_equal.
    replace (2 ^ n - 1) with (Z.ones n) by (rewrite Z.ones_equiv; lia). rewrite Z.land_ones by lia.
    rewrite shiftl_pos by lia.
    (* n > 32 - s *)
    assert (Hns : 32 - s < n) by (unfold e in *; lia).
    set (c := 32 - s) in *. replace (- s + 32) with c by lia.
    assert (Hc : 1 <= c) by lia.
    assert (HW : wrap32 (wp * 2 ^ c) mod 2 ^ n = (wp * 2 ^ c) mod 2 ^ n).
    { assert (E : 2 ^ n * 2 ^ (32 - n) = two32) by (rewrite <- Z.pow_add_r by lia; change two32 with (2 ^ 32); f_equal; lia).
      transitivity ((wrap32 (wp * 2 ^ c) mod two32) mod 2 ^ n).
      - rewrite <- E. rewrite Z.rem_mul_r by (try apply Z.pow_nonzero; try apply Z.pow_pos_nonneg; lia).
        rewrite (Z.mul_comm (2 ^ n)), Z.mod_add by (apply Z.pow_nonzero; lia).
        rewrite Z.mod_mod by (apply Z.pow_nonzero; lia). reflexivity.
      - rewrite wrap32_mod. rewrite <- E. rewrite Z.rem_mul_r by (try apply Z.pow_nonzero; try apply Z.pow_pos_nonneg; lia).
        rewrite (Z.mul_comm (2 ^ n)), Z.mod_add by (apply Z.pow_nonzero; lia).
        rewrite Z.mod_mod by (apply Z.pow_nonzero; lia). reflexivity. }
    rewrite HW.
    (* previous prefix *)
    assert (HP2 : pre 32 us a = pre 32 us (a - 1) * 2 ^ 32 + nth (Z.to_nat (a - 1)) us 0).
    { replace a with (a - 1 + 1) at 1 by lia. apply pre_succ. unfold us. rewrite Zlen_map. fold L. lia. }
    rewrite us_nth in HP2. fold wp in HP2.
    set (t := ua / 2 ^ s) in *.
    assert (E2n : 2 ^ n = 2 ^ c * 2 ^ (n - c)) by (rewrite <- Z.pow_add_r by lia; f_equal; lia).
    rewrite (Z.mod_small t) by (split; [lia|]; apply Z.lt_le_trans with (2 ^ c); [lia|apply Z.pow_le_mono_r; lia]).
    assert (M1 : (wp * 2 ^ c) mod 2 ^ n = 2 ^ c * (wp mod 2 ^ (n - c))).
    { rewrite E2n, (Z.mul_comm wp), Zmult_mod_distr_l. reflexivity. }
    assert (M2 : (pre 32 us a * 2 ^ c) mod 2 ^ n = 2 ^ c * (wp mod 2 ^ (n - c))).
    { rewrite E2n, (Z.mul_comm (pre 32 us a)), Zmult_mod_distr_l. f_equal.
      rewrite HP2. change two32 with (2 ^ 32).
      apply mod_pow_low. clearbody c. clear - Hns Hc Hn. lia. }
    rewrite M1.
    rewrite <- Zplus_mod_idemp_l, M2.
    assert (HB : 0 <= wp mod 2 ^ (n - c) < 2 ^ (n - c)) by (apply Z.mod_pos_bound, Z.pow_pos_nonneg; lia).
    etransitivity; [apply Z.add_comm|symmetry; apply Z.mod_small]. rewrite E2n.
    assert (HA0 : 0 < 2 ^ c) by (apply Z.pow_pos_nonneg; clear - Hc; lia).
    set (x := wp mod 2 ^ (n - c)) in *. set (A := 2 ^ c) in *. set (B := 2 ^ (n - c)) in *.
    clearbody x A B t. clear - HB Hdiv HA0. nia.
  - cbn [bind]. f_equal. rewrite Z.add_0_r.
    assert (Hns : n <= 32 - s) by (unfold e in *; lia).
    replace (2 ^ (32 - s)) with (2 ^ (32 - s - n) * 2 ^ n) by (rewrite <- Z.pow_add_r by lia; f_equal; lia).
    rewrite Z.mul_assoc, Z.add_comm, Z.mod_add by (apply Z.pow_nonzero; lia). reflexivity.
Qed.

Lemma unpack_words_spec kxky : 0 <= kxky -> n * kxky <= 32 * L ->
  unpack_words words n kxky = Ok (map (field n words) (zrange kxky)).
Proof.
  intros Hk HL. unfold unpack_words. rewrite u_index_spec, combine_map_r, mapM_map.
  rewrite <- mapM_pure. apply mapM_ext. intros i Hi.
  apply unpack_one.
  - unfold zrange in Hi. apply in_map_iff in Hi as (j & <- & _). lia.
  - unfold zrange in Hi. apply in_map_iff in Hi as (j & <- & Hj). apply in_seq in Hj. nia.
Qed.
End Unpack.

(** ** round trip *)
Lemma map_nth_zrange (l : list Z) : map (fun i => nth (Z.to_nat i) l 0) (zrange (Zlen l)) = l.
Proof.
  unfold zrange. rewrite Zlen_length, map_map.
  rewrite (map_ext _ (fun i => nth i l 0)) by (intros; rewrite Nat2Z.id; reflexivity).
  clear. induction l as [|x l IH]; [reflexivity|]. cbn [length seq map nth].
  rewrite <- seq_shift, map_map. f_equal. exact IH.
Qed.

Lemma field_of_pack n vals out i : 1 <= n <= 31 -> Forall (fits n) vals ->
  pack_words n vals = Ok out -> 0 <= i < Zlen vals ->
  field n out i = nth (Z.to_nat i) vals 0.
Proof.
  intros Hn HV HP Hi. unfold field.
  rewrite (packed_number n Hn vals HV out HP).
  apply pack_words_spec in HP as (HL & HC & _); [|assumption|assumption].
  assert (HLZ : Zlen out = clen n (Zlen vals)) by (unfold Zlen at 1; lia).
  rewrite HLZ. set (k := Zlen vals) in *. set (c := clen n k) in *.
  assert (Hc : 0 <= 32 * c - n * k) by (unfold c, clen; clear; lia).
  replace (32 * c - n * (i + 1)) with (32 * c - n * k + n * (k - (i + 1))) by lia.
  set (pad := 32 * c - n * k) in *.
  assert (H0 : 0 <= n * (k - (i + 1))) by nia.
  rewrite <- Z.shiftr_shiftr by lia.
  rewrite (Z.shiftr_div_pow2 _ pad) by lia. rewrite Z.div_mul by (apply Z.pow_nonzero; lia).
  (* drop the last k-(i+1) fields *)
  assert (G : forall d, 0 <= d <= k -> Z.shiftr (concat_bits n vals) (n * d) = pre n vals (k - d)).
  { apply (Z_ind_nonneg _ k).
    - rewrite Z.mul_0_r, Z.shiftr_0_r, Z.sub_0_r. symmetry. apply pre_all.
    - intros d Hd IH. replace (n * (d + 1)) with (n * d + n) by lia.
      rewrite <- Z.shiftr_shiftr by nia. rewrite IH.
      replace (k - d) with (k - (d + 1) + 1) by lia. rewrite pre_succ by (fold k; lia).
      rewrite Z.shiftr_div_pow2 by lia. rewrite Z.div_add_l by (apply Z.pow_nonzero; lia).
      pose proof (nth_fits n vals (Z.to_nat (k - (d + 1))) ltac:(lia) HV) as Hf. unfold fits in Hf.
      rewrite Z.div_small by exact Hf. lia. }
  rewrite G by lia. replace (k - (k - (i + 1))) with (i + 1) by lia.
  rewrite pre_succ by (fold k; lia).
  pose proof (nth_fits n vals (Z.to_nat i) ltac:(lia) HV) as Hf. unfold fits in Hf.
  rewrite Z.add_comm, Z.mod_add by (apply Z.pow_nonzero; lia). apply Z.mod_small. exact Hf.
Qed.

Lemma pack_unpack n vals out : 1 <= n <= 31 -> Forall (fits n) vals ->
  pack_words n vals = Ok out -> unpack_words out n (Zlen vals) = Ok vals.
Proof.
  intros Hn HV HP.
  pose proof (pack_words_spec n Hn vals HV out HP) as (HL & HC & _).
  rewrite unpack_words_spec.
  - f_equal. rewrite <- (map_nth_zrange vals) at 2. apply map_ext_in.
    intros i Hi. apply (field_of_pack n vals out i Hn HV HP).
    unfold zrange in Hi. apply in_map_iff in Hi as (j & <- & Hj). apply in_seq in Hj.
    pose proof (Zlen_nonneg vals). lia.
  - exact Hn.
  - apply Zlen_nonneg.
  - unfold Zlen at 2. rewrite HL. unfold clen in *. clear - HC. lia.
Qed.
