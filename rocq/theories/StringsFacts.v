(** Lemmas about Strings.v: decimal formatting and parsing, padding and stripping. *)
From Coq Require Import Lia ZifyBool ZifyNat.
From Verif Require Import Base BaseFacts Strings.
Ltac Zify.zify_post_hook ::= Z.div_mod_to_equations.

(** The last w decimal digits of n. *)
Fixpoint fixed (w : nat) (n : Z) : str :=
  match w with O => [] | S k => fixed k (n / 10) ++ [48 + n mod 10] end.

Lemma fixed_length w n : length (fixed w n) = w.
Proof. revert n; induction w; intros n; cbn [fixed]; [reflexivity|]. rewrite app_length, IHw. cbn. lia. Qed.

Lemma fixed_digits w n : forallb is_digit (fixed w n) = true.
Proof.
  revert n; induction w; intros n; cbn [fixed]; [reflexivity|].
  rewrite forallb_app, IHw. cbn [forallb]. unfold is_digit. lia.
Qed.

Lemma pow10_S k : 10 ^ Z.of_nat (S k) = 10 * 10 ^ Z.of_nat k.
Proof. rewrite Nat2Z.inj_succ, Z.pow_succ_r by lia. reflexivity. Qed.

Lemma pow10_pos k : 0 < 10 ^ Z.of_nat k.
Proof. apply Z.pow_pos_nonneg; lia. Qed.

Lemma fixed_zeros j : fixed j 0 = repeat 48 j.
Proof.
  induction j; [reflexivity|]. cbn [fixed]. change (0 / 10) with 0. change (0 mod 10) with 0.
  rewrite IHj. clear. induction j; [reflexivity|]. cbn [repeat app]. f_equal. exact IHj.
Qed.

Lemma fixed_pad j k n : 0 <= n < 10 ^ Z.of_nat k -> repeat 48 j ++ fixed k n = fixed (j + k) n.
Proof.
  revert n; induction k; intros n Hn.
  - cbn in Hn. assert (n = 0) by lia. subst. cbn [fixed]. rewrite app_nil_r, Nat.add_0_r.
    symmetry; apply fixed_zeros.
  - rewrite Nat.add_succ_r. cbn [fixed]. rewrite app_assoc, IHk; [reflexivity|].
    rewrite pow10_S in Hn. generalize dependent (10 ^ Z.of_nat k). intros; lia.
Qed.

Lemma fixed_app a b x y : 0 <= y < 10 ^ Z.of_nat b ->
  fixed a x ++ fixed b y = fixed (a + b) (x * 10 ^ Z.of_nat b + y).
Proof.
  revert y; induction b; intros y Hy.
  - cbn in Hy |- *. rewrite app_nil_r, Nat.add_0_r. f_equal; lia.
  - rewrite Nat.add_succ_r. rewrite pow10_S in *. cbn [fixed]. rewrite app_assoc, IHb.
    + pose proof (pow10_pos b). generalize dependent (10 ^ Z.of_nat b). intros p Hy Hp.
      assert (E1 : x * p + y / 10 = (x * (10 * p) + y) / 10).
      { replace (x * (10 * p) + y) with (y + x * p * 10) by ring. rewrite Z.div_add by lia. lia. }
      assert (E2 : y mod 10 = (x * (10 * p) + y) mod 10).
      { replace (x * (10 * p) + y) with (y + x * p * 10) by ring. rewrite Z.mod_add by lia. reflexivity. }
      rewrite E1, E2. reflexivity.
    + generalize dependent (10 ^ Z.of_nat b). intros; lia.
Qed.

Lemma dec_digits_spec fuel : forall n acc, 0 <= n < 10 ^ Z.of_nat fuel -> (1 <= fuel)%nat ->
  exists k, (1 <= k <= fuel)%nat /\ dec_digits fuel n acc = fixed k n ++ acc /\
    n < 10 ^ Z.of_nat k /\ (k = 1%nat \/ 10 ^ Z.of_nat (k - 1) <= n).
Proof.
  induction fuel as [|f IH]; intros n acc Hn Hf; [lia|].
  cbn [dec_digits]. destruct (Z.ltb_spec n 10).
  - exists 1%nat. cbn [fixed]. change (10 ^ Z.of_nat 1) with 10.
    repeat split; try lia.
  - assert (1 <= f)%nat.
    { destruct f; [|lia]. cbn in Hn. lia. }
    destruct (IH (n / 10) ((48 + n mod 10) :: acc)) as (k & Hk & E & H1 & H2); [|lia|].
    { rewrite pow10_S in Hn. clear IH. split; [apply Z.div_pos; lia|]. apply Z.div_lt_upper_bound; lia. }
    exists (S k). rewrite E. cbn [fixed]. rewrite <- app_assoc. rewrite pow10_S.
    split; [lia|]. split; [reflexivity|]. split.
    + clear - H1. generalize dependent (10 ^ Z.of_nat k). intros; lia.
    + right. destruct H2 as [->|H2]; [cbn; lia|].
      replace (S k - 1)%nat with (S (k - 1)) by lia. rewrite pow10_S.
      clear - H2. generalize dependent (10 ^ Z.of_nat (k - 1)). intros; lia.
Qed.

Lemma log2_fuel n : 0 <= n -> n < 10 ^ Z.of_nat (Z.to_nat (Z.log2 n + 2)).
Proof.
  intros H. pose proof (Z.log2_nonneg n). rewrite Z2Nat.id by lia.
  destruct (Z.eq_dec n 0) as [->|]; [cbn; lia|].
  assert (n < 2 ^ (Z.log2 n + 1)) by (apply Z.log2_spec; lia).
  assert (2 ^ (Z.log2 n + 1) <= 10 ^ (Z.log2 n + 1)) by (apply Z.pow_le_mono_l; lia).
  assert (10 ^ (Z.log2 n + 1) <= 10 ^ (Z.log2 n + 2)) by (apply Z.pow_le_mono_r; lia).
  lia.
Qed.

Lemma dec_spec n : 0 <= n -> exists k, (1 <= k)%nat /\ dec n = fixed k n /\
    n < 10 ^ Z.of_nat k /\ (k = 1%nat \/ 10 ^ Z.of_nat (k - 1) <= n).
Proof.
  intros H. unfold dec. pose proof (Z.log2_nonneg n).
  destruct (dec_digits_spec (Z.to_nat (Z.log2 n + 2)) n []) as (k & Hk & E & H1 & H2).
  - pose proof (log2_fuel n H). lia.
  - lia.
  - exists k. rewrite app_nil_r in E. repeat split; try lia; assumption.
Qed.

(** f'{n:0wd}' is the w-digit decimal string when n fits in w digits, else all its digits. *)
Lemma fmt_d_spec w n : 0 <= n -> exists k, (1 <= k)%nat /\ (w <= k)%nat /\
  fmt_d w n = fixed k n /\ n < 10 ^ Z.of_nat k /\ (k = 1%nat \/ k = w \/ 10 ^ Z.of_nat (k - 1) <= n).
Proof.
  intros H. unfold fmt_d. rewrite Z.abs_eq by lia.
  replace (n <? 0) with false by lia.
  destruct (dec_spec n H) as (k & Hk & -> & H1 & H2). rewrite fixed_length.
  exists ((w - k) + k)%nat. rewrite fixed_pad by lia.
  assert (10 ^ Z.of_nat k <= 10 ^ Z.of_nat (w - k + k)) by (apply Z.pow_le_mono_r; lia).
  repeat split; try lia.
  destruct (Nat.le_gt_cases w k).
  - replace (w - k + k)%nat with k by lia. destruct H2; auto.
  - right; left; lia.
Qed.

Lemma fmt_d_fixed w n : (1 <= w)%nat -> 0 <= n < 10 ^ Z.of_nat w -> fmt_d w n = fixed w n.
Proof.
  intros Hw Hn. destruct (fmt_d_spec w n) as (k & H1 & H2 & -> & H3 & H4); [lia|].
  destruct H4 as [->|[->|H4]].
  - replace w with 1%nat by lia. reflexivity.
  - reflexivity.
  - destruct (Nat.eq_dec k w) as [->|]; [reflexivity|].
    assert (10 ^ Z.of_nat w <= 10 ^ Z.of_nat (k - 1)) by (apply Z.pow_le_mono_r; lia). lia.
Qed.

Lemma int_digits_app s c : forallb is_digit (s ++ [c]) = true -> forall acc b,
  int_digits (s ++ [c]) acc b = (v <- int_digits s acc true ;; Ok (10 * v + (c - 48))).
Proof.
  induction s as [|d r IH]; intros H acc b.
  - cbn in H |- *. replace (is_digit c) with true by (destruct (is_digit c); cbn in H; congruence). reflexivity.
  - cbn [app int_digits]. cbn [app forallb] in H. apply andb_prop in H as [H1 H2]. rewrite H1.
    rewrite IH by assumption. reflexivity.
Qed.

Lemma int_digits_fixed w : forall n b acc, (b = true \/ (1 <= w)%nat) -> 
  int_digits (fixed w n) acc b = Ok (acc * 10 ^ Z.of_nat w + n mod 10 ^ Z.of_nat w).
Proof.
  induction w as [|w IH]; intros n b acc Hb.
  - cbn. destruct b; [|lia]. rewrite Z.mod_1_r. f_equal. lia.
  - pose proof (fixed_digits (S w) n) as D. cbn [fixed] in *.
    rewrite int_digits_app by assumption. rewrite IH by auto. cbn [bind]. rewrite pow10_S. f_equal.
    pose proof (pow10_pos w). rewrite (Z.rem_mul_r n 10 (10 ^ Z.of_nat w)) by lia. ring.
Qed.

Lemma lstrip_nospace c r : is_space c = false -> lstrip (c :: r) = c :: r.
Proof. intros H. cbn. rewrite H. reflexivity. Qed.

Lemma digit_not_space c : is_digit c = true -> is_space c = false.
Proof. unfold is_digit, is_space. lia. Qed.

Lemma rstrip_snoc s c : is_space c = false -> rstrip (s ++ [c]) = s ++ [c].
Proof.
  intros H. unfold rstrip. rewrite rev_app_distr. cbn [rev app]. rewrite lstrip_nospace by assumption.
  cbn [rev]. rewrite rev_involutive. reflexivity.
Qed.

Lemma strip_id s : (forall c r, s = c :: r -> is_space c = false) ->
  (forall c r, s = r ++ [c] -> is_space c = false) -> strip s = s.
Proof.
  intros H1 H2. unfold strip. destruct s as [|c r]; [reflexivity|].
  rewrite lstrip_nospace by (eapply H1; reflexivity).
  destruct (@exists_last _ (c :: r)) as (l & x & E); [discriminate|]. rewrite E.
  apply rstrip_snoc. eapply H2; exact E.
Qed.

Lemma strip_digits s : forallb is_digit s = true -> strip s = s.
Proof.
  intros H. apply strip_id; intros c r ->.
  - cbn in H. apply andb_prop in H as [H _]. apply digit_not_space, H.
  - rewrite forallb_app in H. apply andb_prop in H as [_ H]. cbn in H. apply digit_not_space.
    destruct (is_digit c); cbn in H; congruence.
Qed.

Lemma py_int_digits s : forallb is_digit s = true -> s <> [] -> py_int s = int_digits s 0 false.
Proof.
  intros H Hs. unfold py_int. rewrite strip_digits by assumption.
  destruct s as [|c r]; [congruence|]. cbn in H. apply andb_prop in H as [H _].
  unfold is_digit in H. replace (c =? 45) with false by lia. replace (c =? 43) with false by lia.
  reflexivity.
Qed.

(** int of a w-digit string *)
Lemma py_int_fixed w n : (1 <= w)%nat -> py_int (fixed w n) = Ok (n mod 10 ^ Z.of_nat w).
Proof.
  intros Hw. rewrite py_int_digits.
  - rewrite int_digits_fixed by auto. f_equal.
  - apply fixed_digits.
  - intros E. apply (f_equal (@length Z)) in E. rewrite fixed_length in E. cbn in E. lia.
Qed.

Lemma py_int_fmt_d w n : 0 <= n -> py_int (fmt_d w n) = Ok n.
Proof.
  intros H. destruct (fmt_d_spec w n H) as (k & H1 & _ & -> & H3 & _).
  rewrite py_int_fixed by assumption. rewrite Z.mod_small by lia. reflexivity.
Qed.

(** int(f'{a:0wd}{b:02d}') *)
Lemma py_int_fmt_pair w a b : 0 <= a -> 0 <= b < 100 -> py_int (fmt_d w a ++ fmt_d 2 b) = Ok (a * 100 + b).
Proof.
  intros Ha Hb. destruct (fmt_d_spec w a Ha) as (k & H1 & _ & -> & H3 & _).
  rewrite (fmt_d_fixed 2 b) by (change (10 ^ Z.of_nat 2) with 100; lia).
  rewrite fixed_app by (change (10 ^ Z.of_nat 2) with 100; lia).
  rewrite py_int_fixed by lia. change (10 ^ Z.of_nat 2) with 100.
  rewrite Z.mod_small; [reflexivity|].
  rewrite Nat2Z.inj_add, Z.pow_add_r by lia. change (10 ^ Z.of_nat 2) with 100.
  generalize dependent (10 ^ Z.of_nat k). intros; lia.
Qed.

Lemma str_eqb_spec a b : str_eqb a b = true <-> a = b.
Proof.
  revert b; induction a as [|x r IH]; intros [|y t]; cbn; split; intros H; try congruence.
  - apply andb_prop in H as [H1 H2]. apply IH in H2. f_equal; [lia|assumption].
  - injection H as -> ->. apply andb_true_intro; split; [lia|]. apply IH; reflexivity.
Qed.

Lemma upper_c_idem c : upper_c (upper_c c) = upper_c c.
Proof. unfold upper_c. destruct ((97 <=? c) && (c <=? 122)) eqn:E; [|rewrite E; reflexivity].
  replace ((97 <=? c - 32) && (c - 32 <=? 122)) with false by lia. reflexivity. Qed.
Lemma upper_idem s : upper (upper s) = upper s.
Proof. unfold upper. rewrite map_map. apply map_ext, upper_c_idem. Qed.
Lemma upper_length s : length (upper s) = length s.
Proof. apply map_length. Qed.
Lemma upper_app a b : upper (a ++ b) = upper a ++ upper b.
Proof. apply map_app. Qed.

Lemma upper_digits s : forallb is_digit s = true -> upper s = s.
Proof.
  induction s as [|c r IH]; intros H; [reflexivity|]. cbn [forallb] in H. apply andb_prop in H as [H1 H2].
  unfold upper. cbn [map]. rewrite (IH H2 : map upper_c r = r). f_equal. unfold is_digit in H1. unfold upper_c.
  replace ((97 <=? c) && (c <=? 122)) with false by lia. reflexivity.
Qed.

(** Stripping the spaces that padding added. *)
Lemma lstrip_app_space s n : lstrip (repeat 32 n ++ s) = lstrip s.
Proof. induction n; [reflexivity|]. cbn. exact IHn. Qed.
Lemma rstrip_app_space s n : rstrip (s ++ repeat 32 n) = rstrip s.
Proof.
  unfold rstrip. rewrite rev_app_distr.
  assert (E : rev (repeat 32 n) = repeat 32 n).
  { clear. induction n as [|n IH]; [reflexivity|]. cbn [repeat rev]. rewrite IH.
    clear. induction n as [|n IH]; [reflexivity|]. cbn [repeat app]. f_equal. exact IH. }
  rewrite E, lstrip_app_space. reflexivity.
Qed.
Lemma lstrip_all_space s : forallb is_space s = true -> lstrip s = [].
Proof. induction s; cbn; intros H; [reflexivity|]. apply andb_prop in H as [-> H]. auto. Qed.
Lemma lstrip_app s t : forallb is_space s = false -> lstrip (s ++ t) = lstrip s ++ t.
Proof.
  induction s as [|c r IH]; intros H; [discriminate|]. cbn in *. destruct (is_space c); [|reflexivity].
  apply IH, H.
Qed.
Lemma repeat_space n : forallb is_space (repeat 32 n) = true.
Proof. induction n; [reflexivity|]. cbn. exact IHn. Qed.
Lemma rstrip_nil : rstrip [] = [].
Proof. reflexivity. Qed.
Lemma strip_ljust n s : strip (ljust n s) = strip s.
Proof.
  unfold strip, ljust. destruct (forallb is_space s) eqn:E.
  - rewrite !lstrip_all_space; [reflexivity|assumption|]. rewrite forallb_app, E. apply repeat_space.
  - rewrite lstrip_app by assumption. apply rstrip_app_space.
Qed.

Lemma is_ascii_app a b : is_ascii (a ++ b) = is_ascii a && is_ascii b.
Proof. apply forallb_app. Qed.
Lemma is_ascii_ljust n s : is_ascii (ljust n s) = is_ascii s.
Proof.
  unfold ljust. rewrite is_ascii_app.
  replace (is_ascii (repeat 32 (n - length s))) with true; [apply andb_true_r|].
  induction (n - length s)%nat; [reflexivity|]. cbn. exact IHn0.
Qed.
Lemma is_ascii_firstn n s : is_ascii s = true -> is_ascii (firstn n s) = true.
Proof.
  revert n; induction s as [|c r IH]; intros [|n] H; try reflexivity. cbn [firstn] in *. cbn in H |- *.
  apply andb_prop in H as [-> H]. apply IH, H.
Qed.
Lemma is_ascii_upper s : is_ascii s = true -> is_ascii (upper s) = true.
Proof.
  induction s as [|c r IH]; intros H; [reflexivity|]. cbn in H |- *. apply andb_prop in H as [H1 H2].
  apply andb_true_intro; split; [|apply IH, H2].
  unfold upper_c. destruct ((97 <=? c) && (c <=? 122)) eqn:E; lia.
Qed.

Lemma split_on_none p s : forallb (fun c => negb (p c)) s = true -> split_on p s = ([s], []).
Proof.
  induction s as [|c r IH]; intros H; [reflexivity|]. cbn in H |- *. apply andb_prop in H as [H1 H2].
  rewrite IH by assumption. destruct (p c); [discriminate|reflexivity].
Qed.
Lemma split_on_one p s c t : forallb (fun c => negb (p c)) s = true -> p c = true ->
  forallb (fun c => negb (p c)) t = true -> split_on p (s ++ c :: t) = ([s; t], [c]).
Proof.
  intros H1 Hc H2. induction s as [|x r IH].
  - cbn [app split_on]. rewrite split_on_none by assumption. rewrite Hc. reflexivity.
  - cbn [forallb] in H1. apply andb_prop in H1 as [Hx H1]. cbn [app split_on]. rewrite IH by assumption.
    destruct (p x); [discriminate|reflexivity].
Qed.
