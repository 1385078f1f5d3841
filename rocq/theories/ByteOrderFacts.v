(** Facts on the two byte orders of a file (C09): every structured reading sees the same values. *)
From Coq Require Import ZArith List Lia ZifyBool ZifyNat.
From Verif Require Import Base BaseFacts Words Floats Structs StructsFacts Strings DmFile SpecByteOrder.
Import ListNotations.
Open Scope Z_scope.
Ltac Zify.zify_post_hook ::= Z.to_euclidean_division_equations.

(** ** Bytes of an image *)
Lemma stored_length e w : sound_word w -> length (SpecByteOrder.stored e w) = 4%nat.
Proof. destruct w as [z|b]; cbn; [destruct e; reflexivity|tauto]. Qed.
Lemma image_length e F : Forall sound_word F -> length (image e F) = (4 * length F)%nat.
Proof. induction 1 as [|w F H S IH]; [reflexivity|]. unfold image in *. cbn [map concat length]. rewrite app_length, IH, stored_length by auto. lia. Qed.
Lemma image_Zlen e F : Forall sound_word F -> Zlen (image e F) = 4 * Zlen F.
Proof. intros H. unfold Zlen. rewrite image_length by auto. lia. Qed.
Lemma image_word e F : Forall sound_word F -> forall i w, nth_error F i = Some w -> firstn 4 (skipn (4 * i) (image e F)) = SpecByteOrder.stored e w.
Proof.
  induction 1 as [|w0 F H S IH]; intros i w; [destruct i; discriminate|].
  unfold image in *. cbn [map concat]. destruct i as [|i]; cbn [nth_error].
  - intros [= <-]. cbn [Nat.mul skipn]. apply firstn_app_exact, stored_length, H.
  - intros E. replace (4 * Datatypes.S i)%nat with (4 + 4 * i)%nat by lia. rewrite skipn_app, stored_length by auto.
    rewrite skipn_all2 by (rewrite stored_length by auto; lia). replace (4 + 4 * i - 4)%nat with (4 * i)%nat by lia. apply IH, E.
Qed.
Lemma nth_error_ext {A} (a b : list A) : (forall i, nth_error a i = nth_error b i) -> a = b.
Proof.
  revert b. induction a as [|x a IH]; intros [|y b] H; auto; [specialize (H 0%nat); discriminate|specialize (H 0%nat); discriminate|].
  pose proof (H 0%nat) as E. injection E as <-. f_equal. apply IH. intros i. apply (H (Datatypes.S i)).
Qed.
Lemma nth_firstn {A} n (l : list A) i : nth_error (firstn n l) i = if (i <? n)%nat then nth_error l i else None.
Proof.
  revert l i. induction n as [|n IH]; intros l i; [destruct i; reflexivity|]. destruct l as [|x l]; [destruct i; cbn [firstn nth_error]; match goal with |- context [if ?b then _ else _] => destruct b end; reflexivity|].
  destruct i as [|i]; [reflexivity|]. cbn [firstn nth_error]. rewrite IH. reflexivity.
Qed.
Lemma nth_skipn {A} n (l : list A) i : nth_error (skipn n l) i = nth_error l (n + i).
Proof. revert l. induction n as [|n IH]; intros l; [reflexivity|]. destruct l as [|x l]; [destruct i; reflexivity|]. apply IH. Qed.
Lemma image_byte e F q : Forall sound_word F ->
  nth_error (image e F) q = match nth_error F (q / 4) with Some w => nth_error (SpecByteOrder.stored e w) (q mod 4) | None => None end.
Proof.
  intros S. destruct (nth_error F (q / 4)) as [w|] eqn:E.
  - pose proof (image_word e F S _ _ E) as W. apply (f_equal (fun l => nth_error l (q mod 4))) in W. rewrite nth_firstn, nth_skipn in W.
    destruct (Nat.ltb_spec (q mod 4) 4); [|lia]. rewrite <- W. f_equal. lia.
  - apply nth_error_None in E. apply nth_error_None. rewrite image_length by auto. lia.
Qed.
(** text is the same in both images *)
Definition text_bytes (F : list word) (p n : Z) : Prop := forall q z, p <= q < p + n -> at_word F (q / 4 + 1) <> Some (Num z).
Definition raw (F : list word) (p : Z) (n : nat) : bytes := firstn n (skipn (Z.to_nat p) (image LE F)).
Lemma at_byte F q : 0 <= q -> at_word F (q / 4 + 1) = nth_error F (Z.to_nat q / 4).
Proof. intros H. unfold at_word. destruct (Z.ltb_spec (q / 4 + 1) 1); [lia|]. f_equal. lia. Qed.
Lemma text_same e F p n : Forall sound_word F -> 0 <= p -> text_bytes F p (Z.of_nat n) -> firstn n (skipn (Z.to_nat p) (image e F)) = raw F p n.
Proof.
  intros S P T. apply nth_error_ext. intros i. unfold raw. rewrite !nth_firstn, !nth_skipn. destruct (Nat.ltb_spec i n); [|reflexivity].
  rewrite !image_byte by auto. specialize (T (p + Z.of_nat i)). rewrite at_byte in T by lia.
  replace (Z.to_nat (p + Z.of_nat i)) with (Z.to_nat p + i)%nat in T by lia.
  destruct (nth_error F ((Z.to_nat p + i) / 4)) as [[z|b]|]; [exfalso; apply (T z); [lia|reflexivity]| |]; reflexivity.
Qed.
Lemma number_word e z : 0 <= z < 4294967296 -> dec_uint e (SpecByteOrder.stored e (Num z)) = z.
Proof.
  intros H. assert (A : z / 65536 = z / 256 / 256) by (rewrite Z.div_div by lia; reflexivity).
  assert (B : z / 16777216 = z / 256 / 256 / 256) by (rewrite !Z.div_div by lia; reflexivity).
  destruct e; cbn [SpecByteOrder.stored dec_uint rev app le_dec]; rewrite A, B; generalize (z / 256) (Z.mod_eq z 256 ltac:(lia)); lia.
Qed.
Lemma number_at e F p z : Forall sound_word F -> 0 <= p -> p mod 4 = 0 -> at_word F (p / 4 + 1) = Some (Num z) ->
  dec_uint e (firstn 4 (skipn (Z.to_nat p) (image e F))) = unsigned F (p / 4 + 1).
Proof.
  intros S P M E. pose proof E as E'. rewrite at_byte in E' by auto. rewrite Forall_forall in S.
  replace (Z.to_nat p) with (4 * (Z.to_nat p / 4))%nat by lia. rewrite (image_word e F ltac:(apply Forall_forall; auto) _ _ E').
  unfold unsigned. rewrite E. apply number_word. apply (S (Num z)). exact (nth_error_In _ _ E').
Qed.

(** ** Structs *)
Fixpoint fits (F : list word) (p : Z) (fmt : list fmtc) : Prop :=
  match fmt with
  | [] => True
  | FInt :: r | FFloat :: r => p mod 4 = 0 /\ numbers F (p / 4 + 1) 1 /\ fits F (p + 4) r
  | FStr n :: r => text_bytes F p (Z.of_nat n) /\ fits F (p + Z.of_nat n) r
  | FPad n :: r => fits F (p + Z.of_nat n) r
  | _ => False
  end.
Fixpoint view (F : list word) (p : Z) (fmt : list fmtc) : list pyval :=
  match fmt with
  | [] => []
  | FInt :: r => VInt (signed F (p / 4 + 1)) :: view F (p + 4) r
  | FFloat :: r => VFloat (f32_of_bits (unsigned F (p / 4 + 1))) :: view F (p + 4) r
  | FStr n :: r => VBytes (raw F p n) :: view F (p + Z.of_nat n) r
  | FPad n :: r => view F (p + Z.of_nat n) r
  | _ => []
  end.
Lemma skip_skip {A} (l : list A) p n : 0 <= p -> skipn n (skipn (Z.to_nat p) l) = skipn (Z.to_nat (p + Z.of_nat n)) l.
Proof. intros H. apply nth_error_ext. intros i. rewrite !nth_skipn. f_equal. lia. Qed.
Lemma word_there F p : 0 <= p -> p mod 4 = 0 -> p + 4 <= 4 * Zlen F -> numbers F (p / 4 + 1) 1 -> exists z, at_word F (p / 4 + 1) = Some (Num z).
Proof.
  intros P M L [_ N]. rewrite at_byte by auto. destruct (nth_error F (Z.to_nat p / 4)) as [[z|b]|] eqn:E; [eauto| |].
  - exfalso. apply (N (p / 4 + 1) b); [lia|]. rewrite at_byte by auto. exact E.
  - apply nth_error_None in E. unfold Zlen in L. lia.
Qed.
Lemma unpack_view e F : Forall sound_word F -> forall fmt p, 0 <= p -> fits F p fmt -> p + Z.of_nat (calcsize fmt) <= 4 * Zlen F ->
  unpack_vals e fmt (skipn (Z.to_nat p) (image e F)) = view F p fmt.
Proof.
  intros S. induction fmt as [|c r IH]; intros p P H L; [reflexivity|]. cbn [calcsize] in L.
  destruct c as [| | | |n|n]; cbn [fits] in H; cbn [unpack_vals view fmtc_size] in *; try easy.
  - destruct H as (M & N & R). destruct (word_there F p P M ltac:(lia) N) as [z E]. unfold unpack_item, unpack_i32.
    rewrite (number_at e F p z S P M E), skip_skip by lia. rewrite IH by (auto; lia). reflexivity.
  - destruct H as (M & N & R). destruct (word_there F p P M ltac:(lia) N) as [z E]. unfold unpack_item, unpack_f32.
    rewrite (number_at e F p z S P M E), skip_skip by lia. rewrite IH by (auto; lia). reflexivity.
  - destruct H as (T & R). unfold unpack_item. rewrite text_same by auto. rewrite skip_skip by lia. rewrite IH by (auto; lia). reflexivity.
  - rewrite skip_skip by lia. apply IH; auto; lia.
Qed.
Lemma rd_view e F fmt p : Forall sound_word F -> 0 <= p -> fits F p fmt ->
  rd_struct e fmt (image e F) p = if 4 * Zlen F - p <? Z.of_nat (calcsize fmt) then Err StructError else Ok (view F p fmt).
Proof.
  intros S P H. unfold rd_struct, struct_unpack_from. rewrite image_Zlen by auto. destruct (Z.ltb_spec p 0); [lia|].
  destruct (Z.ltb_spec (4 * Zlen F - p) (Z.of_nat (calcsize fmt))); [reflexivity|]. rewrite unpack_view by (auto; lia). reflexivity.
Qed.
Lemma uint_view e F w : Forall sound_word F -> numbers F w 1 -> rd_uint e (image e F) (word_to_position w) = unsigned F w.
Proof.
  intros S N. pose proof N as [W _]. unfold rd_uint, word_to_position. set (p := w * 4 - 4).
  assert (E : w = p / 4 + 1) by lia. destruct (Z.le_gt_cases w (Zlen F)) as [L|L].
  - destruct (word_there F p ltac:(lia) ltac:(lia) ltac:(lia)) as [z A]; [rewrite <- E; exact N|].
    rewrite py_slice_in by (rewrite ?image_Zlen by auto; lia). replace (p + 4 - p) with 4 by lia. rewrite E.
    apply (number_at e F p z); auto; lia.
  - unfold unsigned, at_word. destruct (Z.ltb_spec w 1); [lia|]. replace (nth_error F (Z.to_nat (w - 1))) with (@None word).
    + unfold py_slice, py_bound. rewrite image_Zlen by auto. destruct (Z.ltb_spec p 0); [lia|]. destruct (Z.ltb_spec (p + 4) 0); [lia|].
      rewrite !Z.min_r by lia. rewrite Z.sub_diag. destruct e; reflexivity.
    + symmetry. apply nth_error_None. unfold Zlen in L. lia.
Qed.
Lemma next_view e F w : Forall sound_word F -> 1 <= w -> rd_next (image e F) (word_to_position w) = word_to_position (w + if w <=? Zlen F then 1 else 0).
Proof.
  intros S W. unfold rd_next, word_to_position. destruct (Z.leb_spec w (Zlen F)).
  - rewrite py_slice_length by (rewrite ?image_Zlen by auto; lia). lia.
  - unfold py_slice, py_bound. rewrite image_Zlen by auto. destruct (Z.ltb_spec (w * 4 - 4) 0); [lia|]. destruct (Z.ltb_spec (w * 4 - 4 + 4) 0); [lia|].
    rewrite !Z.min_r by lia. rewrite Z.sub_diag. cbn. lia.
Qed.

(** no flag is read where there is none *)
Lemma flag_bytes e b : length b = 4%nat -> Forall (fun c => 0 <= c < 256) b -> dec_uint e b = 9999 -> b = [15; 39; 0; 0] \/ b = [0; 0; 39; 15].
Proof.
  intros L V. destruct b as [|b0 [|b1 [|b2 [|b3 [|]]]]]; try discriminate. repeat match goal with H : Forall _ (_ :: _) |- _ => inversion H; clear H; subst end.
  destruct e; cbn [dec_uint rev app le_dec]; intros E; [left|right].
  - assert (b0 = 15 /\ b1 = 39 /\ b2 = 0 /\ b3 = 0) as (-> & -> & -> & ->) by lia. reflexivity.
  - assert (b3 = 15 /\ b2 = 39 /\ b1 = 0 /\ b0 = 0) as (-> & -> & -> & ->) by lia. reflexivity.
Qed.
Lemma uint_other e F w : Forall sound_word F -> 1 <= w -> no_flag (at_word F w) -> rd_uint e (image e F) (word_to_position w) <> 9999.
Proof.
  intros S W N. destruct (at_word F w) as [[z|b]|] eqn:A.
  - rewrite uint_view; [unfold unsigned; rewrite A; exact N|exact S|]. split; [exact W|]. intros j b J. replace j with w by lia. rewrite A. discriminate.
  - pose proof A as A'. unfold at_word in A'. destruct (Z.ltb_spec w 1); [lia|]. assert (LW : w <= Zlen F) by (assert (nth_error F (Z.to_nat (w - 1)) <> None) as X by (rewrite A'; discriminate); apply nth_error_Some in X; unfold Zlen; lia).
    unfold rd_uint, word_to_position. rewrite py_slice_in by (rewrite ?image_Zlen by auto; lia).
    replace (w * 4 - 4 + 4 - (w * 4 - 4)) with 4 by lia. replace (Z.to_nat (w * 4 - 4)) with (4 * Z.to_nat (w - 1))%nat by lia. change (Z.to_nat 4) with 4%nat.
    rewrite (image_word e F S _ _ A'). cbn [SpecByteOrder.stored]. intros E. rewrite Forall_forall in S. destruct (S _ (nth_error_In _ _ A')) as [L V].
    destruct N as [N1 N2]. destruct (flag_bytes e b L V E); contradiction.
  - rewrite uint_view; [unfold unsigned; rewrite A; lia|exact S|]. split; [exact W|]. intros j b J. replace j with w by lia. rewrite A. discriminate.
Qed.

(** ** What fits *)
Lemma numbers_part F i n j m : numbers F i n -> i <= j -> j + m <= i + n -> numbers F j m.
Proof. intros [W N] A B. split; [lia|]. intros k b H. apply N. lia. Qed.
Lemma texts_part F i n j m : texts F i n -> i <= j -> j + m <= i + n -> texts F j m.
Proof. intros [W N] A B. split; [lia|]. intros k b H. apply N. lia. Qed.
Lemma fits_app F a b p : fits F p a -> fits F (p + Z.of_nat (calcsize a)) b -> fits F p (a ++ b).
Proof.
  revert p. induction a as [|c a IH]; intros p A B; [cbn in B; rewrite Z.add_0_r in B; exact B|].
  destruct c; cbn [fits app calcsize fmtc_size] in *; try easy;
    repeat match goal with H : _ /\ _ |- _ => destruct H end; try (split; [assumption|]); try (split; [assumption|]); apply IH; auto;
    match goal with B : fits F ?x b |- fits F ?y b => replace y with x by lia; exact B end.
Qed.
Lemma fits_num F w c n : c = FInt \/ c = FFloat -> numbers F w n -> fits F (w * 4 - 4) (repeat c (Z.to_nat n)).
Proof.
  intros C N. destruct (Z.le_gt_cases n 0) as [L|L]; [replace (Z.to_nat n) with 0%nat by lia; exact I|].
  assert (G : forall k w, numbers F w (Z.of_nat k) -> fits F (w * 4 - 4) (repeat c k)).
  { clear - C. induction k as [|k IH]; intros w N; [exact I|]. cbn [repeat].
    assert (X : (w * 4 - 4) mod 4 = 0 /\ numbers F ((w * 4 - 4) / 4 + 1) 1 /\ fits F (w * 4 - 4 + 4) (repeat c k)).
    { split; [lia|]. split; [apply (numbers_part _ _ _ _ _ N); lia|]. replace (w * 4 - 4 + 4) with ((w + 1) * 4 - 4) by lia. apply IH.
      apply (numbers_part _ _ _ _ _ N); lia. }
    destruct C as [-> | ->]; exact X. }
  apply G. replace (Z.of_nat (Z.to_nat n)) with n by lia. exact N.
Qed.
Lemma text_words F w n : texts F w n -> text_bytes F (w * 4 - 4) (4 * n).
Proof. intros [W T] q z H. apply T. lia. Qed.
Lemma fits_str F w n : texts F w n -> fits F (w * 4 - 4) (repeat (FStr 4) (Z.to_nat n)).
Proof.
  intros N. destruct (Z.le_gt_cases n 0) as [L|L]; [replace (Z.to_nat n) with 0%nat by lia; exact I|].
  assert (G : forall k w, texts F w (Z.of_nat k) -> fits F (w * 4 - 4) (repeat (FStr 4) k)).
  { clear. induction k as [|k IH]; intros w N; [exact I|]. cbn [repeat fits]. split.
    - apply (text_words F w 1). apply (texts_part _ _ _ _ _ N); lia.
    - replace (w * 4 - 4 + Z.of_nat 4) with ((w + 1) * 4 - 4) by lia. apply IH. apply (texts_part _ _ _ _ _ N); lia. }
  apply G. replace (Z.of_nat (Z.to_nat n)) with n by lia. exact N.
Qed.
