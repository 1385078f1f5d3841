(** Lemmas about byte streams: what is in the buffer after a sequence of writes, and what a
    reader finds there. *)
From Coq Require Import Lia ZifyBool ZifyNat.
From Verif Require Import Base BaseFacts Words Layout LayoutFacts Floats FloatsFacts Structs StructsFacts
  Strings StringsFacts Headers HeadersFacts DmFile.
Ltac Zify.zify_post_hook ::= Z.div_mod_to_equations.

(** [bs] is at byte position [p] of [buf]. *)
Definition has_at (buf : bytes) (p : Z) (bs : bytes) : Prop :=
  0 <= p /\ p + Zlen bs <= Zlen buf /\
  forall i, (i < length bs)%nat -> nth_error buf (Z.to_nat p + i) = nth_error bs i.

Lemma nth_error_ext {A} (l1 l2 : list A) : (forall i, nth_error l1 i = nth_error l2 i) -> l1 = l2.
Proof.
  revert l2; induction l1 as [|x l1 IH]; intros [|y l2] H; [reflexivity| | |].
  - specialize (H O); discriminate.
  - specialize (H O); discriminate.
  - f_equal; [specialize (H O); cbn in H; congruence|]. apply IH. intros i. exact (H (S i)).
Qed.
Lemma nth_error_skipn' {A} n (l : list A) i : nth_error (skipn n l) i = nth_error l (n + i).
Proof. revert l; induction n as [|n IH]; intros [|x l]; cbn; try reflexivity; [destruct i; reflexivity|apply IH]. Qed.
Lemma nth_error_firstn' {A} n (l : list A) i : (i < n)%nat -> nth_error (firstn n l) i = nth_error l i.
Proof.
  revert n i; induction l as [|x l IH]; intros [|n] [|i] H; cbn; try reflexivity; try lia.
  apply IH. lia.
Qed.
Lemma nth_error_repeat' {A} (x : A) n i : (i < n)%nat -> nth_error (repeat x n) i = Some x.
Proof. revert i; induction n as [|n IH]; intros [|i] H; cbn; try lia; [reflexivity|]. apply IH. lia. Qed.

Lemma overwrite_length buf p d : d <> [] -> length (overwrite buf p d) = Nat.max (length buf) (p + length d).
Proof.
  intros H. unfold overwrite. destruct d as [|x d]; [congruence|].
  rewrite !app_length, firstn_length, repeat_length, skipn_length. lia.
Qed.
Lemma overwrite_nth buf p d i : d <> [] ->
  nth_error (overwrite buf p d) i =
    if (i <? p)%nat then (if (i <? length buf)%nat then nth_error buf i else Some 0)
    else if (i <? p + length d)%nat then nth_error d (i - p) else nth_error buf i.
Proof.
  intros H. unfold overwrite. destruct d as [|x d]; [congruence|]. set (dd := x :: d) in *.
  destruct (Nat.ltb_spec i p).
  - destruct (Nat.ltb_spec i (length buf)).
    + rewrite nth_error_app1 by (rewrite firstn_length; lia). apply nth_error_firstn'. lia.
    + rewrite nth_error_app2 by (rewrite firstn_length; lia). rewrite firstn_length.
      rewrite nth_error_app1 by (rewrite repeat_length; lia). apply nth_error_repeat'. lia.
  - rewrite nth_error_app2 by (rewrite firstn_length; lia).
    rewrite nth_error_app2 by (rewrite firstn_length, repeat_length; lia).
    rewrite firstn_length, repeat_length.
    replace (i - Nat.min p (length buf) - (p - length buf))%nat with (i - p)%nat by lia.
    destruct (Nat.ltb_spec i (p + length dd)).
    + apply nth_error_app1. lia.
    + rewrite nth_error_app2 by lia. rewrite nth_error_skipn'. f_equal. lia.
Qed.

Lemma overwrite_has buf p d : 0 <= p -> d <> [] -> has_at (overwrite buf (Z.to_nat p) d) p d.
Proof.
  intros Hp Hd. split; [lia|]. split.
  - unfold Zlen. rewrite overwrite_length by assumption. lia.
  - intros i Hi. rewrite overwrite_nth by assumption.
    destruct (Nat.ltb_spec (Z.to_nat p + i) (Z.to_nat p)); [lia|].
    destruct (Nat.ltb_spec (Z.to_nat p + i) (Z.to_nat p + length d)); [|lia]. f_equal. lia.
Qed.

Definition apart (p : Z) (a : bytes) (q : Z) (b : bytes) : Prop :=
  p + Zlen a <= q \/ q + Zlen b <= p.

Lemma overwrite_keep buf p d q bs : 0 <= p -> has_at buf q bs -> apart q bs p d ->
  has_at (overwrite buf (Z.to_nat p) d) q bs.
Proof.
  intros Hp (H1 & H2 & H3) Ha. destruct d as [|x d]; [repeat split; assumption|].
  set (dd := x :: d) in *. assert (Hd : dd <> []) by discriminate. clearbody dd. unfold apart, Zlen in *.
  split; [lia|]. split.
  - unfold Zlen. rewrite overwrite_length by assumption. lia.
  - intros i Hi. rewrite overwrite_nth by assumption. rewrite <- (H3 i Hi).
    destruct (Nat.ltb_spec (Z.to_nat q + i) (Z.to_nat p)).
    + destruct (Nat.ltb_spec (Z.to_nat q + i) (length buf)); [reflexivity|lia].
    + destruct (Nat.ltb_spec (Z.to_nat q + i) (Z.to_nat p + length dd)); [lia|reflexivity].
Qed.

Lemma overwrite_overwrite buf p a b :
  overwrite (overwrite buf p a) (p + length a) b = overwrite buf p (a ++ b).
Proof.
  destruct a as [|x a]; [cbn [app length]; rewrite Nat.add_0_r; reflexivity|].
  set (aa := x :: a). assert (Ha : aa <> []) by discriminate. clearbody aa.
  destruct b as [|y b]; [rewrite app_nil_r; reflexivity|].
  set (bb := y :: b). assert (Hb : bb <> []) by discriminate. clearbody bb.
  assert (Hab : aa ++ bb <> []) by (destruct aa; [congruence|discriminate]).
  apply nth_error_ext. intros i. rewrite !overwrite_nth by assumption.
  rewrite overwrite_length by assumption. rewrite app_length.
  destruct (Nat.ltb_spec i p).
  - destruct (Nat.ltb_spec i (p + length aa)); [|lia].
    destruct (Nat.ltb_spec i (Nat.max (length buf) (p + length aa))); [reflexivity|lia].
  - destruct (Nat.ltb_spec i (p + length aa)).
    + destruct (Nat.ltb_spec i (Nat.max (length buf) (p + length aa))); [|lia].
      destruct (Nat.ltb_spec i (p + (length aa + length bb))); [|lia].
      rewrite nth_error_app1 by lia. reflexivity.
    + destruct (Nat.ltb_spec i (p + length aa + length bb));
        destruct (Nat.ltb_spec i (p + (length aa + length bb))); try lia; [|reflexivity].
      rewrite nth_error_app2 by lia. f_equal. lia.
Qed.

Lemma st_write_write a b s : 0 <= st_pos s -> st_write b (st_write a s) = st_write (a ++ b) s.
Proof.
  intros H. unfold st_write. cbn [st_buf st_pos]. f_equal.
  - rewrite <- overwrite_overwrite. f_equal. unfold Zlen. lia.
  - rewrite Zlen_app. lia.
Qed.
Lemma st_write_nil s : st_write [] s = s.
Proof. destruct s as [b p]. unfold st_write. cbn. rewrite Z.add_0_r. reflexivity. Qed.
Lemma st_write_pos d s : 0 <= st_pos s -> 0 <= st_pos (st_write d s).
Proof. intros H. unfold st_write. cbn. pose proof (Zlen_nonneg d). lia. Qed.

(** Sequential word writers are one write of the concatenation. *)
Lemma foldM_words {A} (enc : A -> res bytes) l s : 0 <= st_pos s ->
  foldM (fun s x => b <- enc x ;; Ok (st_write b s)) l s =
  (ws <- mapM enc l ;; Ok (st_write (concat ws) s)).
Proof.
  revert s; induction l as [|x l IH]; intros s Hs; cbn [foldM mapM].
  - cbn. rewrite st_write_nil. reflexivity.
  - destruct (enc x) as [b|]; cbn [bind]; [|reflexivity].
    rewrite IH by (apply st_write_pos; assumption).
    destruct (mapM enc l); cbn [bind concat]; [|reflexivity]. rewrite st_write_write by assumption. reflexivity.
Qed.
Lemma st_strings_eq l s : 0 <= st_pos s ->
  st_strings l s = (ws <- mapM word_of_str l ;; Ok (st_write (concat ws) s)).
Proof. apply (foldM_words word_of_str). Qed.
Lemma st_ints_eq e l s : 0 <= st_pos s ->
  st_ints e l s = (ws <- mapM (pack_i32 e) l ;; Ok (st_write (concat ws) s)).
Proof. apply (foldM_words (pack_i32 e)). Qed.
Lemma st_floats_eq e l s : 0 <= st_pos s ->
  st_floats e l s = (ws <- mapM (pack_f32 e) l ;; Ok (st_write (concat ws) s)).
Proof. apply (foldM_words (pack_f32 e)). Qed.
Lemma write_words_eq ws s : 0 <= st_pos s -> write_words ws s = st_write (concat ws) s.
Proof.
  unfold write_words. revert s; induction ws as [|w ws IH]; intros s Hs; cbn [fold_left concat].
  - symmetry. apply st_write_nil.
  - rewrite IH by (apply st_write_pos; assumption). apply st_write_write; assumption.
Qed.

(** Lists of words *)
Definition word_list (ws : list bytes) : Prop := Forall (fun w => length w = 4%nat) ws.
Lemma word_list_concat ws : word_list ws -> Zlen (concat ws) = 4 * Zlen ws.
Proof.
  induction 1 as [|w ws H _ IH]; [reflexivity|]. cbn [concat]. rewrite Zlen_app, Zlen_cons, IH.
  assert (Zlen w = 4) by (unfold Zlen; lia). lia.
Qed.
Lemma word_list_app a b : word_list a -> word_list b -> word_list (a ++ b).
Proof. intros. apply Forall_app. split; assumption. Qed.
Lemma mapM_word_list {A} (enc : A -> res bytes) l ws :
  (forall x b, enc x = Ok b -> length b = 4%nat) -> mapM enc l = Ok ws -> word_list ws /\ Zlen ws = Zlen l.
Proof.
  intros H E. split; [|unfold Zlen; apply mapM_ok_length in E; lia].
  apply mapM_ok_Forall2 in E. induction E; constructor; eauto.
Qed.
Lemma ints_words e l ws : mapM (pack_i32 e) l = Ok ws -> word_list ws /\ Zlen ws = Zlen l.
Proof. apply mapM_word_list. intros x b. apply pack_i32_length. Qed.
Lemma strings_words l ws : mapM word_of_str l = Ok ws -> word_list ws /\ Zlen ws = Zlen l.
Proof. apply mapM_word_list. intros x b. apply word_of_str_length. Qed.
Lemma floats_words e l ws : mapM (pack_f32 e) l = Ok ws -> word_list ws /\ Zlen ws = Zlen l.
Proof. apply mapM_word_list. intros x b. apply pack_f32_length. Qed.

(** ** Logs of writes *)
Definition replay (log : list (Z * bytes)) (buf : bytes) : bytes :=
  fold_left (fun b '(p, d) => overwrite b (Z.to_nat p) d) log buf.
Lemma replay_app l1 l2 b : replay (l1 ++ l2) b = replay l2 (replay l1 b).
Proof. unfold replay. apply fold_left_app. Qed.
Lemma replay_keep log buf q bs : has_at buf q bs ->
  Forall (fun '(p, d) => 0 <= p /\ apart q bs p d) log -> has_at (replay log buf) q bs.
Proof.
  revert buf; induction log as [|[p d] log IH]; intros buf H F; [exact H|].
  inversion F as [|? ? F12 F3]; subst. destruct F12 as [F1 F2]. cbn [replay fold_left]. apply IH; [|assumption].
  apply overwrite_keep; assumption.
Qed.
Lemma replay_has l1 p bs l2 buf : 0 <= p -> bs <> [] ->
  Forall (fun '(q, d) => 0 <= q /\ apart p bs q d) l2 ->
  has_at (replay (l1 ++ (p, bs) :: l2) buf) p bs.
Proof.
  intros Hp Hb F. rewrite replay_app. cbn [replay fold_left]. apply replay_keep; [|exact F].
  apply overwrite_has; assumption.
Qed.

(** ** Reading *)
Lemma has_at_skipn d p bs : has_at d p bs -> exists tl, skipn (Z.to_nat p) d = bs ++ tl.
Proof.
  intros (H1 & H2 & H3). exists (skipn (Z.to_nat p + length bs) d).
  apply nth_error_ext. intros i. rewrite nth_error_skipn'. unfold Zlen in *.
  destruct (Nat.ltb_spec i (length bs)) as [H|H].
  - rewrite nth_error_app1 by lia. apply H3. assumption.
  - rewrite nth_error_app2 by lia. rewrite nth_error_skipn'. f_equal. lia.
Qed.
Lemma has_at_app d p a b : has_at d p (a ++ b) -> has_at d p a /\ has_at d (p + Zlen a) b.
Proof.
  intros (H1 & H2 & H3). rewrite Zlen_app in H2. pose proof (Zlen_nonneg a). pose proof (Zlen_nonneg b).
  split; (split; [lia|]; split; [lia|]); intros i Hi.
  - rewrite H3 by (rewrite app_length; lia). apply nth_error_app1. assumption.
  - replace (Z.to_nat (p + Zlen a) + i)%nat with (Z.to_nat p + (length a + i))%nat by (unfold Zlen; lia).
    rewrite H3 by (rewrite app_length; lia). rewrite nth_error_app2 by lia. f_equal. lia.
Qed.
(** Element k of a list of words. *)
Lemma has_at_word d p ws k w : word_list ws -> has_at d p (concat ws) -> nth_error ws k = Some w ->
  has_at d (p + 4 * Z.of_nat k) w.
Proof.
  revert p k; induction ws as [|x ws IH]; intros p k HW HA HN; [destruct k; discriminate|].
  inversion HW as [|? ? Hx HW']; subst. cbn [concat] in HA. apply has_at_app in HA as [A1 A2].
  destruct k as [|k]; cbn [nth_error] in HN.
  - injection HN as ->. rewrite Z.mul_0_r, Z.add_0_r. exact A1.
  - replace (p + 4 * Z.of_nat (S k)) with (p + Zlen x + 4 * Z.of_nat k) by (unfold Zlen; lia).
    apply IH; assumption.
Qed.

Lemma rd_struct_has e fmt d p vals bs : struct_pack e fmt vals = Ok bs -> has_at d p bs ->
  rd_struct e fmt d p = Ok (stored_vals fmt vals).
Proof.
  intros H HA. apply struct_pack_spec in H as [H1 H2]. destruct (has_at_skipn _ _ _ HA) as [tl E].
  destruct HA as (A1 & A2 & _). unfold rd_struct, struct_unpack_from.
  destruct (Z.ltb_spec p 0); [lia|]. unfold Zlen in *.
  destruct (Z.ltb_spec (Z.of_nat (length d) - p) (Z.of_nat (calcsize fmt))); [lia|].
  rewrite E, H2. reflexivity.
Qed.
Lemma rd_uint_has e d p w : length w = 4%nat -> has_at d p w -> rd_uint e d p = dec_uint e w.
Proof.
  intros L HA. destruct (has_at_skipn _ _ _ HA) as [tl E]. destruct HA as (A1 & A2 & _).
  unfold rd_uint. unfold Zlen in A2. rewrite py_slice_in by (unfold Zlen; lia).
  replace (Z.to_nat (p + 4 - p)) with 4%nat by lia. rewrite E. rewrite firstn_app_exact by exact L. reflexivity.
Qed.
Lemma rd_next_word d p w : has_at d p w -> length w = 4%nat -> rd_next d p = p + 4.
Proof.
  intros (A1 & A2 & _) L. unfold rd_next. unfold Zlen in A2. rewrite py_slice_in by (unfold Zlen; lia).
  unfold Zlen. rewrite firstn_length, skipn_length. lia.
Qed.
Lemma rd_uint_int e d p z w : pack_i32 e z = Ok w -> 0 <= z -> has_at d p w -> rd_uint e d p = z.
Proof.
  intros H Hz HA. pose proof (pack_i32_length _ _ _ H) as L. rewrite (rd_uint_has e d p w L HA).
  apply pack_i32_ok in H as [H ->]. rewrite dec_enc_uint. change (256 ^ Z.of_nat 4) with two32.
  unfold in_i32, two31 in H. unfold two32. rewrite !Z.mod_small; lia.
Qed.
