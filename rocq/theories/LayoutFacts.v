(** Lemmas about Words.v and Layout.v. *)
From Coq Require Import Lia ZifyBool ZifyNat.
From Verif Require Import Base BaseFacts Words Layout.
Ltac Zify.zify_post_hook ::= Z.div_mod_to_equations.

Lemma word_position_inverse w : position_to_word (word_to_position w) = w.
Proof. unfold position_to_word, word_to_position. lia. Qed.

Lemma position_in_word p :
  word_to_position (position_to_word p) <= p < word_to_position (position_to_word p) + 4.
Proof. unfold position_to_word, word_to_position. lia. Qed.

Lemma position_word_unique p w :
  word_to_position w <= p < word_to_position w + 4 -> w = position_to_word p.
Proof. unfold position_to_word, word_to_position. lia. Qed.

Lemma word_to_position_mono w1 w2 : w1 < w2 -> word_to_position w1 + 4 <= word_to_position w2.
Proof. unfold word_to_position. lia. Qed.

Lemma dmword_spec w r s : dmword w = (r, s) ->
  w = (r - 1) * 128 + s /\ 1 <= s <= 128.
Proof. unfold dmword, MBLKSZ. intros H. injection H as <- <-. lia. Qed.

Lemma record_start_spec w :
  w <= record_start w < w + 128 /\ record_start w mod 128 = 1.
Proof.
  unfold record_start, dmword, MBLKSZ.
  destruct (Z.eqb_spec (w - ((w - 1) / 128 + 1 - 1) * 128) 1); cbn [negb]; lia.
Qed.

Lemma fold_add_acc l a : fold_left Z.add l a = a + fold_left Z.add l 0.
Proof.
  revert a; induction l as [|x l IH]; intros a; cbn [fold_left]; [lia|].
  rewrite IH, (IH (0 + x)). lia.
Qed.

Lemma fold_add1_acc l a :
  fold_left (fun a l => a + (l + 1)) l a = a + fold_left (fun a l => a + (l + 1)) l 0.
Proof.
  revert a; induction l as [|x l IH]; intros a; cbn [fold_left]; [lia|].
  rewrite IH, (IH (0 + (x + 1))). lia.
Qed.

Lemma fold_add_nonneg l : Forall (fun x => 0 <= x) l -> 0 <= fold_left Z.add l 0.
Proof.
  induction 1 as [|x l Hx _ IH]; cbn [fold_left]; [lia|]. rewrite fold_add_acc. lia.
Qed.
Lemma fold_add1_nonneg l : Forall (fun x => 0 <= x) l ->
  0 <= fold_left (fun a l => a + (l + 1)) l 0.
Proof.
  induction 1 as [|x l Hx _ IH]; cbn [fold_left]; [lia|]. rewrite fold_add1_acc. lia.
Qed.
