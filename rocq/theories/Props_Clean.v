(** Property C53 continued: what the clean-up of text does, for every text. *)
From Coq Require Import Lia ZifyBool.
From Verif Require Import Base Strings VgfBase VgfRead SpecClean.
From Coq Require Import List.
Import ListNotations.
Open Scope list_scope.
Open Scope Z_scope.

Lemma white_b c : uspace c = true <-> white c.
Proof. unfold uspace, is_space, between, white. cbn [In]. lia. Qed.
Lemma white_n c : uspace c = false <-> ~ white c.
Proof. rewrite <- white_b. destruct (uspace c); intuition congruence. Qed.

Lemma ulstrip_split s : exists a, s = a ++ ulstrip s /\ Forall white a /\ (forall c r, ulstrip s = c :: r -> ~ white c).
Proof.
  induction s as [|c s (a & E & W & H)]; [exists []; repeat split; [constructor|discriminate]|]. cbn [ulstrip].
  destruct (uspace c) eqn:U.
  - exists (c :: a). split; [cbn; f_equal; exact E|]. split; [constructor; [apply white_b, U|exact W]|exact H].
  - exists []. split; [reflexivity|]. split; [constructor|]. intros c' r [= <- _]. apply white_n, U.
Qed.
Lemma ulstrip_pass a t : Forall white a -> (forall c r, t = c :: r -> ~ white c) -> ulstrip (a ++ t) = t.
Proof.
  induction 1 as [|c a W _ IH]; intros H.
  - destruct t as [|c t]; [reflexivity|]. cbn. rewrite (proj2 (white_n c) (H c t eq_refl)). reflexivity.
  - cbn. rewrite (proj2 (white_b c) W). apply IH, H.
Qed.
Lemma Forall_rev_white a : Forall white a -> Forall white (rev a).
Proof. rewrite !Forall_forall. intros H x I. apply H, in_rev, I. Qed.
Lemma all_white_strip a : Forall white a -> ulstrip a = [].
Proof. intros W. rewrite <- (app_nil_r a). apply ulstrip_pass; [exact W|discriminate]. Qed.

Theorem C53_strip : forall s t, t = ustrip s <-> stripped s t.
Proof.
  intros s t. split.
  - intros ->. unfold ustrip. destruct (ulstrip_split s) as (a & E & W & H). set (m := ulstrip s) in *.
    destruct (ulstrip_split (rev m)) as (b & E2 & W2 & H2). set (u := ulstrip (rev m)) in *.
    assert (EM : m = rev u ++ rev b) by (rewrite <- rev_app_distr, <- E2, rev_involutive; reflexivity).
    exists a, (rev b). split; [rewrite <- EM; exact E|]. split; [exact W|]. split; [apply Forall_rev_white, W2|]. split.
    + intros c r EQ. apply (H c (r ++ rev b)). rewrite EM, EQ. reflexivity.
    + intros c r EQ. apply (H2 c (rev r)). rewrite <- (rev_involutive u), EQ, rev_app_distr. reflexivity.
  - intros (a & b & -> & WA & WB & H1 & H2). unfold ustrip. symmetry. destruct t as [|c t].
    + cbn [app]. rewrite (all_white_strip (a ++ b)) by (apply Forall_app; auto). reflexivity.
    + rewrite (ulstrip_pass a ((c :: t) ++ b) WA) by (intros c' r [= <- _]; exact (H1 c t eq_refl)).
      rewrite rev_app_distr, ulstrip_pass; [apply rev_involutive|apply Forall_rev_white, WB|].
      intros c' r EQ. apply (H2 c' (rev r)). rewrite <- (rev_involutive (c :: t)), EQ. reflexivity.
Qed.
Print Assumptions C53_strip.

Lemma dollars_broken n : forall s t, (length s <= n)%nat -> t = replace_dollars s <-> broken s t.
Proof.
  induction n as [|n IH]; intros s t L.
  { destruct s; [|cbn in L; lia]. split; [intros ->; constructor|inversion 1; reflexivity]. }
  destruct s as [|c s]; [split; [intros ->; constructor|inversion 1; reflexivity]|]. cbn [replace_dollars length] in *.
  assert (CH : (c <> 36 \/ forall r, s <> 36 :: r) -> t = c :: replace_dollars s <-> broken (c :: s) t).
  { intros N. split.
    - intros ->. constructor; [exact N|]. apply IH; [lia|reflexivity].
    - inversion 1; subst; [exfalso; destruct N as [N|N]; [lia|eapply N; reflexivity]|]. f_equal. apply IH; [lia|assumption]. }
  destruct (Z.eqb_spec c 36) as [->|NE]; [|apply CH; auto].
  destruct s as [|d s]; [apply CH; right; discriminate|].
  destruct (Z.eqb_spec d 36) as [->|NE]; [|apply CH; right; intros r [= X _]; auto].
  cbn [length] in L. split.
  - intros ->. constructor. apply IH; [lia|reflexivity].
  - inversion 1; subst; [f_equal; apply IH; [lia|assumption]|]. exfalso.
    match goal with X : _ \/ _ |- _ => destruct X as [X|X]; [lia|eapply X; reflexivity] end.
Qed.

(** The text of a text record is the stored text with its pairs of dollar signs as line breaks,
    without the white space at its ends. *)
Theorem C53_clean : forall s t, t = clean_text s <-> exists m, broken s m /\ stripped m t.
Proof.
  intros s t. unfold clean_text. rewrite C53_strip. split.
  - intros H. exists (replace_dollars s). split; [apply (dollars_broken (length s)); [lia|reflexivity]|exact H].
  - intros (m & B & S). apply (dollars_broken (length s)) in B; [|lia]. subst m. exact S.
Qed.
Print Assumptions C53_clean.

(** What precedes the first NUL *)
Theorem C53_terminator : forall s t, t = before_nul s <-> ~ In 0 t /\ (s = t \/ exists r, s = t ++ 0 :: r).
Proof.
  induction s as [|c s IH]; intros t; cbn [before_nul].
  - split; [intros ->; split; [intros []|auto]|]. intros (_ & [<-|(r & E)]); [reflexivity|destruct t; discriminate E].
  - destruct (Z.eqb_spec c 0) as [->|NE]; split.
    + intros ->. split; [intros []|]. right. exists s. reflexivity.
    + intros (N & [<-|(r & E)]); [exfalso; apply N; left; reflexivity|]. destruct t as [|d t]; [reflexivity|]. injection E as <- _. exfalso. apply N. left. reflexivity.
    + intros ->. destruct (proj1 (IH (before_nul s)) eq_refl) as (N & D). split; [intros [X|X]; auto|].
      destruct D as [D|(r & D)]; [left; rewrite <- D; reflexivity|right; exists r; cbn; rewrite <- D; reflexivity].
    + intros (N & D). destruct t as [|d t].
      { destruct D as [D|(r & D)]; [discriminate D|]. cbn in D. congruence. }
      assert (d = c /\ (s = t \/ exists r, s = t ++ 0 :: r)) as [-> D'].
      { destruct D as [D|(r & D)]; cbn in D; injection D as -> ->; eauto. }
      f_equal. apply IH. split; [intros X; apply N; right; exact X|exact D'].
Qed.
Print Assumptions C53_terminator.

(** ' a$$b$$$ ' gives 'a', a line break, 'b', a line break, '$' *)
Example C53_clean_ex : clean_text [32; 97; 36; 36; 98; 36; 36; 36; 32] = [97; 10; 98; 10; 36] /\ before_nul [97; 0; 98] = [97].
Proof. vm_compute. auto. Qed.
