(** Lemmas about Structs.v: packing then unpacking. *)
From Coq Require Import Lia ZifyBool ZifyNat.
From Verif Require Import Base BaseFacts Floats FloatsFacts Structs.
Ltac Zify.zify_post_hook ::= Z.div_mod_to_equations.

(** What a struct stores for a value: floats rounded to 32 bits, strings fitted. *)
Definition stored (c : fmtc) (v : pyval) : pyval :=
  match c, v with
  | FFloat, VFloat f => VFloat (np32 f)
  | FFloat, VInt z => VFloat (np32 (of_Z z))
  | FStr n, VBytes b => VBytes (fit n b)
  | _, _ => v
  end.
Fixpoint stored_vals (fmt : list fmtc) (vals : list pyval) : list pyval :=
  match fmt with
  | [] => []
  | FPad _ :: r => stored_vals r vals
  | c :: r => match vals with [] => [] | v :: vs => stored c v :: stored_vals r vs end
  end.

Lemma fit_length n b : length (fit n b) = n.
Proof. unfold fit. rewrite app_length, firstn_length, repeat_length. lia. Qed.

Lemma fit_exact n b : length b = n -> fit n b = b.
Proof. intros <-. unfold fit. rewrite firstn_all, Nat.sub_diag, app_nil_r. reflexivity. Qed.

Lemma fit_idem n b : fit n (fit n b) = fit n b.
Proof. apply fit_exact, fit_length. Qed.

Lemma pack_item_length e c v bs : pack_item e c v = Ok bs -> length bs = fmtc_size c.
Proof.
  unfold pack_item. destruct c, v; intros H; try discriminate; cbn [fmtc_size].
  - apply pack_i32_length in H; exact H.
  - apply pack_f32_length in H; exact H.
  - apply pack_f32_length in H; exact H.
  - destruct (_ && _); inv_ok; reflexivity.
  - destruct (_ && _); inv_ok; reflexivity.
  - inv_ok. apply fit_length.
Qed.

Lemma unpack_pack_item e c v bs : pack_item e c v = Ok bs -> unpack_item e c bs = stored c v.
Proof.
  unfold pack_item. destruct c, v; intros H; try discriminate; cbn [unpack_item stored].
  - apply unpack_pack_i32 in H. rewrite H. reflexivity.
  - apply unpack_pack_f32 in H. apply np32_of_to32 in H. rewrite H. reflexivity.
  - apply unpack_pack_f32 in H. apply np32_of_to32 in H. rewrite H. reflexivity.
  - destruct (_ && _) eqn:E; inv_ok. reflexivity.
  - destruct (_ && _) eqn:E; inv_ok. cbn [nth]. f_equal.
    destruct (Z.ltb_spec (z mod 256) 128); lia.
  - inv_ok. reflexivity.
Qed.

Lemma firstn_app_exact {A} (l1 l2 : list A) n : length l1 = n -> firstn n (l1 ++ l2) = l1.
Proof. intros <-. rewrite firstn_app, firstn_all, Nat.sub_diag. cbn. apply app_nil_r. Qed.
Lemma skipn_app_exact {A} (l1 l2 : list A) n : length l1 = n -> skipn n (l1 ++ l2) = l2.
Proof. intros <-. rewrite skipn_app, skipn_all, Nat.sub_diag. reflexivity. Qed.

Lemma struct_pack_spec e fmt vals bs : struct_pack e fmt vals = Ok bs ->
  length bs = calcsize fmt /\ forall tail, unpack_vals e fmt (bs ++ tail) = stored_vals fmt vals.
Proof.
  revert vals bs; induction fmt as [|c fmt IH]; intros vals bs H.
  - cbn in H. destruct vals; inv_ok. split; reflexivity.
  - assert (D : (exists n, c = FPad n) \/ (forall n, c <> FPad n)).
    { destruct c; try (right; intros; discriminate). left; eauto. }
    destruct D as [[n ->]|Hn].
    + cbn [struct_pack] in H. inv_ok. apply IH in H as [H1 H2].
      cbn [calcsize fmtc_size unpack_vals stored_vals]. split.
      * rewrite app_length, repeat_length. lia.
      * intros tail. rewrite <- app_assoc, skipn_app_exact by apply repeat_length. apply H2.
    + assert (HH : exists v vs a b, vals = v :: vs /\ pack_item e c v = Ok a /\
                 struct_pack e fmt vs = Ok b /\ bs = a ++ b).
      { destruct c; cbn [struct_pack] in H; try (exfalso; eapply Hn; reflexivity);
        destruct vals; try discriminate; inv_ok; do 4 eexists; eauto. }
      destruct HH as (v & vs & a & b & -> & Ha & Hb & ->).
      apply IH in Hb as [H1 H2].
      pose proof (pack_item_length _ _ _ _ Ha) as La.
      split.
      * cbn [calcsize]. rewrite app_length. lia.
      * intros tail. rewrite <- app_assoc.
        assert (E : unpack_vals e (c :: fmt) (a ++ b ++ tail) =
                    unpack_item e c (firstn (fmtc_size c) (a ++ b ++ tail)) ::
                    unpack_vals e fmt (skipn (fmtc_size c) (a ++ b ++ tail)))
          by (destruct c; try reflexivity; exfalso; eapply Hn; reflexivity).
        assert (E2 : stored_vals (c :: fmt) (v :: vs) = stored c v :: stored_vals fmt vs)
          by (destruct c; try reflexivity; exfalso; eapply Hn; reflexivity).
        rewrite E, E2, firstn_app_exact, skipn_app_exact by exact La.
        rewrite H2, (unpack_pack_item _ _ _ _ Ha). reflexivity.
Qed.

Lemma struct_pack_length e fmt vals bs : struct_pack e fmt vals = Ok bs -> length bs = calcsize fmt.
Proof. intros H. apply struct_pack_spec in H. tauto. Qed.

Lemma struct_unpack_pack e fmt vals bs : struct_pack e fmt vals = Ok bs ->
  struct_unpack e fmt bs = Ok (stored_vals fmt vals).
Proof.
  intros H. apply struct_pack_spec in H as [H1 H2]. unfold struct_unpack.
  rewrite H1, Nat.eqb_refl. specialize (H2 []). rewrite app_nil_r in H2. rewrite H2. reflexivity.
Qed.

(** unpack_vals reads only the first calcsize bytes *)
Lemma unpack_vals_firstn e fmt l : unpack_vals e fmt (firstn (calcsize fmt) l) = unpack_vals e fmt l.
Proof.
  revert l; induction fmt as [|c fmt IH]; intros l; [reflexivity|].
  assert (S : forall k n (l : bytes), skipn k (firstn (k + n) l) = firstn n (skipn k l)).
  { clear. intros k n l. rewrite skipn_firstn_comm. f_equal. lia. }
  assert (F : forall k n (l : bytes), firstn k (firstn (k + n) l) = firstn k l).
  { clear. intros k n l. rewrite firstn_firstn. f_equal. lia. }
  destruct c; cbn [calcsize unpack_vals];
    rewrite ?F, S, IH; reflexivity.
Qed.

(** number of values a format consumes/produces *)
Fixpoint nvals (fmt : list fmtc) : nat :=
  match fmt with [] => 0 | FPad _ :: r => nvals r | _ :: r => S (nvals r) end%nat.

Lemma struct_pack_nvals e fmt vals bs : struct_pack e fmt vals = Ok bs -> length vals = nvals fmt.
Proof.
  revert vals bs; induction fmt as [|c fmt IH]; intros vals bs H.
  - cbn in H. destruct vals; [reflexivity|discriminate].
  - destruct c; cbn [struct_pack nvals] in *; try (destruct vals; [discriminate|]); inv_ok;
      try (cbn [length]; f_equal); eauto.
Qed.

Lemma unpack_vals_length e fmt l : length (unpack_vals e fmt l) = nvals fmt.
Proof.
  revert l; induction fmt as [|c fmt IH]; intros l; [reflexivity|].
  destruct c; cbn [unpack_vals nvals length]; rewrite IH; reflexivity.
Qed.

Lemma stored_vals_length fmt vals : length vals = nvals fmt -> length (stored_vals fmt vals) = nvals fmt.
Proof.
  revert vals; induction fmt as [|c fmt IH]; intros vals H; [reflexivity|].
  destruct c; cbn [nvals stored_vals] in *; try (destruct vals; cbn [length] in *; [discriminate|]);
    try (f_equal; apply IH; lia); apply IH; exact H.
Qed.

Lemma calcsize_app f g : calcsize (f ++ g) = (calcsize f + calcsize g)%nat.
Proof. induction f as [|c f IH]; cbn [app calcsize]; [reflexivity|]. rewrite IH. lia. Qed.

Lemma calcsize_repeat c n : calcsize (repeat c n) = (n * fmtc_size c)%nat.
Proof. induction n; cbn [repeat calcsize]; [reflexivity|]. rewrite IHn. lia. Qed.
