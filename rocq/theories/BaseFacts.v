(** Lemmas about Base.v. *)
From Coq Require Import Lia ZifyBool ZifyNat.
From Verif Require Import Base.
Ltac Zify.zify_post_hook ::= Z.div_mod_to_equations.

Lemma bind_ok {A B} (m : res A) (f : A -> res B) b :
  bind m f = Ok b -> exists a, m = Ok a /\ f a = Ok b.
Proof. destruct m; cbn; intros H; [eauto | discriminate]. Qed.

Lemma bind_assoc {A B C} (m : res A) (f : A -> res B) (g : B -> res C) :
  bind (bind m f) g = bind m (fun a => bind (f a) g).
Proof. destruct m; reflexivity. Qed.

Ltac inv_ok :=
  repeat match goal with
  | H : bind _ _ = Ok _ |- _ => apply bind_ok in H; destruct H as (? & ? & ?)
  | H : Ok _ = Ok _ |- _ => injection H as H; try subst
  | H : Err _ = Ok _ |- _ => discriminate H
  end.

Lemma mapM_ok_length {A B} (f : A -> res B) l l' : mapM f l = Ok l' -> length l' = length l.
Proof.
  revert l'; induction l as [|x l IH]; cbn [mapM]; intros l' H; inv_ok; [reflexivity|].
  cbn. f_equal. auto.
Qed.

Lemma mapM_ok_Forall2 {A B} (f : A -> res B) l l' :
  mapM f l = Ok l' <-> Forall2 (fun x y => f x = Ok y) l l'.
Proof.
  revert l'; induction l as [|x l IH]; cbn [mapM]; intros l'; split; intros H.
  - inv_ok. constructor.
  - inversion H; reflexivity.
  - inv_ok. constructor; [assumption|]. apply IH. assumption.
  - inversion H; subst. rewrite H2. cbn. apply IH in H4. rewrite H4. reflexivity.
Qed.

Lemma mapM_app {A B} (f : A -> res B) l1 l2 :
  mapM f (l1 ++ l2) = (a <- mapM f l1 ;; b <- mapM f l2 ;; Ok (a ++ b)).
Proof.
  induction l1 as [|x l1 IH]; cbn [mapM app].
  - cbn. destruct (mapM f l2); reflexivity.
  - rewrite IH. destruct (f x); cbn; [|reflexivity].
    destruct (mapM f l1); cbn; [|reflexivity].
    destruct (mapM f l2); cbn; reflexivity.
Qed.

Lemma mapM_ext {A B} (f g : A -> res B) l :
  (forall x, In x l -> f x = g x) -> mapM f l = mapM g l.
Proof.
  induction l as [|x l IH]; cbn [mapM]; intros H; [reflexivity|].
  rewrite (H x) by (left; reflexivity). rewrite IH; [reflexivity|].
  intros; apply H; right; assumption.
Qed.

Lemma mapM_map {A B C} (f : B -> res C) (g : A -> B) l :
  mapM f (map g l) = mapM (fun x => f (g x)) l.
Proof. induction l; cbn; [reflexivity|]. rewrite IHl. reflexivity. Qed.

Lemma mapM_pure {A B} (f : A -> B) l : mapM (fun x => Ok (f x)) l = Ok (map f l).
Proof. induction l; cbn; [reflexivity|]. rewrite IHl. reflexivity. Qed.

Lemma foldM_app {A S} (f : S -> A -> res S) l1 l2 s :
  foldM f (l1 ++ l2) s = (s' <- foldM f l1 s ;; foldM f l2 s').
Proof.
  revert s; induction l1 as [|x l1 IH]; cbn [foldM app]; intros s; [reflexivity|].
  destruct (f s x); cbn; [apply IH | reflexivity].
Qed.

(** Zlen *)
Lemma Zlen_nonneg {A} (l : list A) : 0 <= Zlen l.
Proof. unfold Zlen; lia. Qed.
Lemma Zlen_app {A} (l1 l2 : list A) : Zlen (l1 ++ l2) = Zlen l1 + Zlen l2.
Proof. unfold Zlen; rewrite app_length; lia. Qed.
Lemma Zlen_cons {A} (x : A) l : Zlen (x :: l) = 1 + Zlen l.
Proof. unfold Zlen; cbn [length]; lia. Qed.
Lemma Zlen_nil {A} : Zlen (@nil A) = 0.
Proof. reflexivity. Qed.
Lemma Zlen_map {A B} (f : A -> B) l : Zlen (map f l) = Zlen l.
Proof. unfold Zlen; rewrite map_length; reflexivity. Qed.
Lemma Zlen_rev {A} (l : list A) : Zlen (rev l) = Zlen l.
Proof. unfold Zlen; rewrite rev_length; reflexivity. Qed.
Lemma Zlen_repeat {A} (x : A) n : Zlen (repeat x n) = Z.of_nat n.
Proof. unfold Zlen; rewrite repeat_length; reflexivity. Qed.
Lemma Zlen_firstn {A} n (l : list A) : Zlen (firstn n l) = Z.min (Z.of_nat n) (Zlen l).
Proof. unfold Zlen; rewrite firstn_length; lia. Qed.
Lemma Zlen_skipn {A} n (l : list A) : Zlen (skipn n l) = Z.max 0 (Zlen l - Z.of_nat n).
Proof. unfold Zlen; rewrite skipn_length; lia. Qed.
Lemma Zlen_0_nil {A} (l : list A) : Zlen l = 0 -> l = [].
Proof. destruct l; [reflexivity|]. rewrite Zlen_cons; pose proof (Zlen_nonneg l); lia. Qed.
Lemma Zlen_length {A} (l : list A) : Z.to_nat (Zlen l) = length l.
Proof. unfold Zlen; lia. Qed.

#[export] Hint Rewrite @Zlen_app @Zlen_cons @Zlen_nil @Zlen_map @Zlen_rev @Zlen_repeat
  @Zlen_firstn @Zlen_skipn : zlen.

(** slices in range *)
Lemma py_slice_in {A} (l : list A) a b :
  0 <= a -> a <= b -> b <= Zlen l ->
  py_slice l a b = firstn (Z.to_nat (b - a)) (skipn (Z.to_nat a) l).
Proof.
  intros. unfold py_slice, py_bound.
  destruct (Z.ltb_spec a 0); [lia|]. destruct (Z.ltb_spec b 0); [lia|].
  rewrite !Z.min_l by lia. reflexivity.
Qed.

Lemma py_slice_length {A} (l : list A) a b :
  0 <= a -> a <= b -> b <= Zlen l -> Zlen (py_slice l a b) = b - a.
Proof. intros; rewrite py_slice_in by lia; autorewrite with zlen; lia. Qed.

(** integer encodings *)
Lemma le_enc_length n v : length (le_enc n v) = n.
Proof. revert v; induction n; cbn; intros; [reflexivity | f_equal; auto]. Qed.

Lemma le_enc_bytes n v : valid_bytes (le_enc n v) = true.
Proof.
  revert v; induction n as [|n IH]; intros v; cbn [le_enc valid_bytes forallb]; [reflexivity|].
  apply andb_true_intro; split; [unfold is_byte; lia | apply IH].
Qed.

Lemma le_dec_enc n v : le_dec (le_enc n v) = v mod (256 ^ Z.of_nat n).
Proof.
  revert v; induction n as [|n IH]; intros v.
  - cbn. rewrite Z.mod_1_r. reflexivity.
  - cbn [le_enc le_dec]. rewrite IH.
    rewrite Nat2Z.inj_succ, Z.pow_succ_r by lia.
    rewrite Z.rem_mul_r by (try apply Z.pow_nonzero; lia). lia.
Qed.

Lemma le_dec_range l : valid_bytes l = true -> 0 <= le_dec l < 256 ^ Zlen l.
Proof.
  induction l as [|b l IH]; intros H.
  - cbn. lia.
  - cbn [valid_bytes forallb] in H. apply andb_true_iff in H as [Hb Hl].
    specialize (IH Hl). unfold is_byte in Hb. cbn [le_dec]. rewrite Zlen_cons.
    rewrite Z.pow_add_r by (try apply Zlen_nonneg; lia). change (256 ^ 1) with 256. nia.
Qed.

Lemma le_enc_dec l : valid_bytes l = true -> le_enc (length l) (le_dec l) = l.
Proof.
  induction l as [|b l IH]; intros H; [reflexivity|].
  cbn [valid_bytes forallb] in H. apply andb_true_iff in H as [Hb Hl].
  specialize (IH Hl). unfold is_byte in Hb. cbn [length le_enc le_dec].
  replace ((b + 256 * le_dec l) mod 256) with b by lia.
  replace ((b + 256 * le_dec l) / 256) with (le_dec l) by lia.
  rewrite IH. reflexivity.
Qed.

Lemma enc_uint_length e n v : length (enc_uint e n v) = n.
Proof. destruct e; cbn; rewrite ?rev_length; apply le_enc_length. Qed.

Lemma valid_bytes_app l1 l2 : valid_bytes (l1 ++ l2) = valid_bytes l1 && valid_bytes l2.
Proof. apply forallb_app. Qed.
Lemma valid_bytes_rev l : valid_bytes (rev l) = valid_bytes l.
Proof.
  induction l as [|b l IH]; [reflexivity|]. cbn [rev]. rewrite valid_bytes_app, IH.
  cbn. rewrite andb_true_r. apply andb_comm.
Qed.
Lemma enc_uint_bytes e n v : valid_bytes (enc_uint e n v) = true.
Proof. destruct e; cbn; rewrite ?valid_bytes_rev; apply le_enc_bytes. Qed.

Lemma dec_enc_uint e n v : dec_uint e (enc_uint e n v) = v mod (256 ^ Z.of_nat n).
Proof. destruct e; cbn; rewrite ?rev_involutive; apply le_dec_enc. Qed.

Lemma dec_uint_range e l : valid_bytes l = true -> 0 <= dec_uint e l < 256 ^ Zlen l.
Proof.
  intros H; destruct e; cbn; [apply le_dec_range; exact H|].
  rewrite <- (Zlen_rev l). apply le_dec_range. rewrite valid_bytes_rev; exact H.
Qed.

Lemma dec_uint_swap e l : dec_uint e (rev l) = dec_uint (match e with LE => BE | BE => LE end) l.
Proof. destruct e; cbn; rewrite ?rev_involutive; reflexivity. Qed.

Lemma to_signed32_mod v : in_i32 v = true -> to_signed32 (v mod two32) = v.
Proof.
  unfold in_i32, to_signed32, two31, two32. intros H.
  destruct (Z.ltb_spec (v mod 4294967296) 2147483648); lia.
Qed.

Lemma to_signed32_range u : 0 <= u < two32 -> in_i32 (to_signed32 u) = true.
Proof.
  unfold in_i32, to_signed32, two31, two32. intros H.
  destruct (Z.ltb_spec u 2147483648); lia.
Qed.

Lemma to_signed32_inj u : 0 <= u < two32 -> (to_signed32 u) mod two32 = u.
Proof.
  unfold to_signed32, two31, two32. intros H.
  destruct (Z.ltb_spec u 2147483648); lia.
Qed.

Lemma pack_i32_ok e v b : pack_i32 e v = Ok b -> in_i32 v = true /\ b = enc_uint e 4 (v mod two32).
Proof. unfold pack_i32. destruct (in_i32 v); intros H; inv_ok; auto; discriminate. Qed.

Lemma unpack_pack_i32 e v b : pack_i32 e v = Ok b -> unpack_i32 e b = v.
Proof.
  intros H. apply pack_i32_ok in H as [H ->]. unfold unpack_i32. rewrite dec_enc_uint.
  change (256 ^ Z.of_nat 4) with two32. rewrite Z.mod_mod by (unfold two32; lia).
  apply to_signed32_mod; exact H.
Qed.

Lemma pack_i32_length e v b : pack_i32 e v = Ok b -> length b = 4%nat.
Proof. intros H. apply pack_i32_ok in H as [_ ->]. apply enc_uint_length. Qed.

Lemma byte_at_out l i : ~ (0 <= i < Zlen l) -> byte_at l i = 0.
Proof.
  unfold byte_at, Zlen. intros H. destruct (Z.ltb_spec i 0); [reflexivity|].
  apply nth_overflow. lia.
Qed.
