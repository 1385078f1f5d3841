(** UTF-8: decoding gives back what was encoded, whatever follows. *)
From Coq Require Import Lia ZifyBool ZifyNat.
From Verif Require Import Base BaseFacts Floats Strings VgfBase.
From Coq Require Import List.
Import ListNotations.
Open Scope Z_scope.
Ltac Zify.zify_post_hook ::= Z.div_mod_to_equations.

(** Code points that have an encoding *)
Definition scalar (c : Z) : Prop := 0 <= c < 55296 \/ 57344 <= c < 1114112.
Definition text (s : str) : Prop := Forall scalar s.

Lemma char_step c r : scalar c -> exists b0 t, utf8_char c = Ok (b0 :: t) /\
  utf8_step b0 (t ++ r) = UChar c (S (length t)) /\ (b0 = 0 <-> c = 0) /\ Forall (fun b => b <> 0) t.
Proof.
  intros S. unfold utf8_char. destruct (Z.ltb_spec c 128).
  { exists c, []. unfold utf8_step. destruct (Z.ltb_spec c 128); [|lia]. repeat split; auto. }
  destruct (Z.ltb_spec c 2048).
  { exists (192 + c / 64), [128 + c mod 64]. split; [reflexivity|]. repeat split; [|lia|lia|repeat constructor; lia].
    unfold utf8_step, between, cont. cbn [app].
    destruct (Z.ltb_spec (192 + c / 64) 128); [lia|].
    replace ((194 <=? 192 + c / 64) && (192 + c / 64 <=? 223)) with true by lia.
    replace ((128 <=? 128 + c mod 64) && (128 + c mod 64 <=? 191)) with true by lia. cbn [length]. f_equal. lia. }
  destruct (Z.ltb_spec c 65536).
  { unfold between at 1. replace ((55296 <=? c) && (c <=? 57343)) with false by (unfold scalar in S; lia).
    exists (224 + c / 4096), [128 + c / 64 mod 64; 128 + c mod 64]. split; [reflexivity|]. repeat split; [|lia|lia|repeat constructor; lia].
    unfold utf8_step. cbn [app]. destruct (Z.ltb_spec (224 + c / 4096) 128); [lia|].
    replace (between 194 223 (224 + c / 4096)) with false by (unfold between; lia).
    replace (between 224 239 (224 + c / 4096)) with true by (unfold between; lia).
    replace (second_ok (224 + c / 4096) (128 + c / 64 mod 64)) with true.
    2: { unfold second_ok, between, cont, scalar in *. destruct (Z.eqb_spec (224 + c / 4096) 224); [lia|].
         destruct (Z.eqb_spec (224 + c / 4096) 237); [lia|]. destruct (Z.eqb_spec (224 + c / 4096) 240); [lia|].
         destruct (Z.eqb_spec (224 + c / 4096) 244); lia. }
    replace (cont (128 + c mod 64)) with true by (unfold cont; lia). cbn [length]. f_equal. lia. }
  exists (240 + c / 262144), [128 + c / 4096 mod 64; 128 + c / 64 mod 64; 128 + c mod 64]. split; [reflexivity|].
  unfold scalar in S. repeat split; [|lia|lia|repeat constructor; lia].
  unfold utf8_step. cbn [app]. destruct (Z.ltb_spec (240 + c / 262144) 128); [lia|].
  replace (between 194 223 (240 + c / 262144)) with false by (unfold between; lia).
  replace (between 224 239 (240 + c / 262144)) with false by (unfold between; lia).
  replace (between 240 244 (240 + c / 262144)) with true by (unfold between; lia).
  replace (second_ok (240 + c / 262144) (128 + c / 4096 mod 64)) with true.
  2: { unfold second_ok, between, cont in *. destruct (Z.eqb_spec (240 + c / 262144) 224); [lia|].
       destruct (Z.eqb_spec (240 + c / 262144) 237); [lia|]. destruct (Z.eqb_spec (240 + c / 262144) 240); [lia|].
       destruct (Z.eqb_spec (240 + c / 262144) 244); lia. }
  replace (cont (128 + c / 64 mod 64)) with true by (unfold cont; lia).
  replace (cont (128 + c mod 64)) with true by (unfold cont; lia). cbn [length]. f_equal. lia.
Qed.

Lemma encode_text s : text s -> exists x, utf8_encode s = Ok x.
Proof.
  induction 1 as [|c s C _ [x IH]]; [eexists; reflexivity|]. destruct (char_step c [] C) as (b & t & E & _).
  cbn [utf8_encode]. rewrite E, IH. eexists. reflexivity.
Qed.
Lemma encode_cons c s x : scalar c -> utf8_encode (c :: s) = Ok x -> exists b t y, utf8_char c = Ok (b :: t) /\ utf8_encode s = Ok y /\
  x = (b :: t) ++ y.
Proof.
  intros S H. destruct (char_step c [] S) as (b & t & E & _). cbn [utf8_encode] in H. rewrite E in H. cbn [bind] in H.
  destruct (utf8_encode s) as [y|] eqn:Y; [|discriminate]. exists b, t, y. split; [exact E|]. split; [reflexivity|]. unfold bind in H. congruence.
Qed.

Lemma strict_encode s : text s -> forall x n, utf8_encode s = Ok x -> (length x <= n)%nat -> utf8_strict n x = Ok s.
Proof.
  induction 1 as [|c s C _ IH]; intros x n H N; [injection H as <-; destruct n; reflexivity|].
  destruct (encode_cons _ _ _ C H) as (b & t & y & E & Y & ->). cbn [app length] in N. rewrite app_length in N.
  destruct n as [|n]; [lia|]. cbn [app utf8_strict]. destruct (char_step c y C) as (b' & t' & E' & ST & _).
  rewrite E in E'. injection E' as <- <-. rewrite ST.
  replace (skipn (S (length t)) (b :: t ++ y)) with y by (cbn [skipn]; symmetry; apply skipn_app_exact || (rewrite skipn_app, skipn_all, Nat.sub_diag; reflexivity)).
  rewrite (IH y) by (auto; lia). reflexivity.
Qed.
Lemma decode_encode s x : text s -> utf8_encode s = Ok x -> decode_strict x = Ok s.
Proof. intros T H. unfold decode_strict. apply strict_encode; auto. Qed.

Lemma ignore_encode s : text s -> forall x r n, utf8_encode s = Ok x -> (length x + length r <= n)%nat ->
  exists k, (length r <= k)%nat /\ utf8_ignore n (x ++ r) = s ++ utf8_ignore k r.
Proof.
  induction 1 as [|c s C _ IH]; intros x r n H N; [injection H as <-; exists n; split; [cbn in N; lia|reflexivity]|].
  destruct (encode_cons _ _ _ C H) as (b & t & y & E & Y & ->). cbn [app length] in N. rewrite app_length in N.
  destruct n as [|n]; [lia|]. cbn [app utf8_ignore]. rewrite <- app_assoc. destruct (char_step c (y ++ r) C) as (b' & t' & E' & ST & _).
  rewrite E in E'. injection E' as <- <-. rewrite ST.
  replace (skipn (S (length t)) (b :: t ++ y ++ r)) with (y ++ r) by (cbn [skipn]; rewrite skipn_app, skipn_all, Nat.sub_diag; reflexivity).
  destruct (IH y r n Y ltac:(lia)) as (k & K & ->). exists k. split; [exact K|reflexivity].
Qed.

Lemma encode_no_nul s : text s -> Forall (fun c => c <> 0) s -> forall x, utf8_encode s = Ok x -> Forall (fun b => b <> 0) x.
Proof.
  induction 1 as [|c s C _ IH]; intros N x H; [injection H as <-; constructor|].
  destruct (encode_cons _ _ _ C H) as (b & t & y & E & Y & ->). destruct (char_step c [] C) as (b' & t' & E' & _ & Z & F).
  rewrite E in E'. injection E' as <- <-. inversion N; subst. cbn [app]. constructor; [lia|]. apply Forall_app. split; [exact F|]. apply IH; auto.
Qed.
Lemma before_nul_none l : Forall (fun b => b <> 0) l -> before_nul l = l.
Proof. induction 1 as [|b l B _ IH]; [reflexivity|]. cbn [before_nul]. destruct (Z.eqb_spec b 0); [lia|]. congruence. Qed.
Lemma before_nul_stop l r : Forall (fun b => b <> 0) l -> before_nul (l ++ 0 :: r) = l.
Proof. induction 1 as [|b l B _ IH]; [reflexivity|]. cbn [before_nul app]. destruct (Z.eqb_spec b 0); [lia|]. congruence. Qed.
Lemma find_nul_none s : Forall (fun c => c <> 0) s -> find_nul s = -1.
Proof. induction 1 as [|b l B _ IH]; [reflexivity|]. cbn [find_nul]. destruct (Z.eqb_spec b 0); [lia|]. rewrite IH. reflexivity. Qed.
Lemma find_nul_stop s r : Forall (fun c => c <> 0) s -> find_nul (s ++ 0 :: r) = Zlen s.
Proof.
  induction 1 as [|b l B _ IH]; [reflexivity|]. cbn [find_nul app]. destruct (Z.eqb_spec b 0); [lia|]. rewrite IH.
  pose proof (Zlen_nonneg l). destruct (Z.ltb_spec (Zlen l) 0); [lia|]. unfold Zlen. cbn [length]. lia.
Qed.

(** A field that holds a NUL-terminated text *)
Lemma strip_terminated s x r : text s -> Forall (fun c => c <> 0) s -> utf8_encode s = Ok x ->
  decode_strip_null (x ++ 0 :: r) = ustrip s.
Proof.
  intros T N H. unfold decode_strip_null, decode_ignore. destruct (ignore_encode s T x (0 :: r) (length (x ++ 0 :: r)) H) as (k & K & ->).
  { rewrite app_length. lia. }
  destruct k as [|k]; [cbn in K; lia|]. cbn [utf8_ignore]. change (utf8_step 0 r) with (UChar 0 1). cbv iota.
  rewrite find_nul_stop by exact N. unfold py_upto. pose proof (Zlen_nonneg s). rewrite py_slice_in; [| lia | lia |].
  2: { rewrite Zlen_app. match goal with |- context[Zlen ?a + Zlen ?b] => pose proof (Zlen_nonneg b) end. lia. }
  cbn [Z.to_nat skipn]. rewrite Z.sub_0_r. unfold Zlen. rewrite Nat2Z.id, firstn_app, firstn_all, Nat.sub_diag. cbn [firstn]. rewrite app_nil_r. reflexivity.
Qed.
(** A field filled to its end: the last character is lost. *)
Lemma strip_full s c x : text (s ++ [c]) -> Forall (fun c => c <> 0) (s ++ [c]) -> utf8_encode (s ++ [c]) = Ok x ->
  decode_strip_null x = ustrip s.
Proof.
  intros T N H. unfold decode_strip_null, decode_ignore. destruct (ignore_encode _ T x [] (length x) H) as (k & K & E).
  { cbn. lia. }
  rewrite app_nil_r in E. rewrite E. assert (utf8_ignore k [] = []) as -> by (destruct k; reflexivity). rewrite app_nil_r.
  rewrite find_nul_none by exact N. f_equal. unfold py_upto, py_slice, py_bound. cbn [Z.ltb Z.compare].
  assert (L : Zlen (s ++ [c]) = Zlen s + 1) by (unfold Zlen; rewrite app_length; cbn; lia). rewrite L. pose proof (Zlen_nonneg s).
  replace (Z.to_nat (Z.min 0 (Zlen s + 1))) with 0%nat by lia. cbn [skipn].
  match goal with |- firstn ?k _ = _ => replace k with (length s) by (unfold Zlen in *; lia) end.
  rewrite firstn_app, firstn_all, Nat.sub_diag. cbn [firstn]. apply app_nil_r.
Qed.
