(** Deciding whether a given sequence of words is a file in the sense of SpecByteOrder (for the examples of C09). *)
From Coq Require Import ZArith List Lia ZifyBool ZifyNat.
From Verif Require Import Base BaseFacts DmFile SpecByteOrder ByteOrderOpen.
Import ListNotations.
Open Scope Z_scope.
Ltac Zify.zify_post_hook ::= Z.to_euclidean_division_equations.

Definition soundb (w : word) : bool := match w with Num z => (0 <=? z) && (z <? 4294967296) | Txt b => (length b =? 4)%nat && forallb (fun c => (0 <=? c) && (c <? 256)) b end.
Definition no_text (o : option word) : bool := match o with Some (Txt _) => false | _ => true end.
Definition no_number (o : option word) : bool := match o with Some (Num _) => false | _ => true end.
Definition same_text (a b : bytes) : bool := if list_eq_dec Z.eq_dec a b then true else false.
Definition in_texts (b : bytes) (l : list bytes) : bool := existsb (same_text b) l.
Section Check.
Variable F : list word.
Definition all (n : Z) (p : Z -> bool) : bool := forallb p (zrange n).
Definition numbersb (i n : Z) : bool := (1 <=? i) && all n (fun j => no_text (at_word F (i + j))).
Definition textsb (i n : Z) : bool := (1 <=? i) && all n (fun j => no_number (at_word F (i + j))).
Definition is_num (o : option word) (z : Z) : bool := match o with Some (Num x) => x =? z | _ => false end.
Definition navigationb : bool :=
  let w := file_keys F + 3 * n_file_headers F in
  textsb (file_keys F) (n_file_headers F) && numbersb (file_keys F + n_file_headers F) (2 * n_file_headers F) &&
  numbersb w 2 && textsb (w + 2) 1 && numbersb (w + 3) 11 && numbersb (w + 257) 20.
Definition base_fileb : bool :=
  textsb 1 7 && numbersb 8 24 && is_num (at_word F 8) 1 && (negb (0 <? n_file_headers F) || navigationb) && numbersb (management F) 32 &&
  textsb (row_keys F) (n_row_keys F) && textsb (column_keys F) (n_column_keys F) && textsb (parts F) (n_parts F) &&
  numbersb (parts F + n_parts F) (3 * n_parts F) && textsb (parts F + 4 * n_parts F) (all_parameters F) &&
  numbersb (parts F + 4 * n_parts F + all_parameters F) (3 * all_parameters F).
Definition headerb (texty : list bytes) (keys n i : Z) : bool :=
  all n (fun j => match at_word F (keys + j) with
                  | Some (Txt b) => if in_texts b texty then textsb (i + j) 1 else numbersb (i + j) 1
                  | _ => true end).
Definition no_flagb (w : option word) : bool :=
  match w with Some (Num z) => negb (z =? 9999) | Some (Txt b) => negb (same_text b [15; 39; 0; 0]) && negb (same_text b [0; 0; 39; 15]) | None => true end.
Definition headersb (holds : Z -> bool) (slots n i : Z) : bool :=
  (1 <=? i) &&
  all slots (fun s => let w := i + s * (Z.max 0 n + 1) in
    (is_num (at_word F w) 9999 && holds (w + 1)) || all (Z.max 0 n + 1) (fun j => no_flagb (at_word F (w + j)))).
Definition blockb (part p : Z) : bool :=
  let h := part_header F part in
  numbersb p 1 && (0 <=? h) && (if part_type F part =? 3 then textsb (p + 1 + h) (unsigned F p - h) else numbersb (p + 1 + h) (unsigned F p - h)).
Definition station_fileb (row_texts : list bytes) : bool :=
  base_fileb && headersb (headerb row_texts (row_keys F) (n_row_keys F)) (n_rows F) (n_row_keys F) (row_headers F) &&
  headersb (headerb station_texts (column_keys F) (n_column_keys F)) (n_columns F) (n_column_keys F) (column_headers F) &&
  all (n_rows F) (fun r => all (n_columns F) (fun c => all (n_parts F) (fun p =>
    numbersb (pointers F + r * n_columns F * n_parts F + c * n_parts F + p) 1 && ((pointer F r c p =? 0) || blockb p (pointer F r c p))))).
Definition coordinateb (w : option word) : bool :=
  match w with Some (Num z) => (z <=? 8) || (2147483648 <=? z) | Some (Txt b) => forallb (fun c => (0 <? c) && (c <? 128)) b | None => true end.
Definition grid_headerb (i : Z) : bool :=
  all (n_column_keys F) (fun j => match at_word F (column_keys F + j) with
    | Some (Txt b) => if in_texts b grid_texts then textsb (i + j) 1 else if same_text b coordinate_key then coordinateb (at_word F (i + j)) else numbersb (i + j) 1
    | _ => true end).
Definition grid_blockb (part p : Z) : bool :=
  let h := part_header F part in numbersb p 1 && (0 <=? h) && numbersb (p + 1 + h) (Z.max 9 (unsigned F p - h)).
Definition grid_fileb : bool :=
  base_fileb && headersb (headerb [] (row_keys F) (n_row_keys F)) (n_rows F) (n_row_keys F) (row_headers F) &&
  headersb grid_headerb (n_columns F) (n_column_keys F) (column_headers F) &&
  all (n_columns F) (fun c => all (n_parts F) (fun p => numbersb (pointers F + c * n_parts F + p) 1 &&
    (if pointer F 0 c p =? 0 then (0 <=? part_header F p) && (part_header F p <? 8) else grid_blockb p (pointer F 0 c p)))).

Lemma sound_ok : forallb soundb F = true -> Forall sound_word F.
Proof. intros H. apply Forall_forall. intros w W. rewrite forallb_forall in H. specialize (H w W). destruct w as [z|b]; cbn in *; [lia|]. apply andb_true_iff in H as [H V]. split; [lia|]. rewrite forallb_forall in V. apply Forall_forall. intros c C. specialize (V c C). lia. Qed.
Lemma all_ok n p : all n p = true -> forall j, 0 <= j < n -> p j = true.
Proof.
  unfold all. intros H j J. rewrite forallb_forall in H. apply H. apply (nth_error_In _ (Z.to_nat j)). rewrite zrange_nth by lia. f_equal. lia.
Qed.
Lemma numbers_ok i n : numbersb i n = true -> numbers F i n.
Proof.
  unfold numbersb. rewrite andb_true_iff. intros [I A]. split; [lia|]. intros j b J E. pose proof (all_ok _ _ A (j - i) ltac:(lia)) as X. cbv beta in X.
  replace (i + (j - i)) with j in X by lia. rewrite E in X. discriminate.
Qed.
Lemma texts_ok i n : textsb i n = true -> texts F i n.
Proof.
  unfold textsb. rewrite andb_true_iff. intros [I A]. split; [lia|]. intros j b J E. pose proof (all_ok _ _ A (j - i) ltac:(lia)) as X. cbv beta in X.
  replace (i + (j - i)) with j in X by lia. rewrite E in X. discriminate.
Qed.
Lemma is_num_ok o z : is_num o z = true -> o = Some (Num z).
Proof. destruct o as [[x|]|]; cbn; try discriminate. intros H. f_equal. f_equal. lia. Qed.
Ltac parts_of H := repeat match type of H with _ && _ = true => let A := fresh "A" in apply andb_true_iff in H as [H A] end.
Lemma navigation_ok : navigationb = true -> navigation F.
Proof. unfold navigationb, navigation. cbv zeta. intros H. parts_of H. repeat split; try (apply texts_ok; assumption); try (apply numbers_ok; assumption); try (eapply texts_ok; eassumption); eapply numbers_ok; eassumption. Qed.
Lemma base_ok : base_fileb = true -> base_file F.
Proof.
  unfold base_fileb, base_file. intros H. parts_of H.
  split; [apply texts_ok; assumption|]. split; [apply numbers_ok; assumption|]. split; [apply is_num_ok; assumption|].
  split. { intros P. apply navigation_ok. destruct (Z.ltb_spec 0 (n_file_headers F)); [cbn in *; assumption|lia]. }
  split; [apply numbers_ok; assumption|]. split; [apply texts_ok; assumption|]. split; [apply texts_ok; assumption|]. split; [apply texts_ok; assumption|].
  split; [apply numbers_ok; assumption|]. split; [apply texts_ok; assumption|apply numbers_ok; assumption].
Qed.
Lemma same_ok a b : same_text a b = true <-> a = b.
Proof. unfold same_text. destruct (list_eq_dec Z.eq_dec a b); split; congruence. Qed.
Lemma in_ok b l : in_texts b l = true <-> In b l.
Proof. unfold in_texts. rewrite existsb_exists. split; [intros (x & X & E); apply same_ok in E; subst; exact X|intros X; exists b; split; [exact X|apply same_ok; reflexivity]]. Qed.
Lemma header_ok texty keys n i : headerb texty keys n i = true -> header F texty keys n i.
Proof.
  intros H j b J E. pose proof (all_ok _ _ H j J) as X. cbv beta in X. rewrite E in X. pose proof (in_ok b texty) as IB. destruct (in_texts b texty).
  - split; [intros _; apply texts_ok, X|intros N; exfalso; apply N, IB; reflexivity].
  - split; [intros N; apply IB in N; discriminate|intros _; apply numbers_ok, X].
Qed.
Lemma no_flag_ok w : no_flagb w = true -> no_flag w.
Proof.
  destruct w as [[z|b]|]; cbn; [lia| |auto]. rewrite andb_true_iff, !negb_true_iff. intros [A B].
  split; intros X; apply same_ok in X; congruence.
Qed.
Lemma headers_ok (holds : Z -> Prop) holdsb slots n i : (forall w, holdsb w = true -> holds w) -> headersb holdsb slots n i = true -> headers F holds slots n i.
Proof.
  intros K H. unfold headersb in H. parts_of H. split; [lia|]. intros s Hs w. pose proof (all_ok _ _ A s Hs) as X. cbv beta zeta in X. apply orb_true_iff in X as [X|X].
  - left. apply andb_true_iff in X as [X1 X2]. split; [apply is_num_ok, X1|apply K, X2].
  - right. intros j J. apply no_flag_ok. apply (all_ok _ _ X j). lia.
Qed.
Lemma block_ok part p : blockb part p = true -> block F part p.
Proof.
  unfold blockb, block. cbv zeta. intros H. parts_of H. split; [apply numbers_ok; assumption|]. split; [lia|].
  destruct (_ =? 3); [apply texts_ok; assumption|apply numbers_ok; assumption].
Qed.
Lemma station_ok rt : station_fileb rt = true -> station_file F rt.
Proof.
  unfold station_fileb. intros H. parts_of H. split; [apply base_ok, H|]. split; [eapply headers_ok; [|eassumption]; apply header_ok|].
  split; [eapply headers_ok; [|eassumption]; apply header_ok|]. intros r c p R C P.
  pose proof (all_ok _ _ A r R) as X. cbv beta in X. pose proof (all_ok _ _ X c C) as Y. cbv beta in Y. pose proof (all_ok _ _ Y p P) as W. cbv beta in W.
  apply andb_true_iff in W as [W1 W2]. split; [apply numbers_ok, W1|]. intros NZ. apply block_ok. destruct (Z.eqb_spec (pointer F r c p) 0); [contradiction|exact W2].
Qed.
Lemma coordinate_ok w : coordinateb w = true -> coordinate w.
Proof. destruct w as [[z|b]|]; cbn; [lia| |auto]. rewrite forallb_forall. intros H. apply Forall_forall. intros c C. specialize (H c C). lia. Qed.
Lemma grid_header_ok i : grid_headerb i = true -> grid_header F i.
Proof.
  intros H j b J E. pose proof (all_ok _ _ H j J) as X. cbv beta in X. rewrite E in X. pose proof (in_ok b grid_texts) as IB. pose proof (same_ok b coordinate_key) as CB.
  destruct (in_texts b grid_texts).
  - assert (IN : In b grid_texts) by (apply IB; reflexivity). split; [intros _; apply texts_ok, X|]. split; [intros ->; cbn in IN; intuition discriminate|intros N; contradiction].
  - split; [intros N; apply IB in N; discriminate|]. destruct (same_text b coordinate_key).
    + split; [intros _; apply coordinate_ok, X|]. intros _ N. exfalso. apply N, CB. reflexivity.
    + split; [intros N; apply CB in N; discriminate|]. intros _ _. apply numbers_ok, X.
Qed.
Lemma grid_block_ok part p : grid_blockb part p = true -> grid_block F part p.
Proof. unfold grid_blockb, grid_block. cbv zeta. intros H. parts_of H. split; [apply numbers_ok; assumption|]. split; [lia|]. apply numbers_ok; assumption. Qed.
Lemma grid_ok : grid_fileb = true -> grid_file F.
Proof.
  unfold grid_fileb. intros H. parts_of H. split; [apply base_ok, H|]. split; [eapply headers_ok; [|eassumption]; apply header_ok|].
  split; [eapply headers_ok; [|eassumption]; apply grid_header_ok|]. intros c p C P.
  pose proof (all_ok _ _ A c C) as X. cbv beta in X. pose proof (all_ok _ _ X p P) as W. cbv beta in W. apply andb_true_iff in W as [W1 W2].
  split; [apply numbers_ok, W1|]. destruct (_ =? 0); [lia|apply grid_block_ok, W2].
Qed.
End Check.

(** The words of given bytes, low byte first: four printable characters are taken as text. *)
Fixpoint words_of (n : nat) (b : bytes) : list word :=
  match n with
  | O => []
  | S k =>
      match b with
      | b0 :: b1 :: b2 :: b3 :: r =>
          (if forallb (fun c => (32 <=? c) && (c <? 127)) [b0; b1; b2; b3] then Txt [b0; b1; b2; b3] else Num (b0 + 256 * b1 + 65536 * b2 + 16777216 * b3)) :: words_of k r
      | _ => []
      end
  end.
