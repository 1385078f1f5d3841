(** When decoders return: at every step, exactly when what is stored there is legible. *)
From Coq Require Import Lia ZifyBool ZifyNat.
From Verif Require Import Base BaseFacts Floats Strings StringsFacts Structs StructsFacts Tools ToolsFacts Order VgfBase VgfTables VgfRead SpecVgf SpecVgfLoop SpecVgfFields SpecVgfOpen VgfLoopFacts VgfFieldFacts VgfRecordFacts.
From Coq Require Import List.
Import ListNotations.
Open Scope string_scope.
Open Scope list_scope.
Open Scope Z_scope.

(** ** UTF-8 *)
Lemma utf8_inv a l : utf8 (a :: l) -> exists c n, utf8_step a l = UChar c n /\ (1 <= n <= S (length l))%nat /\ utf8 (skipn n (a :: l)).
Proof.
  intros U. inversion U as [|? ? A U'|? b ? A B U'|? b c ? AB C U'|? b c e ? AB C E U']; subst; unfold utf8_step, second_ok, between, cont, trailing in *; cbv beta iota.
  - destruct (Z.ltb_spec a 128); [|lia]. do 2 eexists. split; [reflexivity|]. split; [lia|exact U'].
  - destruct (Z.ltb_spec a 128); [lia|]. replace ((194 <=? a) && (a <=? 223)) with true by lia. replace ((128 <=? b) && (b <=? 191)) with true by lia.
    do 2 eexists. split; [reflexivity|]. split; [cbn; lia|exact U'].
  - destruct (Z.ltb_spec a 128); [lia|]. replace ((194 <=? a) && (a <=? 223)) with false by lia. replace ((224 <=? a) && (a <=? 239)) with true by lia.
    replace ((128 <=? c) && (c <=? 191)) with true by lia.
    match goal with |- context[if ?x then _ else UBad 1] => assert (x = true) as -> end.
    { destruct (Z.eqb_spec a 224); [lia|]. destruct (Z.eqb_spec a 237); [lia|]. destruct (Z.eqb_spec a 240); [lia|]. destruct (Z.eqb_spec a 244); lia. }
    do 2 eexists. split; [reflexivity|]. split; [cbn; lia|exact U'].
  - destruct (Z.ltb_spec a 128); [lia|]. replace ((194 <=? a) && (a <=? 223)) with false by lia. replace ((224 <=? a) && (a <=? 239)) with false by lia.
    replace ((240 <=? a) && (a <=? 244)) with true by lia. replace ((128 <=? c) && (c <=? 191)) with true by lia. replace ((128 <=? e) && (e <=? 191)) with true by lia.
    match goal with |- context[if ?x then _ else UBad 1] => assert (x = true) as -> end.
    { destruct (Z.eqb_spec a 224); [lia|]. destruct (Z.eqb_spec a 237); [lia|]. destruct (Z.eqb_spec a 240); [lia|]. destruct (Z.eqb_spec a 244); lia. }
    do 2 eexists. split; [reflexivity|]. split; [cbn; lia|exact U'].
Qed.
Lemma utf8_build a l c n : 0 <= a -> utf8_step a l = UChar c n -> (1 <= n)%nat /\ (utf8 (skipn n (a :: l)) -> utf8 (a :: l)).
Proof.
  intros N S. unfold utf8_step, second_ok, between, cont in S. destruct (Z.ltb_spec a 128).
  { assert (n = 1%nat) as -> by congruence. split; [lia|]. intros U. apply utf8_one; [lia|exact U]. }
  destruct ((194 <=? a) && (a <=? 223)) eqn:R2.
  { destruct l as [|b l]; [discriminate|]. destruct ((128 <=? b) && (b <=? 191)) eqn:B; [|discriminate].
    assert (n = 2%nat) as -> by congruence. split; [lia|]. intros U. apply utf8_two; [lia|unfold trailing; lia|exact U]. }
  destruct ((224 <=? a) && (a <=? 239)) eqn:R3.
  { destruct l as [|b l]; [discriminate|].
    match type of S with (if ?x then _ else _) = _ => destruct x eqn:B; [|discriminate] end. destruct l as [|x l]; [discriminate|].
    destruct ((128 <=? x) && (x <=? 191)) eqn:X; [|discriminate]. assert (n = 3%nat) as -> by congruence. split; [lia|]. intros U.
    apply utf8_three; [|unfold trailing; lia|exact U]. unfold trailing.
    destruct (Z.eqb_spec a 224); [lia|]. destruct (Z.eqb_spec a 237); [lia|]. destruct (Z.eqb_spec a 240); [lia|]. destruct (Z.eqb_spec a 244); lia. }
  destruct ((240 <=? a) && (a <=? 244)) eqn:R4; [|discriminate].
  destruct l as [|b l]; [discriminate|].
  match type of S with (if ?x then _ else _) = _ => destruct x eqn:B; [|discriminate] end. destruct l as [|x l]; [discriminate|].
  destruct ((128 <=? x) && (x <=? 191)) eqn:X; [|discriminate]. destruct l as [|y l]; [discriminate|].
  destruct ((128 <=? y) && (y <=? 191)) eqn:Y; [|discriminate]. assert (n = 4%nat) as -> by congruence. split; [lia|]. intros U.
  apply utf8_four; [|unfold trailing; lia|unfold trailing; lia|exact U]. unfold trailing.
  destruct (Z.eqb_spec a 224); [lia|]. destruct (Z.eqb_spec a 237); [lia|]. destruct (Z.eqb_spec a 240); [lia|]. destruct (Z.eqb_spec a 244); lia.
Qed.
Lemma strict_runs : forall f l, (length l <= f)%nat -> Forall (fun b => 0 <= b) l -> (exists s, utf8_strict f l = Ok s) <-> utf8 l.
Proof.
  induction f as [|f IH]; intros [|a l] L N; cbn [utf8_strict].
  - split; [intros _; constructor|intros _; eauto].
  - cbn in L. lia.
  - split; [intros _; constructor|intros _; eauto].
  - cbn [length] in L. inversion N as [|? ? NA NL]; subst. split.
    + intros (s & S). destruct (utf8_step a l) as [c n|n] eqn:ST; [|discriminate]. destruct (utf8_build a l c n NA ST) as (N1 & B). apply B.
      apply bind_ok in S as (t & T & _). apply IH; [| |exists t; exact T].
      * rewrite skipn_length. cbn [length]. lia.
      * rewrite Forall_forall in *. intros x X. apply N. rewrite <- (firstn_skipn n (a :: l)). apply in_or_app. right. exact X.
    + intros U. destruct (utf8_inv a l U) as (c & n & -> & N1 & U'). destruct (proj2 (IH (skipn n (a :: l)) ltac:(rewrite skipn_length; cbn [length]; lia)
        ltac:(rewrite Forall_forall in *; intros x X; apply N; rewrite <- (firstn_skipn n (a :: l)); apply in_or_app; right; exact X)) U') as (t & T).
      rewrite T. eexists. reflexivity.
Qed.
Lemma decode_runs l : Forall (fun b => 0 <= b) l -> (exists s, decode_strict l = Ok s) <-> utf8 l.
Proof. intros N. apply strict_runs; [lia|exact N]. Qed.

(** ** Codes *)
Lemma fixed_nth w n i : (i < w)%nat -> exists c, nth_error (fixed w n) i = Some c /\ is_digit c = true.
Proof.
  intros I. destruct (nth_error (fixed w n) i) as [c|] eqn:E.
  - exists c. split; [reflexivity|]. pose proof (fixed_digits w n) as D. rewrite forallb_forall in D. apply D. eapply nth_error_In, E.
  - apply nth_error_None in E. rewrite fixed_length in E. lia.
Qed.
Lemma digit_runs w n i : 0 <= n -> (i < w)%nat -> exists z, digit_at (fmt_d w n) i = Ok z /\ 0 <= z <= 9.
Proof.
  intros N I. destruct (fmt_d_spec w n N) as (k & K1 & K2 & -> & _). destruct (fixed_nth k n i ltac:(lia)) as (c & E & D).
  unfold digit_at. rewrite E. rewrite py_int_digits by (cbn [forallb]; rewrite ?D; first [reflexivity|discriminate]). cbn [int_digits]. rewrite D.
  eexists. split; [reflexivity|]. unfold is_digit in D. lia.
Qed.
Lemma digit_minus w n : n < 0 -> digit_at (fmt_d w n) 0 = Err ValueError.
Proof. intros N. unfold fmt_d. destruct (Z.ltb_spec n 0); [|lia]. reflexivity. Qed.
Lemma enum_runs lo hi z : (exists v, enum lo hi z = Ok v) <-> lo <= z <= hi.
Proof. unfold enum, between. destruct ((lo <=? z) && (z <=? hi)) eqn:E; split; intros H; [lia|eauto|destruct H; discriminate|lia]. Qed.
Lemma enum_ok lo hi z : lo <= z <= hi -> enum lo hi z = Ok (VInt z).
Proof. intros H. unfold enum, between. replace ((lo <=? z) && (z <=? hi)) with true by lia. reflexivity. Qed.
Lemma line_code_runs z : (exists v, line_properties z = Ok v) <-> 0 <= z.
Proof.
  unfold line_properties. split.
  - intros (v & V). destruct (Z.lt_ge_cases z 0) as [L|L]; [|exact L]. cbv zeta in V. rewrite digit_minus in V by exact L. discriminate.
  - intros N. cbv zeta. destruct (digit_runs 2 z 0 N ltac:(lia)) as (a & -> & A). destruct (digit_runs 2 z 1 N ltac:(lia)) as (b & -> & B). cbn [bind].
    rewrite (enum_ok 0 9 b B). eexists. reflexivity.
Qed.
Lemma front_code_runs z : (exists v, front_properties z = Ok v) <-> 0 <= z.
Proof.
  unfold front_properties. split.
  - intros (v & V). destruct (Z.lt_ge_cases z 0) as [L|L]; [|exact L]. cbv zeta in V. rewrite digit_minus in V by exact L. discriminate.
  - intros N. cbv zeta. destruct (digit_runs 3 z 0 N ltac:(lia)) as (a & -> & A). destruct (digit_runs 3 z 1 N ltac:(lia)) as (b & -> & B).
    destruct (digit_runs 3 z 2 N ltac:(lia)) as (c & -> & C). cbn [bind].
    rewrite (enum_ok 0 9 a A), (enum_ok 0 9 b B), (enum_ok 0 9 c C). eexists. reflexivity.
Qed.
Lemma list_codes_run a b : (exists v, list_properties a b = Ok v) <-> 1 <= a <= 5 /\ 0 <= b <= 24.
Proof.
  unfold list_properties. split.
  - intros (v & V). apply bind_ok in V as (x & X & V). apply bind_ok in V as (y & Y & _). split; eapply enum_runs; eauto.
  - intros (A & B). rewrite (enum_ok _ _ _ A), (enum_ok _ _ _ B). eexists. reflexivity.
Qed.
Lemma special_code_runs a : (exists v, special_line_properties a = Ok v) <-> 1 <= a <= 26.
Proof.
  unfold special_line_properties. split.
  - intros (v & V). apply bind_ok in V as (x & X & V). eapply enum_runs; eauto.
  - intros A. rewrite (enum_ok _ _ _ A). eexists. reflexivity.
Qed.
Lemma watch_code_runs a : (exists v, watch_properties a = Ok v) <-> 0 <= a <= 24.
Proof.
  unfold watch_properties. split.
  - intros (v & V). apply bind_ok in V as (x & X & V). eapply enum_runs; eauto.
  - intros A. rewrite (enum_ok _ _ _ A). eexists. reflexivity.
Qed.

(** ** Steps *)
Lemma range_first n : 0 < n -> range n = 0 :: map (Z.add 1) (range (n - 1)).
Proof.
  intros N. unfold range. replace (Z.to_nat n) with (S (Z.to_nat (n - 1))) by lia. cbn [seq map]. f_equal. rewrite <- seq_shift, !map_map. apply map_ext. intros k. lia.
Qed.
Definition runs {A} (m : rd A) (b : iobuf) : Prop := exists x b', m b = Ok (x, b').
Lemma runs_ret {A} (x : A) b : runs (retR x) b <-> True.
Proof. split; [auto|]. intros _. do 2 eexists. reflexivity. Qed.
(** A step that returns exactly under [C], whatever it returns, followed by steps that return under [P] *)
Lemma runs_bind {A B} (m : rd A) (f : A -> rd B) b C P : (runs m b <-> C) -> (forall a b1, m b = Ok (a, b1) -> (runs (f a) b1 <-> P)) ->
  (runs (bindR m f) b <-> C /\ P).
Proof.
  intros H F. unfold runs, bindR in *. destruct (m b) as [[a b1]|] eqn:M.
  - split; [intros R; split; [apply H; eauto|apply (F a b1 eq_refl); exact R]|intros [_ R]; apply (F a b1 eq_refl); exact R].
  - split; [intros (x & b' & E); discriminate|intros [R _]; apply H in R as (x & b' & E); discriminate].
Qed.
Lemma runs_lift {A} (r : res A) b : runs (liftR r) b <-> exists a, r = Ok a.
Proof. unfold runs, liftR. destruct r as [a|]; split; intros H; [eauto|eauto|destruct H as (? & ? & ?); discriminate|destruct H; discriminate]. Qed.

Section Steps.
Variables (d : bytes) (p : nat).
Hypothesis bytes_d : valid_bytes d = true.
Local Notation here := (here d p).
Local Notation tracks := (tracks d p).
Definition legibles (pls : list (string * place)) : Prop := Forall (fun f => legible d p (snd f)) pls.

Lemma nonneg_bytes o n : Forall (fun b => 0 <= b) (bytes_at d p o n).
Proof.
  apply Forall_forall. intros x I. unfold bytes_at in I. assert (J : In x d).
  { rewrite <- (firstn_skipn (at_byte p o) d). apply in_or_app. right. rewrite <- (firstn_skipn (Z.to_nat n) (skipn _ d)). apply in_or_app. left. exact I. }
  pose proof bytes_d as V. unfold valid_bytes in V. rewrite forallb_forall in V. specialize (V _ J). unfold is_byte in V. lia.
Qed.
Lemma before_in l x : In x (before_nul l) -> In x l.
Proof. induction l as [|a l IH]; cbn [before_nul]; [auto|]. destruct (a =? 0); cbn [In]; intuition. Qed.

Lemma place_runs e o f c pl : is_pad f = false -> place_of e o f c = Some pl -> 0 <= o -> (at_byte p o + fmtc_size f <= length d)%nat ->
  (exists v, convert c (unpack_item e f (firstn (fmtc_size f) (skipn (at_byte p o) d))) = Ok v) <-> legible d p pl.
Proof.
  intros NP PL O L. destruct f, c, e; cbn [place_of] in PL; try discriminate; injection PL as <-; cbn [legible fmtc_size unpack_item convert] in *;
    try (split; [auto|intros _; eexists; reflexivity]).
  - unfold swap32. rewrite int_field by exact L. unfold i32_at, u32_at.
    pose proof (byte_nth d (at_byte p o) bytes_d). pose proof (byte_nth d (at_byte p o + 1) bytes_d). pose proof (byte_nth d (at_byte p o + 2) bytes_d). pose proof (byte_nth d (at_byte p o + 3) bytes_d).
    cbv zeta. destruct (_ <? 2147483648) eqn:S1; (destruct (_ <? 0) eqn:S2); cbn [bind]; split; intros H'; try (destruct H'; discriminate); try lia; eauto.
  - fold (f32_at d (at_byte p o)).
    destruct (f32_at d (at_byte p o)); cbn; split; intros H'; try discriminate; try (destruct H'; discriminate); eauto.
Qed.
Lemma create_runs e var t : forall o pls, 0 <= o -> (at_byte p o + calcsize (formats t) <= length d)%nat -> places e var o t = Some pls ->
  (exists x, create var (named t) (unpack_vals e (formats t) (skipn (at_byte p o) d)) = Ok x) <-> legibles pls.
Proof.
  unfold legibles. induction t as [|[[n f] c] t IH]; intros o pls O L P.
  - cbn in P |- *. injection P as <-. split; [constructor|eauto].
  - cbn [formats map field_fmt fst snd calcsize] in L |- *. fold (formats t) in L |- *.
    assert (SK : skipn (fmtc_size f) (skipn (at_byte p o) d) = skipn (at_byte p (o + Z.of_nat (fmtc_size f))) d).
    { rewrite skipn_plus. f_equal. unfold at_byte. lia. }
    assert (L' : (at_byte p (o + Z.of_nat (fmtc_size f)) + calcsize (formats t) <= length d)%nat).
    { change (calcsize (f :: formats t)) with (fmtc_size f + calcsize (formats t))%nat in L. unfold at_byte in *. lia. }
    assert (LF : (at_byte p o + fmtc_size f <= length d)%nat).
    { change (calcsize (f :: formats t)) with (fmtc_size f + calcsize (formats t))%nat in L. lia. }
    cbn [places] in P. unfold named. cbn [filter field_fmt fst snd]. fold (named t).
    destruct (is_pad f) eqn:IP.
    + destruct f; cbn in IP; try discriminate. cbn [unpack_vals negb]. cbn [fmtc_size] in *.
      rewrite SK. apply (IH (o + Z.of_nat n0)); [lia|exact L'|exact P].
    + cbn [negb create].
      assert (UV : unpack_vals e (f :: formats t) (skipn (at_byte p o) d) =
                   unpack_item e f (firstn (fmtc_size f) (skipn (at_byte p o) d)) :: unpack_vals e (formats t) (skipn (fmtc_size f) (skipn (at_byte p o) d)))
        by (destruct f; cbn in IP; try discriminate; reflexivity).
      rewrite UV, SK. cbn [create].
      destruct (place_of e o f c) as [pl|] eqn:PO; [|discriminate]. destruct (places _ _ _ _) as [ps|] eqn:PS; [|discriminate]. injection P as <-.
      pose proof (place_runs e o f c pl IP PO O LF) as PR. pose proof (IH (o + Z.of_nat (fmtc_size f)) ps ltac:(lia) L' PS) as CR.
      split.
      * intros (x & X). apply bind_ok in X as (v & V & X). apply bind_ok in X as (r & R & X). constructor; [apply PR; eauto|apply CR; eauto].
      * intros F. inversion F as [|? ? F1 F2]; subst. apply PR in F1 as (v & V). apply CR in F2 as (r & R). rewrite V. cbn [bind]. rewrite R. eexists. reflexivity.
Qed.
Lemma named_runs e var t b o pls : here b o -> Z.of_nat p + o + Z.of_nat (calcsize (formats t)) <= Zlen d -> places e var o t = Some pls ->
  (runs (r_named e var t) b <-> legibles pls).
Proof.
  intros (D & OB & N) L P. rewrite <- (create_runs e var t o pls N); [|unfold at_byte, Zlen in *; lia|exact P].
  unfold runs, r_named, bindR, r_struct, io_read_struct, struct_unpack_from. rewrite D, OB.
  destruct (Z.ltb_spec (Z.of_nat p + o) 0); [lia|]. destruct (Z.ltb_spec (Zlen d - (Z.of_nat p + o)) (Z.of_nat (calcsize (formats t)))); [lia|].
  replace (Z.to_nat (Z.of_nat p + o)) with (at_byte p o) by (unfold at_byte; lia). unfold liftR.
  destruct (create _ _ _) as [x|]; split; intros H'; [eauto|eauto|destruct H' as (? & ? & ?); discriminate|destruct H'; discriminate].
Qed.
Lemma step_named {B} e var t b o pls (f : env -> rd B) P : here b o -> Z.of_nat p + o + Z.of_nat (calcsize (formats t)) <= Zlen d -> places e var o t = Some pls ->
  (forall x b1, tracks pls x -> here b1 (o + Z.of_nat (calcsize (formats t))) -> (runs (f x) b1 <-> P)) ->
  (runs (bindR (r_named e var t) f) b <-> legibles pls /\ P).
Proof.
  intros HB L PL F. apply runs_bind; [eapply named_runs; eauto|]. intros x b1 E. destruct (named_here d p bytes_d _ _ _ _ _ _ _ E HB _ PL) as (T & H1). apply F; assumption.
Qed.

(** The places that can be illegible *)
Definition demanding (pl : place) : bool := match pl with Whole _ | NatLE _ | Text _ _ | Clean _ _ => true | _ => false end.
Lemma legibles_filter pls : legibles pls <-> legibles (filter (fun f => demanding (snd f)) pls).
Proof.
  unfold legibles. induction pls as [|[n pl] pls IH]; cbn [filter]; [reflexivity|]. cbn [snd]. destruct (demanding pl) eqn:DE.
  - split; intros F; inversion F; subst; constructor; try assumption; apply IH; assumption.
  - split; intros F; [inversion F; subst; apply IH; assumption|]. constructor; [destruct pl; try discriminate; exact I|apply IH, F].
Qed.

(** Selections *)
Definition selectable (sel : list (string * source)) (pls : list (string * place)) : bool :=
  forallb (fun s => match snd s with Key k => match find_place k pls with Some _ => true | None => false end | _ => true end) sel.
Lemma select_runs sel pls e : tracks pls e -> selectable sel pls = true -> exists a, select sel e = Ok a.
Proof.
  intros T. induction sel as [|[n s] sel IH]; cbn [selectable forallb select]; intros S; [eauto|]. apply andb_prop in S as [S1 S2].
  destruct (IH S2) as (a & A). rewrite A. destruct s as [k|k w]; cbn [snd] in S1.
  - pose proof (find_tracks d p k _ _ T) as F. destruct (find_place k pls); [|discriminate]. destruct F as (v & -> & _). eexists. reflexivity.
  - eexists. reflexivity.
Qed.
Lemma step_select {B} sel pls e (f : env -> rd B) b P : tracks pls e -> selectable sel pls = true ->
  (forall a, tracks (selected sel pls) a -> (runs (f a) b <-> P)) -> (runs (bindR (liftR (select sel e)) f) b <-> P).
Proof.
  intros T S F. destruct (select_runs _ _ _ T S) as (a & A). pose proof (select_tracks d p _ _ _ T _ A) as TA. specialize (F a TA).
  rewrite <- F. unfold runs, bindR, liftR. rewrite A. reflexivity.
Qed.
Lemma step_code {A B} (r : res A) (f : A -> rd B) b C P : ((exists v, r = Ok v) <-> C) -> (forall a, runs (f a) b <-> P) ->
  (runs (bindR (liftR r) f) b <-> C /\ P).
Proof.
  intros H F. apply runs_bind; [rewrite runs_lift; exact H|]. intros a b1 E. apply lift_one in E as (_ & ->). apply F.
Qed.

(** Texts *)
Lemma text_runs b o n : here b o -> 0 <= n -> Z.of_nat p + o + n <= Zlen d -> (runs (read_text n) b <-> utf8 (before_nul (bytes_at d p o n))).
Proof.
  intros HB N L. unfold read_text. destruct (r_read n b) as [[l b1]|] eqn:R; [|unfold r_read in R; destruct (io_read _ b); discriminate].
  destruct (read_here d p _ _ _ _ _ R HB N L) as (-> & H1). rewrite <- decode_runs.
  - unfold runs, bindR. rewrite R. unfold liftR. destruct (decode_strict _) as [s|]; split; intros H'; [eauto|eauto|destruct H' as (? & ? & ?); discriminate|destruct H'; discriminate].
  - pose proof (nonneg_bytes o n) as F. rewrite Forall_forall in *. intros x I. apply F, before_in, I.
Qed.
Lemma step_text {B} b o n (f : str -> rd B) P : here b o -> 0 <= n -> Z.of_nat p + o + n <= Zlen d ->
  (forall s b1, decode_strict (before_nul (bytes_at d p o n)) = Ok s -> here b1 (o + n) -> (runs (f s) b1 <-> P)) ->
  (runs (bindR (read_text n) f) b <-> utf8 (before_nul (bytes_at d p o n)) /\ P).
Proof.
  intros HB N L F. apply runs_bind; [apply text_runs; assumption|]. intros s b1 E. destruct (text_here d p _ _ _ _ _ E HB N L) as (T & H1). apply F; assumption.
Qed.

(** Arrays *)
Lemma array_runs {A} (conv : bytes -> A) n b o : here b o -> 0 <= n -> Z.of_nat p + o + 4 * n <= Zlen d -> runs (r_array conv n) b.
Proof.
  intros (D & OB & N) H L. unfold runs, r_array, io_read_array. rewrite D, OB. destruct (Z.ltb_spec n 0); [lia|]. cbn [andb].
  destruct (Z.ltb_spec (Z.of_nat p + o) 0); [lia|]. cbn [orb]. destruct (Z.ltb_spec (Zlen d) (Z.of_nat p + o)); [lia|].
  destruct (Z.ltb_spec (Zlen d - (Z.of_nat p + o)) (4 * n)); [lia|]. eauto.
Qed.
Lemma always {A} (m : rd A) b : runs m b -> (runs m b <-> True).
Proof. tauto. Qed.
Lemma step_raw {B} n b o (f : coords -> rd B) P : here b o -> 0 <= n -> Z.of_nat p + o + 4 * n <= Zlen d ->
  (forall c b1, has_points d p (raw o n) c -> here b1 (o + 4 * n) -> (runs (f c) b1 <-> P)) -> (runs (bindR (raw_array n) f) b <-> P).
Proof.
  intros HB N L F. transitivity (True /\ P); [|tauto]. apply runs_bind.
  - apply always. unfold raw_array. apply (runs_bind _ _ _ True True); [apply always; eapply array_runs; eauto|intros; apply runs_ret|auto].
  - intros c b1 E. destruct (raw_here d p _ _ _ _ _ E HB N) as (H1 & H2). apply F; assumption.
Qed.
Lemma step_ints {B} n b o (f : list pyval -> rd B) P : here b o -> 0 <= n -> Z.of_nat p + o + 4 * n <= Zlen d ->
  (forall c b1, here b1 (o + 4 * n) -> (runs (f c) b1 <-> P)) -> (runs (bindR (int_array n) f) b <-> P).
Proof.
  intros HB N L F. transitivity (True /\ P); [|tauto]. apply runs_bind; [apply always; eapply array_runs; eauto|].
  intros c b1 E. destruct (ints_here d p _ _ _ _ _ E HB N) as (H1 & H2). apply F; assumption.
Qed.
Lemma step_skip {B} n b o (f : unit -> rd B) P : here b o -> 0 <= o + n -> (forall u b1, here b1 (o + n) -> (runs (f u) b1 <-> P)) ->
  (runs (bindR (r_skip n) f) b <-> P).
Proof.
  intros HB N F. transitivity (True /\ P); [|tauto]. apply runs_bind; [apply always; do 2 eexists; reflexivity|].
  intros u b1 E. apply F. eapply skip_here; eauto.
Qed.
Lemma step_latlon {B} n b o (f : coords * coords -> rd B) P : here b o -> Z.of_nat p + o + 8 * Z.max 0 n <= Zlen d ->
  (forall lat lon b1, has_points d p (rounded o n) lat -> has_points d p (rounded (o + 4 * n) n) lon -> here b1 (o + 8 * Z.max 0 n) -> (runs (f (lat, lon)) b1 <-> P)) ->
  (runs (bindR (get_latlon n) f) b <-> n <= 500 /\ P).
Proof.
  intros HB L F. apply runs_bind.
  - unfold get_latlon, MAX_POINTS. destruct (Z.ltb_spec 500 n) as [G|G]; [split; [intros (? & ? & E); discriminate|lia]|]. split; [auto|intros _].
    destruct (Z.leb_spec 1 n) as [G1|G1]; [|do 2 eexists; reflexivity].
    refine (proj2 (runs_bind _ _ _ True True (always _ _ (array_runs _ _ _ o HB _ _)) _) (conj I I)); [lia|lia|].
    intros a b1 E. apply array_from in E as (_ & ->); [|lia|destruct HB as (_ & -> & ?); lia].
    transitivity (True /\ True); [|tauto]. refine (runs_bind _ _ _ True True (always _ _ (array_runs _ _ _ (o + 4 * n) _ _ _)) _ ); [apply here_skip; [exact HB|]; destruct HB as (_ & _ & ?); lia|lia|lia|].
    intros. apply runs_ret.
  - intros [lat lon] b1 E. destruct (latlon_here d p _ _ _ _ _ _ E HB) as (_ & LA & LO & H1). apply F; assumption.
Qed.
Lemma step_uint {B} b o (f : Z -> rd B) P : here b o -> Z.of_nat p + o + 4 <= Zlen d ->
  (forall b1, here b1 (o + 4) -> (runs (f (u32_at d (at_byte p o))) b1 <-> P)) -> (runs (bindR (r_uint 4) f) b <-> P).
Proof.
  intros HB L F. transitivity (True /\ P); [|tauto]. apply runs_bind.
  - apply always. unfold runs, r_uint. destruct (io_read_int 4 BE false b) as [v b']. eauto.
  - intros z b1 E. destruct (uint_here d p _ _ _ _ E HB L) as (-> & H1). apply F, H1.
Qed.
Lemma step_close {B} (c : bool) lat lon qa qo b (f : coords * coords -> rd B) P : has_points d p qa lat -> has_points d p qo lon ->
  (c = true -> exists x y r s, qa = Points (x :: r) /\ qo = Points (y :: s)) ->
  (forall x y, has_points d p (closing c qa) x -> has_points d p (closing c qo) y -> (runs (f (x, y)) b <-> P)) ->
  (runs (bindR (if c then bindR (liftR (close_coords lat)) (fun x => bindR (liftR (close_coords lon)) (fun y => retR (x, y))) else retR (lat, lon)) f) b <-> P).
Proof.
  intros LA LO NE F. transitivity (True /\ P); [|tauto]. apply runs_bind.
  - apply always. destruct c; [|do 2 eexists; reflexivity]. destruct (NE eq_refl) as (x & y & r & s & -> & ->).
    destruct LA as (xs & -> & FA). destruct LO as (ys & -> & FO). inversion FA; subst. inversion FO; subst. do 2 eexists. reflexivity.
  - intros [x y] b1 E. destruct (close_if d p _ _ _ _ _ _ _ _ _ LA LO E) as (H1 & H2 & ->). apply F; assumption.
Qed.
Lemma step_flip {B} (c : bool) lat lon qa qo b (f : coords * coords -> rd B) P : has_points d p qa lat -> has_points d p qo lon ->
  (exists l m, qa = Points l /\ qo = Points m) ->
  (forall x y, has_points d p (turning c qa) x -> has_points d p (turning c qo) y -> (runs (f (x, y)) b <-> P)) ->
  (runs (bindR (if c then bindR (liftR (flip_coords lat)) (fun x => bindR (liftR (flip_coords lon)) (fun y => retR (x, y))) else retR (lat, lon)) f) b <-> P).
Proof.
  intros LA LO (l & m & -> & ->) F. transitivity (True /\ P); [|tauto]. apply runs_bind.
  - apply always. destruct c; [|do 2 eexists; reflexivity]. destruct LA as (xs & -> & FA). destruct LO as (ys & -> & FO). do 2 eexists. reflexivity.
  - intros [x y] b1 E. destruct (flip_if d p _ _ _ _ _ _ _ _ _ LA LO E) as (H1 & H2 & ->). apply F; assumption.
Qed.

(** Repetitions *)
Lemma repeat_runs {A} (m : rd A) (R : Z -> Prop) w n : 0 <= w -> 0 <= n -> forall b o, here b o ->
  (forall b1 o1, here b1 o1 -> o <= o1 -> o1 + w <= o + w * n -> (runs m b1 <-> R o1)) ->
  (forall b1 a b2 o1, m b1 = Ok (a, b2) -> here b1 o1 -> o <= o1 -> o1 + w <= o + w * n -> here b2 (o1 + w)) ->
  (runs (repeatR (Z.to_nat n) m) b <-> Forall (fun k => R (o + w * k)) (range n)).
Proof.
  intros W N. pose proof N as N0. revert N0. pattern n. apply Z_lt_induction; [|exact N]. clear n N. intros n IH N b o HB RM ST.
  destruct (Z.eq_dec n 0) as [->|NZ].
  - cbn. split; [constructor|intros _; apply runs_ret; exact I].
  - replace (Z.to_nat n) with (S (Z.to_nat (n - 1))) by lia. cbn [repeatR]. rewrite (range_first n) by lia.
    transitivity (R o /\ Forall (fun k => R (o + w + w * k)) (range (n - 1))).
    + apply runs_bind; [apply RM; [exact HB|lia|nia]|]. intros a b1 E. pose proof (ST _ _ _ _ E HB ltac:(lia) ltac:(nia)) as H1.
      rewrite <- (IH (n - 1) ltac:(lia) ltac:(lia) b1 (o + w) H1).
      * transitivity (runs (repeatR (Z.to_nat (n - 1)) m) b1 /\ True); [|tauto]. apply runs_bind; [reflexivity|]. intros. apply runs_ret.
      * intros b2 o1 H2 L1 L2. apply RM; [exact H2|lia|nia].
      * intros b2 a2 b3 o1 E2 H2 L1 L2. apply (ST _ _ _ _ E2 H2); [lia|nia].
    + split.
      * intros (R0 & F). constructor; [replace (o + w * 0) with o by lia; exact R0|]. apply Forall_forall. intros k K. apply in_map_iff in K as (i & <- & K).
        rewrite Forall_forall in F. replace (o + w * (1 + i)) with (o + w + w * i) by lia. apply F, K.
      * intros F. inversion F as [|? ? R0 F']; subst. replace (o + w * 0) with o in R0 by lia. split; [exact R0|]. apply Forall_forall. intros k K.
        rewrite Forall_forall in F'. replace (o + w + w * k) with (o + w * (1 + k)) by lia. apply F', in_map, K.
Qed.
Lemma step_repeat {A B} (m : rd A) (R : Z -> Prop) w n b o (f : list A -> rd B) P : 0 <= w -> 0 <= n -> here b o ->
  (forall b1 o1, here b1 o1 -> o <= o1 -> o1 + w <= o + w * n -> (runs m b1 <-> R o1)) ->
  (forall b1 a b2 o1, m b1 = Ok (a, b2) -> here b1 o1 -> o <= o1 -> o1 + w <= o + w * n -> here b2 (o1 + w)) ->
  (forall l b1, here b1 (o + w * n) -> (runs (f l) b1 <-> P)) ->
  (runs (bindR (repeatR (Z.to_nat n) m) f) b <-> Forall (fun k => R (o + w * k)) (range n) /\ P).
Proof.
  intros W N HB RM ST F. apply runs_bind; [apply repeat_runs; assumption|]. intros l b1 E.
  destruct (repeat_here d p m (fun _ _ => True) w n W N _ _ _ _ E HB) as (_ & H1).
  { intros b2 a b3 o1 E2 H2 L1 L2. split; [exact I|eapply ST; eauto]. }
  apply F, H1.
Qed.
Definition legible_subs (subs : list (string * Z * list (string * place))) : Prop :=
  Forall (fun s => Forall (fun f => legible d (at_byte p (snd (fst s))) (snd f)) (snd s)) subs.
Lemma step_texts {B} name w n b o (f : list str -> rd B) P : 0 <= w -> 0 <= n -> here b o -> Z.of_nat p + o + w * n <= Zlen d ->
  (forall l b1, here b1 (o + w * n) -> (runs (f l) b1 <-> P)) ->
  (runs (bindR (repeatR (Z.to_nat n) (read_text w)) f) b <-> legible_subs (subs_at name o w n [("value", Text 0 w)]) /\ P).
Proof.
  intros W N HB LE F. rewrite (step_repeat (read_text w) (fun o1 => utf8 (before_nul (bytes_at d p o1 w))) w n b o f P W N HB).
  - apply and_iff_compat_r. unfold legible_subs, subs_at. rewrite Forall_map. cbn [fst snd]. rewrite !Forall_forall.
    assert (K : forall k, legible d (at_byte p (o + w * k)) (Text 0 w) = utf8 (before_nul (bytes_at d p (o + w * k) w))).
    { intros k. cbn [legible]. unfold bytes_at. replace (at_byte (at_byte p (o + w * k)) 0) with (at_byte p (o + w * k)) by (unfold at_byte; lia). reflexivity. }
    split; intros H x I; specialize (H x I).
    + constructor; [|constructor]. cbn [snd]. rewrite K. exact H.
    + inversion H as [|? ? H1 _]; subst. cbn [snd] in H1. rewrite K in H1. exact H1.
  - intros b1 o1 H1 L1 L2. apply text_runs; [exact H1|exact W|lia].
  - intros b1 s b2 o1 E H1 L1 L2. eapply text_here in E; [exact (proj2 E)|exact H1|exact W|lia].
  - exact F.
Qed.
End Steps.
