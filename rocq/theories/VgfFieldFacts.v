(** What the decoders read lies at the places the specification names. *)
From Coq Require Import Lia ZifyBool ZifyNat.
From Verif Require Import Base BaseFacts Floats Strings Structs StructsFacts Tools ToolsFacts VgfBase VgfTables VgfRead SpecVgf SpecVgfLoop SpecVgfFields VgfLoopFacts.
From Coq Require Import List.
Import ListNotations.
Open Scope string_scope.
Open Scope list_scope.
Open Scope Z_scope.

(** ** Numbers *)
Lemma nth_skip (l : bytes) i k : (i <= length l)%nat -> nth k (skipn i l) 0 = nth (i + k) l 0.
Proof.
  intros H. rewrite <- (firstn_skipn i l) at 2. rewrite app_nth2; rewrite firstn_length_le by lia; [|lia]. f_equal. lia.
Qed.
Lemma four l i : (i + 4 <= length l)%nat ->
  firstn 4 (skipn i l) = [nth i l 0; nth (i + 1) l 0; nth (i + 2) l 0; nth (i + 3) l 0].
Proof.
  intros H. assert (L : (4 <= length (skipn i l))%nat) by (rewrite skipn_length; lia).
  pose proof (nth_skip l i 0 ltac:(lia)) as E0. rewrite Nat.add_0_r in E0.
  pose proof (nth_skip l i 1 ltac:(lia)) as E1. pose proof (nth_skip l i 2 ltac:(lia)) as E2. pose proof (nth_skip l i 3 ltac:(lia)) as E3.
  rewrite <- E0, <- E1, <- E2, <- E3. destruct (skipn i l) as [|a [|b [|c [|x r]]]]; cbn in L; try lia. reflexivity.
Qed.
Lemma int_field_le l i : (i + 4 <= length l)%nat -> unpack_i32 LE (firstn 4 (skipn i l)) = i32le_at l i.
Proof.
  intros H. rewrite four by exact H. unfold unpack_i32, i32le_at, u32le_at.
  match goal with |- to_signed32 (dec_uint LE [?a; ?b; ?c; ?x]) = _ => assert (dec_uint LE [a; b; c; x] = a + 256 * (b + 256 * (c + 256 * x))) as -> by (cbn [dec_uint le_dec]; lia) end.
  reflexivity.
Qed.
Lemma byte_first (l : bytes) i : (i + 1 <= length l)%nat -> nth 0 (firstn 1 (skipn i l)) 0 = nth i l 0.
Proof. intros H. pose proof (nth_skip l i 0 ltac:(lia)) as E. rewrite Nat.add_0_r in E. destruct (skipn i l); cbn in *; congruence. Qed.
Lemma byte_nth l i : valid_bytes l = true -> 0 <= nth i l 0 < 256.
Proof.
  intros V. unfold valid_bytes in V. rewrite forallb_forall in V. destruct (Nat.lt_ge_cases i (length l)).
  - specialize (V _ (nth_In l 0 H)). unfold is_byte in V. lia.
  - rewrite nth_overflow by lia. lia.
Qed.
Lemma ok_inj {A} (x y : A) : Ok x = Ok y -> x = y.
Proof. intros [= H]. exact H. Qed.
Lemma signed_nonneg u : 0 <= u < two32 -> 0 <= to_signed32 u -> to_signed32 u = u.
Proof. unfold to_signed32, two31, two32. destruct (_ <? _); lia. Qed.
Lemma swap_bytes l z : valid_bytes l = true -> length l = 4%nat -> z = le_dec (rev l) -> dec_uint BE (enc_uint LE 4 z) = le_dec l.
Proof.
  intros V L ->. unfold enc_uint. rewrite <- L. rewrite <- rev_length. rewrite le_enc_dec.
  - unfold dec_uint. rewrite rev_involutive. reflexivity.
  - unfold valid_bytes in *. rewrite forallb_forall in *. intros x I. apply V. apply in_rev. exact I.
Qed.
Lemma swap_field l i y : valid_bytes l = true -> (i + 4 <= length l)%nat -> swap32 (unpack_i32 BE (firstn 4 (skipn i l))) = Ok y -> y = u32le_at l i.
Proof.
  intros V H S. rewrite four in S by exact H. set (w := [nth i l 0; nth (i + 1) l 0; nth (i + 2) l 0; nth (i + 3) l 0]) in *.
  assert (VW : valid_bytes w = true).
  { unfold w, valid_bytes. cbn [forallb]. unfold is_byte. pose proof (byte_nth l i V). pose proof (byte_nth l (i + 1) V). pose proof (byte_nth l (i + 2) V). pose proof (byte_nth l (i + 3) V). lia. }
  assert (U : u32le_at l i = le_dec w) by (unfold u32le_at, w; cbn [le_dec]; lia). rewrite U.
  assert (LW : length w = 4%nat) by reflexivity. clearbody w. clear U.
  unfold swap32 in S. destruct (Z.ltb_spec (unpack_i32 BE w) 0) as [N|N]; [discriminate|]. apply ok_inj in S. subst y.
  apply swap_bytes; [exact VW|exact LW|]. unfold unpack_i32 in *. pose proof (dec_uint_range BE w VW) as R.
  rewrite signed_nonneg; [reflexivity| |exact N]. unfold Zlen in R. rewrite LW in R. exact R.
Qed.

Section Here.
Variables (d : bytes) (p : nat).
Hypothesis bytes_d : valid_bytes d = true.

(** The cursor is at byte [o] of the record. *)
Definition here (b : iobuf) (o : Z) : Prop := io_data b = d /\ io_offset b = Z.of_nat p + o /\ 0 <= o.
Definition tracks (pls : list (string * place)) (e : env) : Prop :=
  Forall2 (fun a x => fst a = fst x /\ shows d p (snd a) (snd x)) pls e.

Lemma tracks_app a b x y : tracks a x -> tracks b y -> tracks (a ++ b) (x ++ y).
Proof. apply Forall2_app. Qed.
Lemma here_skip b o n : here b o -> 0 <= o + n -> here (io_skip (Some n) b) (o + n).
Proof. intros (D & P & N) H. repeat split; cbn [io_skip io_data io_offset]; [exact D|lia|lia]. Qed.

(** ** Structures *)
Definition place_of (e : endian) (o : Z) (f : fmtc) (c : vconv) : option place :=
  match f, c, e with
  | FUByte, CNone, _ => Some (Byte o)
  | FSByte, CNone, _ => Some (SByte o)
  | FInt, CNone, BE => Some (Int o)
  | FInt, CNone, LE => Some (IntLE o)
  | FInt, CSwap, BE => Some (NatLE o)
  | FFloat, CRound n, BE => Some (Real o n)
  | FFloat, CRound n, LE => Some (RealLE o n)
  | FFloat, CNone, BE => Some (Float o)
  | FFloat, CTrunc, BE => Some (Whole o)
  | FStr n, CText, _ => Some (Chars o (Z.of_nat n))
  | _, _, _ => None
  end.
Fixpoint places (e : endian) (var : string) (o : Z) (t : list field) : option (list (string * place)) :=
  match t with
  | [] => Some []
  | (n, f, c) :: r =>
      let rest := places e var (o + Z.of_nat (fmtc_size f)) r in
      if is_pad f then rest
      else match place_of e o f c, rest with
           | Some pl, Some ps => Some (((var ++ "." ++ n)%string, pl) :: ps)
           | _, _ => None
           end
  end.

Lemma place_shown e o f c pl v : is_pad f = false -> place_of e o f c = Some pl -> 0 <= o -> (at_byte p o + fmtc_size f <= length d)%nat ->
  convert c (unpack_item e f (firstn (fmtc_size f) (skipn (at_byte p o) d))) = Ok v -> shows d p pl v.
Proof.
  intros NP PL O L C. destruct f, c, e; cbn [place_of] in PL; try discriminate; injection PL as <-; cbn [shows fmtc_size unpack_item convert] in *.
  - apply ok_inj in C; subst v. rewrite int_field_le by exact L. reflexivity.
  - apply ok_inj in C; subst v. rewrite int_field by exact L. reflexivity.
  - apply bind_ok in C as (y & Y & C). apply ok_inj in C; subst v. f_equal. apply (swap_field _ _ _ bytes_d L Y).
  - apply ok_inj in C; subst v. reflexivity.
  - apply ok_inj in C; subst v. reflexivity.
  - apply ok_inj in C; subst v. reflexivity.
  - apply bind_ok in C as (y & Y & C). apply ok_inj in C; subst v. exists y. auto.
  - apply ok_inj in C; subst v. rewrite byte_first by exact L. reflexivity.
  - apply ok_inj in C; subst v. rewrite byte_first by exact L. reflexivity.
  - apply ok_inj in C; subst v. rewrite byte_first by exact L. reflexivity.
  - apply ok_inj in C; subst v. rewrite byte_first by exact L. reflexivity.
  - apply ok_inj in C; subst v. unfold bytes_at. rewrite Nat2Z.id. reflexivity.
  - apply ok_inj in C; subst v. unfold bytes_at. rewrite Nat2Z.id. reflexivity.
Qed.
Lemma create_tracks e var t : forall o x pls, 0 <= o -> (at_byte p o + calcsize (formats t) <= length d)%nat ->
  places e var o t = Some pls -> create var (named t) (unpack_vals e (formats t) (skipn (at_byte p o) d)) = Ok x -> tracks pls x.
Proof.
  induction t as [|[[n f] c] t IH]; intros o x pls O L P C.
  - cbn in P, C. injection P as <-. injection C as <-. constructor.
  - cbn [formats map field_fmt fst snd calcsize] in L, C. fold (formats t) in L, C.
    assert (SK : skipn (fmtc_size f) (skipn (at_byte p o) d) = skipn (at_byte p (o + Z.of_nat (fmtc_size f))) d).
    { rewrite skipn_plus. f_equal. unfold at_byte. lia. }
    assert (L' : (at_byte p (o + Z.of_nat (fmtc_size f)) + calcsize (formats t) <= length d)%nat).
    { change (calcsize (f :: formats t)) with (fmtc_size f + calcsize (formats t))%nat in L. unfold at_byte in *. lia. }
    assert (LF : (at_byte p o + fmtc_size f <= length d)%nat).
    { change (calcsize (f :: formats t)) with (fmtc_size f + calcsize (formats t))%nat in L. lia. }
    cbn [places] in P. unfold named in C. cbn [filter field_fmt fst snd] in C. fold (named t) in C.
    destruct (is_pad f) eqn:IP.
    + destruct f; cbn in IP; try discriminate. cbn [unpack_vals negb] in C. cbn [fmtc_size] in *.
      apply (IH (o + Z.of_nat n0)); [lia|exact L'|exact P|]. rewrite <- SK. exact C.
    + cbn [negb create] in C.
      assert (UV : unpack_vals e (f :: formats t) (skipn (at_byte p o) d) =
                   unpack_item e f (firstn (fmtc_size f) (skipn (at_byte p o) d)) :: unpack_vals e (formats t) (skipn (fmtc_size f) (skipn (at_byte p o) d)))
        by (destruct f; cbn in IP; try discriminate; reflexivity).
      rewrite UV, SK in C. apply bind_ok in C as (v & V & C). apply bind_ok in C as (r & R & C).
      assert (x = ((var ++ "." ++ n)%string, v) :: r) as -> by congruence.
      destruct (place_of e o f c) as [pl|] eqn:PO; [|discriminate]. destruct (places _ _ _ _) as [ps|] eqn:PS; [|discriminate]. injection P as <-.
      constructor; [|apply (IH (o + Z.of_nat (fmtc_size f)) r ps); auto; lia].
      split; [reflexivity|]. cbn [snd]. eapply place_shown; eauto.
Qed.
Lemma named_here e var t b o x b' : r_named e var t b = Ok (x, b') -> here b o -> forall pls, places e var o t = Some pls ->
  tracks pls x /\ here b' (o + Z.of_nat (calcsize (formats t))).
Proof.
  intros H HB pls P. pose proof HB as (D & OB & N). apply named_from in H as (L & C & ->); [|lia]. split; [|apply here_skip; [exact HB|lia]].
  rewrite D, OB in *. assert (AB : Z.to_nat (Z.of_nat p + o) = at_byte p o) by (unfold at_byte; lia). rewrite AB in C.
  eapply create_tracks; [exact N| |exact P|exact C]. unfold Zlen in L. unfold at_byte. lia.
Qed.

(** ** Selections *)
Fixpoint find_place (k : string) (pls : list (string * place)) : option place :=
  match pls with [] => None | (n, pl) :: r => if String.eqb n k then Some pl else find_place k r end.
Lemma find_tracks k pls : forall e, tracks pls e ->
  match find_place k pls with Some pl => exists v, lookup k e = Some v /\ shows d p pl v | None => lookup k e = None end.
Proof.
  induction pls as [|[n pl] r IH]; intros e T; inversion T as [|? [m v] ? e' [E S] T']; subst; cbn [find_place lookup]; [reflexivity|].
  cbn [fst snd] in *. subst m. destruct (String.eqb n k); [exists v; auto|]. apply IH, T'.
Qed.
Definition source_of (pls : list (string * place)) (s : source) : place :=
  match s with
  | Key k => match find_place k pls with Some pl => pl | None => Fixed VNone end
  | KeyOr k v => match find_place k pls with Some pl => pl | None => Fixed v end
  end.
Definition selected (sel : list (string * source)) (pls : list (string * place)) : list (string * place) :=
  map (fun s => (fst s, source_of pls (snd s))) sel.
Lemma select_tracks sel pls e : tracks pls e -> forall a, select sel e = Ok a -> tracks (selected sel pls) a.
Proof.
  intros T. induction sel as [|[n s] sel IH]; intros a H; cbn [select] in H.
  - injection H as <-. constructor.
  - apply bind_ok in H as (v & V & H). apply bind_ok in H as (r & R & H). injection H as <-.
    constructor; [|apply IH, R]. split; [reflexivity|]. cbn [snd]. destruct s as [k|k w]; cbn [source_of].
    + pose proof (find_tracks k _ _ T) as F. destruct (find_place k pls) as [pl|].
      * destruct F as (u & U & S). rewrite U in V. injection V as <-. exact S.
      * rewrite F in V. discriminate.
    + pose proof (find_tracks k _ _ T) as F. destruct (find_place k pls) as [pl|].
      * destruct F as (u & U & S). rewrite U in V. injection V as <-. exact S.
      * rewrite F in V. injection V as <-. reflexivity.
Qed.
Lemma lookup_first k v : forall (a b : env), lookup k a = Some v -> lookup k (a ++ b) = Some v.
Proof. induction a as [|[n w] a IH]; intros b H; [discriminate|]. cbn [app lookup] in *. destruct (String.eqb n k); auto. Qed.
Lemma tracks_fields pls a more fs : tracks pls a -> Forall (fun f => find_place (fst f) pls = Some (snd f)) fs -> has_fields d p fs (a ++ more).
Proof.
  intros T F. apply Forall_forall. intros [n pl] I. rewrite Forall_forall in F. specialize (F _ I). cbn [fst snd] in *.
  pose proof (find_tracks n _ _ T) as FT. rewrite F in FT. destruct FT as (v & V & S). exists v. split; [apply lookup_first, V|exact S].
Qed.

(** ** Texts *)
Lemma read_here b o n l b' : r_read n b = Ok (l, b') -> here b o -> 0 <= n -> Z.of_nat p + o + n <= Zlen d ->
  l = bytes_at d p o n /\ here b' (o + n).
Proof.
  intros H HB N L. pose proof HB as (D & OB & O). unfold r_read, io_read, io_get_next in H. injection H as <- <-.
  rewrite D, OB. assert (SL : py_slice d (Z.of_nat p + o) (Z.of_nat p + o + n) = bytes_at d p o n).
  { unfold bytes_at. destruct (Z.eq_dec n 0) as [->|NZ].
    - rewrite Z.add_0_r. unfold py_slice. rewrite Z.sub_diag. reflexivity.
    - rewrite py_slice_in by lia. f_equal; [lia|]. f_equal. unfold at_byte. lia. }
  rewrite SL. split; [reflexivity|].
  assert (LN : Zlen (bytes_at d p o n) = n).
  { unfold bytes_at, Zlen in *. rewrite firstn_length, skipn_length. unfold at_byte. lia. }
  rewrite LN. apply here_skip; [exact HB|lia].
Qed.
Lemma text_here b o n s b' : read_text n b = Ok (s, b') -> here b o -> 0 <= n -> Z.of_nat p + o + n <= Zlen d ->
  decode_strict (before_nul (bytes_at d p o n)) = Ok s /\ here b' (o + n).
Proof.
  intros H HB N L. unfold read_text, bindR in H. destruct (r_read n b) as [[l b1]|] eqn:R; [|discriminate].
  destruct (read_here _ _ _ _ _ R HB N L) as (-> & H1). unfold liftR in H. destruct (decode_strict _) as [s0|]; [|discriminate].
  assert (s0 = s /\ b1 = b') as [-> ->] by (split; congruence). auto.
Qed.

(** ** Arrays *)
Lemma Forall2_maps {A B C} (R : B -> C -> Prop) (f : A -> B) (g : A -> C) l : (forall x, In x l -> R (f x) (g x)) -> Forall2 R (map f l) (map g l).
Proof. induction l as [|x l IH]; intros H; constructor; [apply H; left; reflexivity|]. apply IH. intros y I. apply H. right. exact I. Qed.
Lemma range_in n k : In k (range n) -> 0 <= k < n.
Proof. unfold range. intros I. apply in_map_iff in I as (i & <- & I). apply in_seq in I. lia. Qed.
Lemma floats_shown (f : Z -> place) (g : flt -> flt) o n : 0 <= o -> (forall k, shows d p (f k) (VFloat (g (f32_at d (at_byte p k))))) ->
  Forall2 (fun pl x => shows d p pl (VFloat x)) (items_at f o n) (map g (floats_at d (at_byte p o) (Z.to_nat n))).
Proof.
  intros O F. unfold items_at, range, floats_at. rewrite !map_map. apply Forall2_maps. intros k _.
  specialize (F (o + 4 * Z.of_nat k)). replace (at_byte p (o + 4 * Z.of_nat k)) with (at_byte p o + 4 * k)%nat in F by (unfold at_byte; lia). exact F.
Qed.
Lemma latlon_here n b lat lon b' o : get_latlon n b = Ok ((lat, lon), b') -> here b o ->
  n <= 500 /\ has_points d p (rounded o n) lat /\ has_points d p (rounded (o + 4 * n) n) lon /\ here b' (o + 8 * Z.max 0 n).
Proof.
  intros H HB. pose proof HB as (D & OB & O). unfold rounded. destruct (Z.leb_spec 1 n) as [G|G].
  - apply latlon_from in H as (M & -> & -> & ->); [|exact G|lia]. split; [exact M|]. rewrite D, OB.
    replace (Z.to_nat (Z.of_nat p + o)) with (at_byte p o) by (unfold at_byte; lia).
    replace (Z.to_nat (Z.of_nat p + o + 4 * n)) with (at_byte p (o + 4 * n)) by (unfold at_byte; lia).
    split; [|split].
    + eexists. split; [reflexivity|]. apply floats_shown; [lia|reflexivity].
    + eexists. split; [reflexivity|]. apply floats_shown; [lia|reflexivity].
    + replace (o + 8 * Z.max 0 n) with (o + 4 * n + 4 * n) by lia. apply here_skip; [apply here_skip; [exact HB|lia]|lia].
  - unfold get_latlon, MAX_POINTS in H. destruct (Z.ltb_spec 500 n); [lia|]. destruct (Z.leb_spec 1 n); [lia|]. injection H as <- <- <-.
    split; [lia|]. split; [reflexivity|]. split; [reflexivity|]. replace (o + 8 * Z.max 0 n) with o by lia. exact HB.
Qed.
Lemma raw_here n b c b' o : raw_array n b = Ok (c, b') -> here b o -> 0 <= n -> has_points d p (raw o n) c /\ here b' (o + 4 * n).
Proof.
  intros H HB N. pose proof HB as (D & OB & O). unfold raw_array, bindR in H. destruct (r_array _ n b) as [[l b1]|] eqn:A; [|discriminate].
  injection H as <- <-. apply array_from in A as (-> & ->); [|exact N|lia]. split; [|apply here_skip; [exact HB|lia]].
  rewrite D, OB. replace (Z.to_nat (Z.of_nat p + o)) with (at_byte p o) by (unfold at_byte; lia).
  eexists. split; [reflexivity|]. pose proof (floats_shown Float (fun x => x) o n O) as F. rewrite map_id in F. apply F. reflexivity.
Qed.
Lemma ints_here n b l b' o : int_array n b = Ok (l, b') -> here b o -> 0 <= n ->
  Forall2 (shows d p) (items_at Int o n) l /\ here b' (o + 4 * n).
Proof.
  intros H HB N. pose proof HB as (D & OB & O). unfold int_array, r_array, io_read_array in H. destruct (Z.ltb_spec n 0); [lia|]. cbn [andb] in H.
  destruct (Z.ltb_spec (io_offset b) 0); [lia|]. cbn [orb] in H. destruct (Z.ltb_spec (Zlen (io_data b)) (io_offset b)); [discriminate|].
  destruct (Z.ltb_spec (Zlen (io_data b) - io_offset b) (4 * n)); [discriminate|].
  match type of H with Ok (?m, ?q) = _ => assert (l = m /\ b' = q) as [-> ->] by (split; congruence) end. clear H.
  split; [|apply here_skip; [exact HB|lia]]. unfold items_at, range. rewrite map_map. apply Forall2_maps. intros k K. apply in_seq in K.
  cbn [shows]. rewrite D, OB in *. rewrite py_slice_in by lia.
  replace (Z.to_nat (Z.of_nat p + o + 4 * Z.of_nat k + 4 - (Z.of_nat p + o + 4 * Z.of_nat k))) with 4%nat by lia.
  replace (Z.to_nat (Z.of_nat p + o + 4 * Z.of_nat k)) with (at_byte p (o + 4 * Z.of_nat k)) by (unfold at_byte; lia).
  rewrite int_field; [reflexivity|]. unfold at_byte, Zlen in *. lia.
Qed.
Lemma close_here q c c' : has_points d p q c -> close_coords c = Ok c' -> has_points d p (closing true q) c'.
Proof.
  intros H C. destruct q as [| |l]; cbn [has_points] in H; [subst; discriminate|subst; discriminate|].
  destruct H as (xs & -> & F). cbn [close_coords] in C. apply bind_ok in C as (y & Y & C). injection C as <-. cbn [closing].
  unfold close_list in Y. destruct F as [|pl x l xs S F]; [discriminate|]. injection Y as <-. eexists. split; [reflexivity|].
  cbn [firstn app]. constructor; [exact S|]. apply Forall2_app; [exact F|]. constructor; [exact S|constructor].
Qed.
Lemma flip_here q c c' : has_points d p q c -> flip_coords c = Ok c' -> has_points d p (turning true q) c'.
Proof.
  intros H C. destruct q as [| |l]; cbn [has_points] in H; [subst; discriminate|subst; discriminate|].
  destruct H as (xs & -> & F). cbn [flip_coords] in C. injection C as <-. cbn [turning]. eexists. split; [reflexivity|].
  unfold flip_list. clear - F. induction F as [|pl x l xs S F IH]; [constructor|]. cbn [rev]. apply Forall2_app; [exact IH|]. constructor; [exact S|constructor].
Qed.
Lemma closing_false q : closing false q = q.
Proof. destruct q; reflexivity. Qed.
Lemma turning_false q : turning false q = q.
Proof. destruct q; reflexivity. Qed.

(** ** Repetitions *)
Lemma range_cons n : 0 < n -> range n = 0 :: map (Z.add 1) (range (n - 1)).
Proof.
  intros N. unfold range. replace (Z.to_nat n) with (S (Z.to_nat (n - 1))) by lia. cbn [seq map]. f_equal. rewrite <- seq_shift, !map_map. apply map_ext. intros k. lia.
Qed.
Lemma repeat_here {A} (m : rd A) (R : Z -> A -> Prop) w n : 0 <= w -> 0 <= n -> forall b l b' o, repeatR (Z.to_nat n) m b = Ok (l, b') -> here b o ->
  (forall b1 a b2 o1, m b1 = Ok (a, b2) -> here b1 o1 -> o <= o1 -> o1 + w <= o + w * n -> R o1 a /\ here b2 (o1 + w)) ->
  Forall2 (fun k a => R (o + w * k) a) (range n) l /\ here b' (o + w * n).
Proof.
  intros W N. pose proof N as N0. revert N0. pattern n. apply Z_lt_induction; [|exact N]. clear n N. intros n IH N b l b' o H HB ST.
  - destruct (Z.eq_dec n 0) as [->|NZ].
    + cbn in H. injection H as <- <-. split; [constructor|]. replace (o + w * 0) with o by lia. exact HB.
    + replace (Z.to_nat n) with (S (Z.to_nat (n - 1))) in H by lia. cbn [repeatR] in H. unfold bindR in H.
      destruct (m b) as [[a b1]|] eqn:M; [|discriminate]. destruct (repeatR _ m b1) as [[r b2]|] eqn:RR; [|discriminate].
      injection H as <- <-. destruct (ST _ _ _ _ M HB ltac:(lia) ltac:(nia)) as (R0 & H1).
      destruct (IH (n - 1) ltac:(lia) ltac:(lia) _ _ _ _ RR H1) as (F & H2).
      { intros b3 a0 b4 o1 M1 HB1 LO HI. apply (ST b3 a0 b4 o1 M1 HB1); [lia|]. nia. }
      split; [|replace (o + w * n) with (o + w + w * (n - 1)) by lia; exact H2].
      rewrite range_cons by lia. constructor; [replace (o + w * 0) with o by lia; exact R0|].
      clear - F. induction F as [|k x ks xs R1 F IH]; constructor; [|exact IH].
      replace (o + w * (1 + k)) with (o + w + w * k) by lia. exact R1.
Qed.
End Here.
