(** Reading bytes that are known to be at the cursor. *)
From Coq Require Import Lia ZifyBool ZifyNat.
From Verif Require Import Base BaseFacts Floats FloatsFacts Structs StructsFacts Tools ToolsFacts VgfBase VgfRead Vgf SpecVgf VgfFacts.
From Coq Require Import List.
Import ListNotations.
Open Scope Z_scope.

(** [r] is what follows the cursor. *)
Definition at_ (b : iobuf) (r : bytes) : Prop :=
  exists pre post, io_data b = pre ++ r ++ post /\ io_offset b = Zlen pre.
Definition adv (b : iobuf) (n : Z) : iobuf := io_skip (Some n) b.

Lemma at_app b r s : at_ b (r ++ s) -> at_ b r /\ at_ (adv b (Zlen r)) s.
Proof.
  intros (pre & post & D & O). split.
  - exists pre, (s ++ post). rewrite D, <- app_assoc. auto.
  - exists (pre ++ r), post. cbn [adv io_skip io_data io_offset]. rewrite D, O, Zlen_app, <- !app_assoc. auto.
Qed.
Lemma adv_adv b m n : adv (adv b m) n = adv b (m + n).
Proof. unfold adv, io_skip. cbn [io_data io_offset io_marks]. f_equal. lia. Qed.

Lemma r_struct_at e fmt vals b r : at_ b r -> struct_pack e fmt vals = Ok r ->
  r_struct e fmt b = Ok (stored_vals fmt vals, adv b (Zlen r)).
Proof.
  intros (pre & post & D & O) H. pose proof (struct_pack_spec _ _ _ _ H) as [L U].
  unfold r_struct, io_read_struct, struct_unpack_from. rewrite D, O.
  pose proof (Zlen_nonneg pre). pose proof (Zlen_nonneg post). rewrite !Zlen_app.
  assert (LR : Zlen r = Z.of_nat (calcsize fmt)) by (unfold Zlen; lia).
  destruct (Z.ltb_spec (Zlen pre) 0); [lia|]. destruct (Z.ltb_spec (Zlen pre + (Zlen r + Zlen post) - Zlen pre) (Z.of_nat (calcsize fmt))); [lia|].
  rewrite skipn_app_exact by (unfold Zlen; lia). rewrite U. rewrite LR. reflexivity.
Qed.
Lemma r_named_at e var t vals b r : at_ b r -> struct_pack e (formats t) vals = Ok r ->
  r_named e var t b = match create var (named t) (stored_vals (formats t) vals) with
                      | Ok x => Ok (x, adv b (Zlen r)) | Err x => Err x end.
Proof. intros A H. unfold r_named, bindR. rewrite (r_struct_at _ _ _ _ _ A H). unfold liftR. reflexivity. Qed.

Lemma r_read_at b r : at_ b r -> r_read (Zlen r) b = Ok (r, adv b (Zlen r)).
Proof.
  intros (pre & post & D & O). unfold r_read, io_read, io_get_next. rewrite D, O.
  pose proof (Zlen_nonneg pre). pose proof (Zlen_nonneg r). pose proof (Zlen_nonneg post).
  rewrite py_slice_in by (rewrite ?Zlen_app; lia).
  rewrite skipn_app_exact by (unfold Zlen; lia). rewrite firstn_app_exact by (unfold Zlen; lia). reflexivity.
Qed.

(** Arrays of four-byte numbers *)
Lemma slices (conv : bytes -> flt) (rs : list bytes) : Forall (fun x => length x = 4%nat) rs -> forall pre post,
  map (fun i => conv (py_slice (pre ++ concat rs ++ post) (Zlen pre + 4 * Z.of_nat i) (Zlen pre + 4 * Z.of_nat i + 4)))
    (seq 0 (length rs)) = map conv rs.
Proof.
  induction 1 as [|x rs L F IH]; intros pre post; [reflexivity|]. cbn [length seq map concat]. f_equal.
  - f_equal. pose proof (Zlen_nonneg pre). pose proof (Zlen_nonneg (concat rs)). pose proof (Zlen_nonneg post).
    rewrite py_slice_in by (rewrite ?Zlen_app; unfold Zlen in *; lia).
    rewrite <- app_assoc, skipn_app_exact by (unfold Zlen; lia). apply firstn_app_exact. lia.
  - rewrite <- seq_shift, map_map. specialize (IH (pre ++ x) post). rewrite <- IH. apply map_ext. intros i. f_equal.
    rewrite Zlen_app. replace (Zlen x) with 4 by (unfold Zlen; lia). rewrite <- !app_assoc.
    f_equal; lia.
Qed.
Lemma pack_floats l : forall r, struct_pack BE (repeat FFloat (length l)) (map VFloat l) = Ok r ->
  exists rs, r = concat rs /\ length rs = length l /\ Forall (fun x => length x = 4%nat) rs /\
    map (unpack_f32 BE) rs = map np32 l.
Proof.
  induction l as [|x l IH]; intros r H; cbn [length repeat map struct_pack] in H.
  - injection H as <-. exists []. repeat split; constructor.
  - apply bind_ok in H as (a & A & H). apply bind_ok in H as (c & C & H). injection H as <-.
    destruct (IH _ C) as (rs & -> & L & F & M). exists (a :: rs). cbn [concat length map].
    split; [reflexivity|]. split; [lia|]. pose proof (pack_item_length _ _ _ _ A) as LA. split; [constructor; assumption|].
    rewrite M. apply unpack_pack_item in A. cbn [unpack_item stored] in A. injection A as ->. reflexivity.
Qed.
Lemma r_array_at b l r : at_ b r -> struct_pack BE (repeat FFloat (length l)) (map VFloat l) = Ok r ->
  r_array (unpack_f32 BE) (Zlen l) b = Ok (map np32 l, adv b (Zlen r)).
Proof.
  intros (pre & post & D & O) H. destruct (pack_floats l r H) as (rs & -> & L & F & M).
  pose proof (struct_pack_length _ _ _ _ H) as LR. rewrite calcsize_repeat in LR. cbn [fmtc_size] in LR.
  unfold r_array, io_read_array. rewrite D, O.
  pose proof (Zlen_nonneg l). pose proof (Zlen_nonneg pre). pose proof (Zlen_nonneg post).
  assert (LC : Zlen (concat rs) = 4 * Zlen l) by (unfold Zlen; lia).
  destruct (Z.ltb_spec (Zlen l) 0); [lia|]. rewrite !Zlen_app.
  destruct (Z.ltb_spec (Zlen pre) 0); [lia|]. destruct (Z.ltb_spec (Zlen pre + (Zlen (concat rs) + Zlen post)) (Zlen pre)); [lia|].
  cbn [orb andb]. destruct (Z.ltb_spec (Zlen pre + (Zlen (concat rs) + Zlen post) - Zlen pre) (4 * Zlen l)); [lia|].
  replace (Z.to_nat (Zlen l)) with (length rs) by (unfold Zlen; lia). rewrite (slices _ rs F). rewrite M, LC. reflexivity.
Qed.

(** The points of a line *)
Lemma get_latlon_at b lat lon r n : at_ b r -> Zlen lat = n -> Zlen lon = n -> 1 <= n <= 500 ->
  struct_pack BE (repeat FFloat (Z.to_nat (n * 2))) (map VFloat lat ++ map VFloat lon) = Ok r ->
  get_latlon n b = Ok ((CoArr (map (fun x => around2 (np32 x)) lat), CoArr (map (fun x => around2 (np32 x)) lon)), adv b (Zlen r)).
Proof.
  intros A L1 L2 R H. replace (Z.to_nat (n * 2)) with (length lat + length lon)%nat in H by (unfold Zlen in *; lia).
  rewrite repeat_app in H. apply struct_pack_app in H as (x & y & X & Y & ->).
  2: { rewrite map_length. clear. generalize (length lat). induction n as [|n IH]; cbn [repeat nvals]; [reflexivity|f_equal; exact IH]. }
  apply at_app in A as [A1 A2]. unfold get_latlon, MAX_POINTS. destruct (Z.ltb_spec 500 n); [lia|]. destruct (Z.leb_spec 1 n); [|lia].
  unfold bindR. rewrite <- L1 at 1. rewrite (r_array_at _ _ _ A1 X). rewrite <- L2. rewrite (r_array_at _ _ _ A2 Y).
  unfold retR. rewrite adv_adv, !map_map, Zlen_app. reflexivity.
Qed.
