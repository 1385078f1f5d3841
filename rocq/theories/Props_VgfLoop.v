(** Properties C48, C52, C53, C69: reading any vector graphics file. *)
From Coq Require Import Lia ZifyBool ZifyNat.
From Verif Require Import Base BaseFacts Floats Strings Structs Tools VgfBase VgfTables VgfRead SpecVgf SpecVgfLoop VgfLoopFacts Utf8Facts.
From Coq Require Import List.
Import ListNotations.
Open Scope string_scope.
Open Scope list_scope.
Open Scope Z_scope.

(** ** C48 *)
Lemma reached_keeps tca data : (forall s, reached tca data s -> 0 <= io_offset (vs_buf s) < Zlen data -> sane data (Z.to_nat (io_offset (vs_buf s)))) ->
  forall n s, reached tca data s -> io_data (vs_buf s) = data -> 0 <= io_offset (vs_buf s) ->
  Z.max 0 (Zlen data - io_offset (vs_buf s)) < Z.of_nat n -> exists r, vrun tca n s = Some r.
Proof.
  intros SA. induction n as [|n IH]; intros s R D O L.
  - lia.
  - cbn [vrun]. destruct (vstep tca s) as [[s'|s']|x] eqn:E; [|eauto|eauto].
    destruct (Z.lt_ge_cases (io_offset (vs_buf s)) (Zlen data)) as [C|C].
    + destruct (step_fwd tca s s' O) as (D' & P & _); [rewrite D; apply SA; [exact R|lia]|exact E|].
      apply IH; [eapply r_round; eauto|congruence|lia|lia].
    + exfalso. unfold vstep, io_at_end in E. rewrite D in E. destruct (Z.geb_spec (io_offset (vs_buf s)) (Zlen data)); [discriminate|lia].
Qed.

(** Every byte sequence whose records, as far as the reader comes to them, have a positive size
    field, at most 500 list items and at most 50 track points: opening it ends after at most as
    many rounds as it has bytes (and one). *)
Theorem C48_terminates_partial : forall tca data,
  (forall s, reached tca data s -> 0 <= io_offset (vs_buf s) < Zlen data -> sane data (Z.to_nat (io_offset (vs_buf s)))) ->
  exists r, opens tca data r /\ vrun tca (S (length data)) (vgf_start data) = Some r.
Proof.
  intros tca data SA. destruct (reached_keeps tca data SA (S (length data)) (vgf_start data)) as (r & R).
  - constructor.
  - reflexivity.
  - cbn. lia.
  - cbn [vgf_start vs_buf io_init io_offset]. unfold Zlen. lia.
  - exists r. split; [exists (S (length data)); exact R|exact R].
Qed.
Print Assumptions C48_terminates_partial.

(** The result of opening is unique. *)
Lemma vrun_more tca : forall n s r, vrun tca n s = Some r -> forall m, (n <= m)%nat -> vrun tca m s = Some r.
Proof.
  induction n as [|n IH]; intros s r H m L; [discriminate|]. destruct m as [|m]; [lia|]. cbn [vrun] in *.
  destruct (vstep tca s) as [[s'|s']|x]; try exact H. apply IH; [exact H|lia].
Qed.
Theorem C48_one_result : forall tca data r r', opens tca data r -> opens tca data r' -> r = r'.
Proof.
  intros tca data r r' [n H] [m H']. pose proof (vrun_more _ _ _ _ H (n + m) ltac:(lia)) as A.
  pose proof (vrun_more _ _ _ _ H' (n + m) ltac:(lia)) as B. congruence.
Qed.
Print Assumptions C48_one_result.

(** A header of a record, with everything but type, class and size zero *)
Definition header_bytes (type class size : Z) : bytes :=
  [0; type; class] ++ repeat 0 17 ++ [size / 16777216 mod 256; size / 65536 mod 256; size / 256 mod 256; size mod 256] ++ repeat 0 16.
Definition forever : bytes := header_bytes 5 12 0.
(** False of all byte sequences: this 40-byte file is read again and again without end. *)
Theorem C48_refuted : exists data, length data = 40%nat /\ forall tca r, ~ opens tca data r.
Proof.
  exists forever. split; [reflexivity|]. intros tca r [n H].
  assert (ST : forall s, vs_buf s = io_init forever -> exists s', vstep tca s = Ok (inl s') /\ vs_buf s' = io_init forever).
  { intros [el g hd bf] B. cbn [vs_buf] in B. subst bf. eexists. split; [vm_compute; reflexivity|reflexivity]. }
  assert (N : forall n s, vs_buf s = io_init forever -> vrun tca n s = None).
  { clear n H. induction n as [|n IH]; intros s B; [reflexivity|]. cbn [vrun]. destruct (ST s B) as (s' & -> & B'). apply IH, B'. }
  rewrite N in H by reflexivity. discriminate.
Qed.
Print Assumptions C48_refuted.

(** A record of unknown contents (class 13), then a file header record cut short: the hypotheses
    of the termination theorem hold, and the result is an exception. *)
Definition two_records : bytes := header_bytes 6 13 45 ++ [1; 2; 3; 4; 5] ++ header_bytes 6 13 40.
Example C48_satisfiable : forall tca, (forall s, reached tca two_records s -> 0 <= io_offset (vs_buf s) < Zlen two_records ->
    sane two_records (Z.to_nat (io_offset (vs_buf s)))) /\
  exists st, opens tca two_records (Ok st) /\ io_offset (vs_buf st) = 85.
Proof.
  intros tca.
  assert (R : forall s, reached tca two_records s -> vs_buf s = io_init two_records \/ vs_buf s = mk_iobuf two_records 45 [] \/ vs_buf s = mk_iobuf two_records 85 []).
  { induction 1 as [|s s' R IH H]; [left; reflexivity|]. destruct s as [el g hd bf]. cbn [vs_buf] in IH. destruct IH as [->|[->| ->]].
    - right; left. vm_compute in H. match type of H with Ok (inl ?x) = _ => assert (s' = x) as -> by congruence end. reflexivity.
    - right; right. vm_compute in H. match type of H with Ok (inl ?x) = _ => assert (s' = x) as -> by congruence end. reflexivity.
    - vm_compute in H. discriminate. }
  split.
  - intros s RS L. destruct (R s RS) as [E|[E|E]]; rewrite E in *; vm_compute; [| |vm_compute in L; destruct L; discriminate];
      (split; [discriminate|split; discriminate]).
  - eexists. split; [exists 3%nat; vm_compute; reflexivity|reflexivity].
Qed.

(** ** C52 *)

(** Every line record the reader decodes (class 3, type 1, at least one point): its coordinates
    are the stored ones, to two decimals; a closed one of more than two points then has the first
    again.  Missing from the property as stated: closed lines of one or two points. *)
Theorem C52_lines_partial : forall tca s s', 0 <= io_offset (vs_buf s) -> vstep tca s = Ok (inl s') ->
  let d := io_data (vs_buf s) in let p := Z.to_nat (io_offset (vs_buf s)) in let n := line_points_at d p in
  class_at d p = 3 -> type_at d p = 1 -> 1 <= n ->
  let lat := coords_at d (p + 60) n in let lon := coords_at d (p + 60 + 4 * Z.to_nat n) n in
  exists e, vs_elements s' = vs_elements s ++ [e] /\ ve_kind e = "LineElement" /\
    (closed_at d p <> 0 -> 2 < n -> ve_lat e = CoArr (and_first lat) /\ ve_lon e = CoArr (and_first lon)) /\
    (closed_at d p = 0 \/ n <= 2 -> ve_lat e = CoArr lat /\ ve_lon e = CoArr lon).
Proof.
  intros tca s s' O H d p n C T N lat lon. pose proof H as H0. unfold vstep in H. destruct (io_at_end _); [discriminate|].
  destruct (read_header (vs_buf s)) as [[h b1]|] eqn:RH; [|discriminate]. destruct (invalid_header _ _); [discriminate|].
  destruct (header_at _ _ _ RH O) as (D & P & _ & HC & _). destruct (header_at2 _ _ _ RH O) as (HT & HL). fold d p in HC, HT, HL, D.
  assert (DI : dispatch tca h b1 = elems (dec_lines h) b1).
  { unfold dispatch. cbv zeta. rewrite HC, HT, C, T. reflexivity. }
  rewrite DI in H. unfold elems, bindR in H. destruct (dec_lines h b1) as [[l b2]|] eqn:DL; [|discriminate]. clear H.
  pose proof (step_elems _ _ _ _ _ _ _ _ H0 RH DI DL) as EL. apply lines_from in DL.
  2: lia. 2: { rewrite D, P. replace (Z.to_nat (io_offset (vs_buf s) + 40)) with (p + 40)%nat by (unfold p; lia). exact N. }
  destruct DL as (e & -> & K & LA & LO). exists e. split; [exact EL|]. split; [exact K|].
  rewrite D, P in LA, LO. unfold line_points_at in n. fold d in LA, LO.
  replace (Z.to_nat (io_offset (vs_buf s) + 40)) with (p + 40)%nat in LA, LO by (unfold p; lia). fold n in LA, LO.
  replace (Z.to_nat (io_offset (vs_buf s) + 40 + 20)) with (p + 60)%nat in LA by (unfold p; lia).
  replace (Z.to_nat (io_offset (vs_buf s) + 40 + 20 + 4 * n)) with (p + 60 + 4 * Z.to_nat n)%nat in LO by (unfold p; lia).
  fold lat in LA. fold lon in LO. rewrite LA, LO, HL. clear - N.
  destruct (Z.eqb_spec (closed_at d p) 0) as [E|E]; cbn [negb andb].
  - split; [congruence|]. intros _. split; reflexivity.
  - destruct (Z.ltb_spec 2 n).
    + split; [intros _ _; split; reflexivity|]. intros [?|?]; [congruence|lia].
    + split; [lia|]. intros _. split; reflexivity.
Qed.
Print Assumptions C52_lines_partial.

(** The same of special lines (class 3, type 20); those of direction -1 are then reversed. *)
Theorem C52_special_lines_partial : forall tca s s', 0 <= io_offset (vs_buf s) -> vstep tca s = Ok (inl s') ->
  let d := io_data (vs_buf s) in let p := Z.to_nat (io_offset (vs_buf s)) in let n := line_points_at d p in
  class_at d p = 3 -> type_at d p = 20 -> 1 <= n ->
  let lat := coords_at d (p + 64) n in let lon := coords_at d (p + 64 + 4 * Z.to_nat n) n in
  let turn l := if direction_at d p =? -1 then rev l else l in
  exists e, vs_elements s' = vs_elements s ++ [e] /\ ve_kind e = "SpecialLineElement" /\
    (closed_at d p <> 0 -> 2 < n -> ve_lat e = CoArr (turn (and_first lat)) /\ ve_lon e = CoArr (turn (and_first lon))) /\
    (closed_at d p = 0 \/ n <= 2 -> ve_lat e = CoArr (turn lat) /\ ve_lon e = CoArr (turn lon)).
Proof.
  intros tca s s' O H d p n C T N lat lon turn. pose proof H as H0. unfold vstep in H. destruct (io_at_end _); [discriminate|].
  destruct (read_header (vs_buf s)) as [[h b1]|] eqn:RH; [|discriminate]. destruct (invalid_header _ _); [discriminate|].
  destruct (header_at _ _ _ RH O) as (D & P & _ & HC & _). destruct (header_at2 _ _ _ RH O) as (HT & HL). fold d p in HC, HT, HL, D.
  assert (DI : dispatch tca h b1 = elems (dec_special_lines h) b1).
  { unfold dispatch. cbv zeta. rewrite HC, HT, C, T. reflexivity. }
  rewrite DI in H. unfold elems, bindR in H. destruct (dec_special_lines h b1) as [[l b2]|] eqn:DL; [|discriminate]. clear H.
  pose proof (step_elems _ _ _ _ _ _ _ _ H0 RH DI DL) as EL. apply special_lines_from in DL.
  2: lia. 2: { rewrite D, P. replace (Z.to_nat (io_offset (vs_buf s) + 40)) with (p + 40)%nat by (unfold p; lia). exact N. }
  destruct DL as (e & -> & K & LA & LO). exists e. split; [exact EL|]. split; [exact K|].
  rewrite D, P in LA, LO. unfold line_points_at in n. fold d in LA, LO.
  replace (Z.to_nat (io_offset (vs_buf s) + 40)) with (p + 40)%nat in LA, LO by (unfold p; lia). fold n in LA, LO.
  replace (Z.to_nat (io_offset (vs_buf s) + 40 + 24)) with (p + 64)%nat in LA by (unfold p; lia).
  replace (Z.to_nat (io_offset (vs_buf s) + 40 + 24 + 4 * n)) with (p + 64 + 4 * Z.to_nat n)%nat in LO by (unfold p; lia).
  fold (direction_at d p) in LA, LO.
  fold lat in LA. fold lon in LO. rewrite LA, LO, HL. clear - N. unfold turn.
  destruct (Z.eqb_spec (closed_at d p) 0) as [E|E]; cbn [negb andb].
  - split; [congruence|]. intros _. split; reflexivity.
  - destruct (Z.ltb_spec 2 n).
    + split; [intros _ _; split; reflexivity|]. intros [?|?]; [congruence|lia].
    + split; [lia|]. intros _. split; reflexivity.
Qed.
Print Assumptions C52_special_lines_partial.

(** A closed line of [n] points: (0, 0), (1, 0), (1, 1), ... *)
Definition closed_line (type n : Z) (info points : bytes) : bytes :=
  firstn 4 (header_bytes type 3 (40 + Zlen info + Zlen points)) ++ [1] ++ skipn 5 (header_bytes type 3 (40 + Zlen info + Zlen points)) ++ info ++ points.
Definition one : bytes := [63; 128; 0; 0].
Definition nil4 : bytes := [0; 0; 0; 0].
Definition two_points : bytes := closed_line 1 2 ([0; 0; 0; 2] ++ [0; 0; 0; 1] ++ repeat 0 12) (nil4 ++ one ++ nil4 ++ nil4).
Definition three_points : bytes := closed_line 1 3 ([0; 0; 0; 3] ++ [0; 0; 0; 1] ++ repeat 0 12) (nil4 ++ one ++ one ++ nil4 ++ nil4 ++ one).

(** False of a closed line of two points: nothing is appended. *)
Theorem C52_two_points_refuted : exists data, closed_at data 0 <> 0 /\ class_at data 0 = 3 /\ type_at data 0 = 1 /\ line_points_at data 0 = 2 /\
  forall tca, exists s e, vstep tca (vgf_start data) = Ok (inl s) /\ vs_elements s = [e] /\ ve_lat e = CoArr (coords_at data 60 2) /\
    coords_at data 60 2 <> and_first (coords_at data 60 2).
Proof.
  exists two_points. split; [vm_compute; discriminate|]. split; [reflexivity|]. split; [reflexivity|]. split; [reflexivity|].
  intros tca. eexists. eexists. split; [vm_compute; reflexivity|]. split; [cbn; reflexivity|]. split; [vm_compute; reflexivity|vm_compute; discriminate].
Qed.
Print Assumptions C52_two_points_refuted.

Example C52_satisfiable : forall tca, exists s, vstep tca (vgf_start three_points) = Ok (inl s) /\
  class_at three_points 0 = 3 /\ type_at three_points 0 = 1 /\ closed_at three_points 0 = 1 /\ line_points_at three_points 0 = 3 /\
  map ve_lat (vs_elements s) = [CoArr (and_first (coords_at three_points 60 3))].
Proof. intros tca. eexists. split; [vm_compute; reflexivity|]. vm_compute. auto. Qed.

(** A closed special line of three points, direction -1: reversed after closing *)
Definition special_three : bytes :=
  closed_line 20 3 ([0; 0; 0; 3] ++ [0; 0; 0; 1] ++ [0; 0; 0; 1] ++ [255; 255; 255; 255] ++ repeat 0 8) (nil4 ++ one ++ one ++ nil4 ++ nil4 ++ one).
Example C52_special_satisfiable : forall tca, exists s, vstep tca (vgf_start special_three) = Ok (inl s) /\
  class_at special_three 0 = 3 /\ type_at special_three 0 = 20 /\ closed_at special_three 0 = 1 /\ line_points_at special_three 0 = 3 /\
  direction_at special_three 0 = -1 /\ map ve_lon (vs_elements s) = [CoArr (rev (and_first (coords_at special_three 76 3)))].
Proof. intros tca. eexists. split; [vm_compute; reflexivity|]. vm_compute. auto 10. Qed.

(** ** C53 *)

(** The next [n] bytes are [l] *)
Definition field_here (b : iobuf) (l : bytes) : Prop :=
  0 <= io_offset b /\ firstn (length l) (skipn (Z.to_nat (io_offset b)) (io_data b)) = l.

(** Text elements, list items, track times, identifiers: what is read from a field holding any
    text, with or without a NUL and anything after it, is that text. *)
Theorem C53_text : forall s x field b, text s -> ~ In 0 s -> utf8_encode s = Ok x ->
  (field = x \/ exists junk, field = x ++ 0 :: junk) -> field_here b field ->
  exists b', read_text (Zlen field) b = Ok (s, b') /\ io_offset b' = io_offset b + Zlen field.
Proof.
  intros s x field b T N E F [O D]. unfold read_text, bindR, r_read, io_read, io_get_next.
  assert (N' : Forall (fun c => c <> 0) s) by (apply Forall_forall; intros c I ->; auto).
  pose proof (encode_no_nul s T N' x E) as NX. pose proof (decode_encode s x T E) as DE.
  assert (L : (length field <= length (skipn (Z.to_nat (io_offset b)) (io_data b)))%nat).
  { apply (f_equal (@length Z)) in D. rewrite firstn_length in D. lia. }
  rewrite skipn_length in L.
  assert (SL : py_slice (io_data b) (io_offset b) (io_offset b + Zlen field) = field).
  { destruct (Nat.eq_dec (length field) 0) as [Z0|NZ].
    - destruct field; [|discriminate]. unfold Zlen. cbn [length Z.of_nat]. rewrite Z.add_0_r. unfold py_slice. rewrite Z.sub_diag. reflexivity.
    - rewrite py_slice_in by (unfold Zlen; lia). replace (Z.to_nat (io_offset b + Zlen field - io_offset b)) with (length field) by (unfold Zlen; lia). exact D. }
  rewrite SL. assert (B : before_nul field = x) by (destruct F as [->|[junk ->]]; [apply before_nul_none|apply before_nul_stop]; exact NX).
  rewrite B, DE. eexists. split; [reflexivity|]. reflexivity.
Qed.
Print Assumptions C53_text.

Lemma select_key sel : forall e a key, select sel e = Ok a -> forall k q, nth_error (map fst sel) k = Some key ->
  (forall j, (j < k)%nat -> nth_error (map fst sel) j <> Some key) -> nth_error (map snd sel) k = Some (Key q) -> lookup key a = lookup q e.
Proof.
  induction sel as [|[nm src] sel IH]; intros e a key SE k q K1 K2 K3; [destruct k; discriminate|]. cbn [select] in SE.
  destruct k as [|k]; cbn [map fst snd nth_error] in K1, K3.
  - assert (nm = key) as -> by congruence. assert (src = Key q) as -> by congruence. destruct (lookup q e) as [w|]; [|discriminate].
    cbn [bind] in SE. destruct (select sel e) as [r|]; [|discriminate]. cbn [bind] in SE. assert (a = (key, w) :: r) as -> by congruence.
    cbn [lookup]. rewrite String.eqb_refl. reflexivity.
  - pose proof (K2 0%nat ltac:(lia)) as NE. cbn in NE.
    destruct (match src with Key k => _ | KeyOr k d => _ end) as [w|]; [|discriminate]. cbn [bind] in SE.
    destruct (select sel e) as [r|] eqn:SR; [|discriminate]. cbn [bind] in SE. assert (a = (nm, w) :: r) as -> by congruence.
    cbn [lookup]. destruct (String.eqb_spec nm key) as [<-|_]; [congruence|].
    apply (IH e r key SR k q K1); [|exact K3]. intros j J. apply (K2 (S j)). lia.
Qed.
Lemma create_keys var : forall fs vals e, create var fs vals = Ok e -> forall k, (forall n, (var ++ "." ++ n)%string <> k) -> lookup k e = None.
Proof.
  induction fs as [|[[n f] c] fs IH]; intros vals e H k K; [injection H as <-; reflexivity|]. cbn [create] in H.
  destruct vals as [|v vals]; [injection H as <-; reflexivity|]. destruct (convert c v) as [x|]; [|discriminate]. cbn [bind] in H.
  destruct (create var fs vals) as [r|] eqn:R; [|discriminate]. cbn [bind] in H.
  assert (e = ((var ++ "." ++ n)%string, x) :: r) as -> by congruence. cbn [lookup].
  destruct (String.eqb_spec (var ++ "." ++ n)%string k) as [E|_]; [destruct (K n E)|]. apply (IH _ _ R k K).
Qed.
Lemma lookup_app_last k v : forall e : env, lookup k e = None -> lookup k (e ++ [(k, v)]) = Some v.
Proof.
  induction e as [|[n w] e IH]; intros H; cbn [app lookup] in *; [rewrite String.eqb_refl; reflexivity|].
  destruct (String.eqb n k); [discriminate|]. apply IH, H.
Qed.

(** Text elements (class 5, types 17 and 18) the reader decodes: the text is what the record
    holds from byte 80 on, up to the first NUL, cleaned ('$$' is a line break, white space at the
    ends is dropped). *)
Theorem C53_text_elements : forall tca s s' t x junk, 0 <= io_offset (vs_buf s) -> vstep tca s = Ok (inl s') ->
  let d := io_data (vs_buf s) in let p := Z.to_nat (io_offset (vs_buf s)) in
  class_at d p = 5 -> type_at d p = 17 \/ type_at d p = 18 ->
  text t -> ~ In 0 t -> utf8_encode t = Ok x ->
  firstn (Z.to_nat (size_at d p) - 80) (skipn (p + 80) d) = x ++ 0 :: junk -> length (x ++ 0 :: junk) = (Z.to_nat (size_at d p) - 80)%nat ->
  exists e, vs_elements s' = vs_elements s ++ [e] /\ ve_kind e = "TextElement" /\
    lookup "text" (ve_attrs e) = Some (VText (clean_text t)).
Proof.
  intros tca s s' t x junk O H d p C T TX N E F L. pose proof H as H0. unfold vstep in H. destruct (io_at_end _); [discriminate|].
  destruct (read_header (vs_buf s)) as [[h b1]|] eqn:RH; [|discriminate]. destruct (invalid_header _ _); [discriminate|].
  destruct (header_at _ _ _ RH O) as (D & P & _ & HC & HR). destruct (header_at2 _ _ _ RH O) as (HT & HL). fold d p in HC, HT, HR, D.
  assert (DI : dispatch tca h b1 = elems (dec_text h) b1).
  { unfold dispatch. cbv zeta. rewrite HC, HT, C. destruct T as [-> | ->]; reflexivity. }
  rewrite DI in H. unfold elems, bindR in H. destruct (dec_text h b1) as [[l b2]|] eqn:DL; [|discriminate]. clear H.
  pose proof (step_elems _ _ _ _ _ _ _ _ H0 RH DI DL) as EL. unfold dec_text in DL.
  unfold bindR at 1 in DL. destruct (r_named _ _ _ b1) as [[v b3]|] eqn:RN; [|discriminate].
  apply named_from in RN as (_ & CR & B3); [|lia]. change (Z.of_nat (calcsize (formats text_info))) with 40 in *.
  assert (LP : (1 <= length (x ++ 0%Z :: junk))%nat) by (rewrite app_length; cbn; lia).
  destruct (C53_text t x (x ++ 0 :: junk) b3 TX N E) as (b4 & RT & _); [right; eauto| |].
  { split; [rewrite B3; cbn; lia|]. rewrite B3. cbn [io_skip io_offset io_data]. rewrite D, P, L.
    replace (Z.to_nat (io_offset (vs_buf s) + 40 + 40)) with (p + 80)%nat by (unfold p; lia). exact F. }
  replace (Zlen (x ++ 0 :: junk)) with (vh_record_size h - VGF_HEADER_SIZE - 40) in RT by (unfold Zlen, VGF_HEADER_SIZE; rewrite HR; lia).
  unfold bindR at 1 in DL. rewrite RT in DL. unfold bindR, liftR in DL.
  destruct (select _ _) as [a|] eqn:SE; [|discriminate]. unfold retR in DL.
  match type of DL with Ok (?m, _) = _ => assert (l = m) as -> by congruence end.
  eexists. split; [exact EL|]. split; [reflexivity|]. cbn [ve_attrs]. clear - SE CR.
  rewrite (select_key _ _ _ "text" SE 10%nat "clean_text" eq_refl) by
    (cbn; try reflexivity; intros j J; do 10 (destruct j as [|j]; [cbn; congruence|]); lia).
  apply (lookup_app_last _ _ _ (create_keys _ _ _ _ CR "clean_text" ltac:(intros n; cbn; congruence))).
Qed.
Print Assumptions C53_text_elements.

(** 'Hi' and a NUL *)
Definition text_file : bytes := header_bytes 17 5 83 ++ repeat 0 40 ++ [72; 105; 0].
Example C53_elements_satisfiable : forall tca, exists s, vstep tca (vgf_start text_file) = Ok (inl s) /\ class_at text_file 0 = 5 /\ type_at text_file 0 = 17 /\
  firstn (Z.to_nat (size_at text_file 0) - 80) (skipn (0 + 80) text_file) = [72; 105] ++ 0 :: [] /\
  map (fun e => lookup "text" (ve_attrs e)) (vs_elements s) = [Some (VText [72; 105])].
Proof. intros tca. eexists. split; [vm_compute; reflexivity|]. vm_compute. auto. Qed.
Example C53_text_satisfiable : field_here (mk_iobuf (text_file ++ [1]) 80 []) [72; 105; 0].
Proof. split; [cbn; lia|reflexivity]. Qed.

(** Fixed-width text fields of a record's structure, and the version and notes of the file
    header, when they hold a NUL: the text before the first NUL, without white space at its ends.
    Missing from the property as stated: fields without a NUL. *)
Theorem C53_fixed_width_partial : forall s x junk, text s -> ~ In 0 s -> utf8_encode s = Ok x ->
  decode_strip_null (x ++ 0 :: junk) = ustrip s.
Proof. intros s x junk T N E. apply strip_terminated; auto. apply Forall_forall. intros c I ->. auto. Qed.
Print Assumptions C53_fixed_width_partial.
(** False of every field that its text fills to the end: the last character is lost. *)
Theorem C53_full_field_refuted : forall s c x, text (s ++ [c]) -> ~ In 0 (s ++ [c]) -> utf8_encode (s ++ [c]) = Ok x ->
  decode_strip_null x = ustrip s.
Proof. intros s c x T N E. apply (strip_full s c); auto. apply Forall_forall. intros y I ->. auto. Qed.
Print Assumptions C53_full_field_refuted.
(** 'Añb' in UTF-8, with and without a NUL *)
Example C53_satisfiable : text [65; 241; 98] /\ utf8_encode [65; 241; 98] = Ok [65; 195; 177; 98] /\
  decode_strip_null [65; 195; 177; 98; 0; 255; 120] = [65; 241; 98] /\ decode_strip_null [65; 195; 177; 98] = [65; 241].
Proof. split; [repeat constructor; unfold scalar; lia|]. vm_compute. auto. Qed.

(** ** C69 *)

(** Wherever the reader comes to a complete tropical cyclone error, track or break point record or
    a significant weather record (class 15, types 40 to 43) with an acceptable header, opening the
    file raises: nothing of the file can be read. *)
Theorem C69_never_open : forall tca data s, reached tca data s -> io_data (vs_buf s) = data -> 0 <= io_offset (vs_buf s) ->
  let p := Z.to_nat (io_offset (vs_buf s)) in
  accepted data p -> class_at data p = 15 -> 40 <= type_at data p <= 43 ->
  exists x, opens tca data (Err x) /\ forall st, ~ opens tca data (Ok st).
Proof.
  intros tca data s R D O p A C T. unfold p in *. rewrite <- D in A, C, T. destruct (refused_err tca s O A C T) as (x & E).
  assert (OP : opens tca data (Err x)).
  { assert (G : forall n, vrun tca (n + 1) s = Some (Err x)) by (intros n; rewrite Nat.add_comm; cbn [Nat.add vrun]; rewrite E; reflexivity).
    assert (Q : exists k, forall n r, vrun tca n s = Some r -> vrun tca (k + n) (vgf_start data) = Some r).
    { clear - R. induction R as [|s s' R (k & IH) H]; [exists 0%nat; auto|]. exists (k + 1)%nat. intros n r V.
      rewrite <- Nat.add_assoc. apply IH. cbn [Nat.add vrun]. rewrite H. exact V. }
    destruct Q as (k & Q). exists (k + 1)%nat. apply Q. exact (G 0%nat). }
  exists x. split; [exact OP|]. intros st S. pose proof (C48_one_result _ _ _ _ OP S). discriminate.
Qed.
Print Assumptions C69_never_open.
Definition break_point_file : bytes := header_bytes 42 15 400 ++ repeat 0 360.
Example C69_satisfiable : forall tca, reached tca break_point_file (vgf_start break_point_file) /\ accepted break_point_file 0 /\
  class_at break_point_file 0 = 15 /\ type_at break_point_file 0 = 42.
Proof. intros tca. split; [constructor|]. split; [|split; reflexivity]. vm_compute. repeat split; try discriminate; lia. Qed.
