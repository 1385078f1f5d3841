(** Properties C11-C17 and C20: GRIB packing of grids. *)
From Coq Require Import Lia ZifyBool ZifyNat Lqa Qabs.
From Verif Require Import Base BaseFacts SpecGrib Grib GribFacts GribQFacts.
Open Scope Z_scope.

(** C11: packing then unpacking returns the same integers, for every bit count, length and
    content (at least two output words; see C16 for one word). *)
Theorem C11_bits_round_trip : forall nbits vals,
  1 <= nbits <= 31 -> Forall (fits nbits) vals -> 32 < nbits * Zlen vals ->
  exists words, pack_words nbits vals = Ok words /\ unpack_words words nbits (Zlen vals) = Ok vals.
Proof.
  intros nbits vals Hn HV HL.
  destruct (pack_words_ok nbits Hn vals) as [w Hw]; [unfold clen; lia|].
  exists w. split; [exact Hw|]. exact (pack_unpack nbits vals w Hn HV Hw).
Qed.
Print Assumptions C11_bits_round_trip.

Example C11_example :
  let vals := [5; 127; 0; 64; 99; 1; 126] in
  (32 <? 7 * Zlen vals) = true /\ forallb (fun v => (0 <=? v) && (v <? 2 ^ 7)) vals = true /\
  match pack_words 7 vals with Ok w => unpack_words w 7 7 = Ok vals | Err _ => False end.
Proof. vm_compute. repeat split. Qed.

(** C11/C12: the words, read as one unsigned big-endian bit string, are the fields in order
    followed by zero padding up to the word boundary. *)
Theorem C11_bit_layout : forall nbits vals words,
  1 <= nbits <= 31 -> Forall (fits nbits) vals -> pack_words nbits vals = Ok words ->
  concat_bits 32 (map (fun w => w mod 2 ^ 32) words)
  = concat_bits nbits vals * 2 ^ (32 * words_for (nbits * Zlen vals) - nbits * Zlen vals).
Proof.
  intros nbits vals words Hn HV HP.
  pose proof (packed_number nbits Hn vals HV words HP) as H.
  change (2 ^ 32) with two32. rewrite H. do 3 f_equal. unfold clen, words_for.
  generalize (nbits * Zlen vals). intros e. lia.
Qed.
Print Assumptions C11_bit_layout.

(** C11: the reader takes field i from bits i*nbits .. (i+1)*nbits-1 of any packed buffer. *)
Theorem C11_reader_fields : forall nbits words k,
  1 <= nbits <= 31 -> 0 <= k -> nbits * k <= 32 * Zlen words ->
  exists out, unpack_words words nbits k = Ok out /\ Zlen out = k /\
  forall i, 0 <= i < k ->
    nth_error out (Z.to_nat i) =
    Some ((concat_bits 32 (map (fun w => w mod 2 ^ 32) words) / 2 ^ (32 * Zlen words - nbits * (i + 1))) mod 2 ^ nbits).
Proof.
  intros nbits words k Hn Hk HL. exists (map (field nbits words) (zrange k)).
  split; [apply unpack_words_spec; assumption|].
  split; [rewrite Zlen_map; unfold zrange; rewrite Zlen_map; unfold Zlen; rewrite seq_length; lia|].
  intros i Hi. unfold zrange. rewrite map_map.
  rewrite (map_nth_error _ _ _ (d := Z.to_nat i)).
  - unfold field. rewrite Z2Nat.id by lia. rewrite Z.shiftr_div_pow2 by nia. reflexivity.
  - rewrite (nth_error_nth' _ O) by (rewrite seq_length; lia). rewrite seq_nth by lia. reflexivity.
Qed.
Print Assumptions C11_reader_fields.

(** C12 *)
Theorem C12_packed_length : forall grid missing nbits ref scale words,
  pack_grib grid missing nbits = Ok (ref, scale, words) ->
  Zlen words = words_for (nbits * Zlen grid) /\
  Forall (fun w => - 2 ^ 31 <= w < 2 ^ 31) words.
Proof.
  intros grid m nbits r s ws H.
  apply pack_grib_inv in H as (Hn & _ & _ & [(_ & _ & _ & ->)|(k & vals & _ & _ & Hv & Hfit & Hp)]).
  - pose proof (packed_length_clen nbits (Zlen grid)) as HPL.
    pose proof (Zlen_nonneg grid). assert (0 <= nbits * Zlen grid) by nia.
    rewrite Zlen_repeat, HPL. split.
    + unfold clen, words_for. generalize dependent (nbits * Zlen grid). intros. lia.
    + clear. induction (Z.to_nat (clen nbits (Zlen grid))); cbn [repeat]; constructor; [lia|assumption].
  - destruct (pack_words_spec nbits Hn vals Hfit ws Hp) as (HL & HC & HW).
    assert (HE : Zlen vals = Zlen grid) by (subst vals; apply Zlen_map).
    rewrite HE in *. split.
    + unfold Zlen at 1. rewrite HL. unfold clen, words_for in *. generalize dependent (nbits * Zlen grid). intros. lia.
    + apply Forall_forall. intros w Hin. destruct (In_nth _ _ 0 Hin) as (j & Hj & <-).
      destruct (HW (Z.of_nat j)) as [_ HB]; [lia|]. rewrite Nat2Z.id in HB. exact HB.
Qed.
Print Assumptions C12_packed_length.

Definition sample_grid : list Q := [1#2; 3#4; -9999#1; 17#8; 30#1; 2#1; 7#2; -3#1].

Example C12_example : match pack_grib sample_grid (-9999) 12 with Ok _ => True | Err _ => False end.
Proof. vm_compute. exact I. Qed.

Open Scope Q_scope.

(** C13: error bound and exactness of the minimum.  [stored_ref] is the reference read back from
    the file (a binary32 number); the scale is a power of two between 2^-126 and 2^32, which
    binary32 stores exactly. *)
Theorem C13_quantization_error : forall grid missing nbits ref scale words stored_ref,
  grid <> [] -> pack_grib grid missing nbits = Ok (ref, scale, words) ->
  is_minimum ref grid /\
  (exists k, (-126 <= k <= 32)%Z /\ scale == two_to k) /\
  exists out, unpack_grib words nbits (Zlen grid) stored_ref scale None = Ok out /\
    (length out = length grid)%nat /\
    forall i x y, nth_error grid i = Some x -> nth_error out i = Some y -> ~ x == missing ->
      Qabs (y - x) <= scale * (1#2) + Qabs (stored_ref - ref) /\
      (x == ref -> y == stored_ref).
Proof.
  intros grid m nbits r s ws r' Hg H.
  split; [eapply ref_is_min; eassumption|]. split.
  { destruct (unpack_pack_grib _ _ _ _ _ _ None r' H) as (k & (Hs & Hk) & _).
    exists (- k)%Z. split; [lia|]. rewrite Hs. reflexivity. }
  destruct (grib_cells _ _ _ _ _ _ None r' H) as (out & HU & HL & HC).
  exists out. split; [exact HU|]. split; [exact HL|].
  intros i x y Hx Hy Hm. destruct (HC i x y Hx Hy) as (c & -> & _ & HN).
  destruct (HN Hm) as (HE & H0 & _). cbn [reconstruct]. split.
  - assert (E : r' + inject_Z c * s - x == (r + inject_Z c * s - x) + (r' - r)) by ring.
    rewrite E. eapply Qle_trans; [apply Qabs_triangle|]. lra.
  - intros Hxr. rewrite (H0 Hxr). change (inject_Z 0) with 0. ring.
Qed.
Print Assumptions C13_quantization_error.

(** C13 with the missing code in use: same bound for every present cell whose distance from the
    minimum stays half a step below the missing code. *)
Theorem C13_quantization_error_flagged : forall grid missing nbits ref scale words stored_ref,
  pack_grib grid missing nbits = Ok (ref, scale, words) ->
  exists out, unpack_grib words nbits (Zlen grid) stored_ref scale (Some missing) = Ok out /\
    (length out = length grid)%nat /\
    forall i x y, nth_error grid i = Some x -> nth_error out i = Some y -> ~ x == missing ->
      x - ref < (inject_Z (2 ^ nbits - 1) - (1#2)) * scale ->
      Qabs (y - x) <= scale * (1#2) + Qabs (stored_ref - ref).
Proof.
  intros grid m nbits r s ws r' H.
  destruct (grib_cells _ _ _ _ _ _ (Some m) r' H) as (out & HU & HL & HC).
  exists out. split; [exact HU|]. split; [exact HL|].
  intros i x y Hx Hy Hm Hlt. destruct (HC i x y Hx Hy) as (c & -> & _ & HN).
  destruct (HN Hm) as (HE & _ & H1 & _). cbn [reconstruct]. fold (imaxz nbits) in Hlt.
  specialize (H1 _ Hlt). destruct (Z.eqb_spec c (imaxz nbits)); [lia|].
  assert (E : r' + inject_Z c * s - x == (r + inject_Z c * s - x) + (r' - r)) by ring.
  rewrite E. eapply Qle_trans; [apply Qabs_triangle|]. lra.
Qed.
Print Assumptions C13_quantization_error_flagged.

(** C14: missing cells decode as the missing value. *)
Theorem C14_missing_stays_missing : forall grid missing nbits ref scale words stored_ref,
  pack_grib grid missing nbits = Ok (ref, scale, words) ->
  exists out, unpack_grib words nbits (Zlen grid) stored_ref scale (Some missing) = Ok out /\
    (length out = length grid)%nat /\
    forall i x y, nth_error grid i = Some x -> nth_error out i = Some y -> x == missing -> y = missing.
Proof.
  intros grid m nbits r s ws r' H.
  destruct (grib_cells _ _ _ _ _ _ (Some m) r' H) as (out & HU & HL & HC).
  exists out. split; [exact HU|]. split; [exact HL|].
  intros i x y Hx Hy Hm. destruct (HC i x y Hx Hy) as (c & -> & HM & _).
  rewrite (HM Hm). cbn [reconstruct]. rewrite Z.eqb_refl. reflexivity.
Qed.
Print Assumptions C14_missing_stays_missing.

(** C15 is false: a present cell can be rounded up to the missing code. *)
Theorem C15_present_stays_present_refuted :
  exists grid missing nbits ref scale words out x,
    pack_grib grid missing nbits = Ok (ref, scale, words) /\
    unpack_grib words nbits (Zlen grid) ref scale (Some missing) = Ok out /\
    nth_error grid 1 = Some x /\ ~ x == missing /\ nth_error out 1 = Some missing.
Proof.
  exists [0; 262139 # 2; 5; 7], (-9999), 16%Z, 0, 2, [65535; 131076]%Z.
  exists [0 + inject_Z 0 * 2; -9999; 0 + inject_Z 2 * 2; 0 + inject_Z 4 * 2], (262139 # 2).
  split; [vm_compute; reflexivity|]. split; [vm_compute; reflexivity|].
  split; [reflexivity|]. split; [intros E; vm_compute in E; discriminate|reflexivity].
Qed.
Print Assumptions C15_present_stays_present_refuted.

(** C15, restricted: a present cell farther than half a step from the missing value and at least
    half a step below the top code does not decode as missing. *)
Theorem C15_present_stays_present_partial : forall grid missing nbits ref scale words,
  pack_grib grid missing nbits = Ok (ref, scale, words) ->
  exists out, unpack_grib words nbits (Zlen grid) ref scale (Some missing) = Ok out /\
    (length out = length grid)%nat /\
    forall i x y, nth_error grid i = Some x -> nth_error out i = Some y ->
      scale * (1#2) < Qabs (x - missing) ->
      x - ref < (inject_Z (2 ^ nbits - 1) - (1#2)) * scale ->
      ~ y == missing.
Proof.
  intros grid m nbits r s ws H.
  destruct (C13_quantization_error_flagged _ _ _ _ _ _ r H) as (out & HU & HL & HC).
  exists out. split; [exact HU|]. split; [exact HL|].
  intros i x y Hx Hy Hd Hlt E.
  destruct (unpack_pack_grib _ _ _ _ _ _ None r H) as (k & (Hs & _) & _).
  pose proof (pow2_pos (- k)) as Hp. rewrite <- Hs in Hp.
  assert (Hm : ~ x == m).
  { intros Em. assert (Z0 : x - m == 0) by lra. rewrite Z0 in Hd. change (Qabs 0) with 0 in Hd. lra. }
  specialize (HC i x y Hx Hy Hm Hlt).
  assert (Z0 : r - r == 0) by ring. rewrite Z0 in HC. change (Qabs 0) with 0 in HC.
  rewrite E in HC. rewrite <- Qabs_opp in HC. assert (E2 : - (m - x) == x - m) by ring.
  rewrite E2 in HC. lra.
Qed.
Print Assumptions C15_present_stays_present_partial.

(** C15 for grids whose range is widened: when the range rounds below the missing code no cell
    reaches it. *)
Theorem C15_no_collision_when_range_small_partial : forall grid missing nbits ref scale words lo hi,
  pack_grib grid missing nbits = Ok (ref, scale, words) ->
  is_minimum lo grid -> is_maximum hi grid -> hi - lo < inject_Z (2 ^ nbits - 1) - (1#2) ->
  exists out, unpack_grib words nbits (Zlen grid) ref scale (Some missing) = Ok out /\
    (length out = length grid)%nat /\
    forall i x y, nth_error grid i = Some x -> nth_error out i = Some y -> ~ x == missing ->
      Qabs (y - x) <= scale * (1#2).
Proof.
  intros grid m nbits r s ws lo hi H Hlo Hhi Hr.
  destruct (grib_cells _ _ _ _ _ _ (Some m) r H) as (out & HU' & HL & HC).
  exists out. split; [exact HU'|]. split; [exact HL|].
  intros i x y Hx Hy Hm. destruct (HC i x y Hx Hy) as (c & -> & _ & HN).
  destruct (HN Hm) as (HE & _ & _ & H1). cbn [reconstruct].
  destruct (Z.eqb_spec c (imaxz nbits)) as [Ec|]; [exfalso|exact HE].
  destruct Hlo as [(xl & Hxl & Exl) Hlo]. destruct Hhi as [(xh & Hxh & Exh) Hhi].
  assert (g_max m grid <= hi).
  { destruct grid as [|g0 gr]; [destruct Hxl|]. apply Hhi. apply list_qmax_in. }
  assert (lo <= g_min m grid).
  { destruct grid as [|g0 gr]; [destruct Hxl|]. apply Hlo. apply list_qmin_in. }
  fold (imaxz nbits) in Hr. assert (c < imaxz nbits)%Z; [apply H1; lra|lia].
Qed.
Print Assumptions C15_no_collision_when_range_small_partial.

Example C15_example :
  match pack_grib sample_grid (-9999) 16 with
  | Ok (r, s, w) => match unpack_grib w 16 8 r s (Some (-9999)) with
                    | Ok out => nth_error out 2 = Some (-9999) /\ Qeq_bool r (-9999) = true | Err _ => False end
  | Err _ => False end.
Proof. vm_compute. split; reflexivity. Qed.

(** C16 is false for grids that fit in one word: a varying one makes the packer raise, a constant
    one is dropped by the reader. *)
Theorem C16_one_word_refuted :
  (exists grid nbits, (1 <= nbits <= 31)%Z /\ (1 <= Zlen grid)%Z /\ pack_grib grid (-9999) nbits = Err ValueError) /\
  (exists grid nbits ref scale words, (1 <= nbits <= 31)%Z /\ (1 <= Zlen grid)%Z /\
     pack_grib grid (-9999) nbits = Ok (ref, scale, words) /\
     read_grib_grid words nbits (Zlen grid) ref scale (Some (-9999)) = Ok None).
Proof.
  split.
  - exists [1; 2; 3; 4], 8%Z. vm_compute. repeat split; discriminate.
  - exists [1; 1; 1; 1], 8%Z, 1, 1, [0%Z]. vm_compute. repeat split; discriminate.
Qed.
Print Assumptions C16_one_word_refuted.

(** C16 restricted to grids that need at least two words and whose range rounds to a 31-bit
    integer: packing succeeds and the reader returns every cell. *)
Theorem C16_written_grid_is_read_partial : forall grid missing nbits lo hi,
  (1 <= nbits <= 31)%Z -> (32 < nbits * Zlen grid)%Z ->
  is_minimum lo grid -> is_maximum hi grid -> hi - lo <= 2147483647 ->
  exists ref scale words out,
    pack_grib grid missing nbits = Ok (ref, scale, words) /\
    read_grib_grid words nbits (Zlen grid) ref scale (Some missing) = Ok (Some out) /\
    (length out = length grid)%nat.
Proof.
  intros grid m nbits lo hi Hn HL Hlo Hhi Hr.
  destruct (pack_grib_total grid m nbits lo hi Hn HL Hlo Hhi Hr) as (r & s & ws & HP).
  destruct (grib_cells _ _ _ _ _ _ (Some m) r HP) as (out & HU & HLen & _).
  exists r, s, ws, out. split; [exact HP|]. split; [|exact HLen].
  unfold read_grib_grid. rewrite HU. cbn [bind].
  destruct (C12_packed_length _ _ _ _ _ _ HP) as [HW _].
  assert (1 < Zlen ws)%Z.
  { rewrite HW. unfold words_for. clear - HL. generalize dependent (nbits * Zlen grid)%Z. intros. lia. }
  destruct (Z.gtb_spec (Zlen ws) 1); [reflexivity|lia].
Qed.
Print Assumptions C16_written_grid_is_read_partial.

(** C17: the search for the scale always terminates (the fuel of the two loops is never used up)
    and its result is maximal: doubling the precision once more would reach the missing code. *)
Theorem C17_scale_terminates_and_maximal : forall range nbits,
  (1 <= nbits <= 31)%Z -> 0 <= range -> range <= 2147483647 ->
  exists k, find_scale range nbits = Ok k /\ (-32 <= k <= 126)%Z /\
    range * two_to k < inject_Z (2 ^ nbits - 1) + (1#2) /\
    (two_to (-126) * inject_Z (2 ^ nbits - 1) < range ->
       inject_Z (2 ^ nbits - 1) - (1#2) <= range * two_to (k + 1)).
Proof.
  intros q nbits Hn H0 Hr.
  destruct (find_scale_spec q nbits Hn H0) as (k & H1 & H2 & _ & H3 & _ & _ & H4).
  { apply rhe_le. exact Hr. }
  exists k. split; [exact H1|]. split; [exact H2|]. split; [exact H3|].
  intros HT. specialize (H4 HT). pose proof (rhe_spec (q * pow2 (k + 1))) as [R1 R2].
  assert (inject_Z (imaxz nbits) <= inject_Z (round_half_even (q * pow2 (k + 1)))) by (rewrite <- Zle_Qle; exact H4).
  unfold imaxz in *. change (two_to (k + 1)) with (pow2 (k + 1)). lra.
Qed.
Print Assumptions C17_scale_terminates_and_maximal.

(** C17, the widening branch: the whole range stays below the missing code. *)
Theorem C17_widening_stays_below_missing : forall range nbits k,
  (1 <= nbits <= 31)%Z -> 0 <= range -> range < inject_Z (2 ^ nbits - 1) - (1#2) ->
  find_scale range nbits = Ok k ->
  (0 <= k)%Z /\ range * two_to k < inject_Z (2 ^ nbits - 1).
Proof.
  intros q nbits k Hn H0 Hr HF. pose proof (imaxz_range nbits Hn) as HI. unfold imaxz in HI.
  assert (HI2 : inject_Z (2 ^ nbits - 1) <= 2147483647) by (change 2147483647 with (inject_Z 2147483647); rewrite <- Zle_Qle; lia).
  assert (HQ : (round_half_even q < imaxz nbits)%Z).
  { pose proof (rhe_spec q) as [R3 R4].
    destruct (Z_lt_ge_dec (round_half_even q) (imaxz nbits)) as [|G]; [assumption|].
    assert (inject_Z (imaxz nbits) <= inject_Z (round_half_even q)) by (rewrite <- Zle_Qle; lia). unfold imaxz in *. lra. }
  destruct (find_scale_spec q nbits Hn H0) as (k' & H1 & H2 & _ & _ & H3 & _ & _).
  { unfold imaxz in HQ. lia. }
  rewrite HF in H1. injection H1 as <-.
  specialize (H3 HQ). split.
  - revert HF. unfold find_scale. fold (imaxz nbits). destruct (Qltb _ _); [|intros E; injection E as <-; lia].
    destruct (Z.geb_spec (round_half_even q) (imaxz nbits)); [lia|].
    assert (G : forall f n r, scale_up f q (imaxz nbits) n = Ok r -> (n <= r)%Z).
    { clear. induction f as [|f IH]; intros n r; cbn [scale_up]; [discriminate|].
      destruct (_ <? _)%Z; intros E; [apply IH in E; lia|injection E as <-; lia]. }
    apply G.
  - pose proof (rhe_spec (q * pow2 k)) as [_ R]. apply inject_lt in H3.
    unfold imaxz in H3. change (two_to k) with (pow2 k). lra.
Qed.
Print Assumptions C17_widening_stays_below_missing.

(** C20 *)
Theorem C20_bad_precision_rejected : forall grid missing nbits,
  ~ (1 <= nbits <= 31)%Z -> pack_grib grid missing nbits = Err ValueError.
Proof.
  intros grid m nbits H. unfold pack_grib.
  destruct (Z.ltb_spec nbits 1); [reflexivity|]. destruct (Z.gtb_spec nbits 31); [reflexivity|lia].
Qed.
Print Assumptions C20_bad_precision_rejected.
