(** Opening a written file: the reader recovers the label, the keys, the parts and the
    parameters from the sections to_gempak wrote. *)
From Coq Require Import Lia ZifyBool ZifyNat.
From Verif Require Import Base BaseFacts Words Layout LayoutFacts Floats FloatsFacts Structs StructsFacts
  Strings StringsFacts Headers HeadersFacts SpecLayout DmFile StreamFacts DmWriteFacts DmHookFacts.
Ltac Zify.zify_post_hook ::= Z.div_mod_to_equations.

(** What a four-character field gives back. *)
Definition clean (s : str) : str := strip (firstn 4 s).

Lemma stored_strings ws n : word_list ws -> length ws = n ->
  stored_vals (repeat (FStr 4) n) (map VBytes ws) = map VBytes ws.
Proof.
  intros H <-. induction H as [|w ws Hw _ IH]; [reflexivity|].
  cbn [length repeat map stored_vals stored]. rewrite IH, fit_exact by exact Hw. reflexivity.
Qed.
Lemma stored_ints zs : stored_vals (repeat FInt (length zs)) (map VInt zs) = map VInt zs.
Proof. induction zs as [|z zs IH]; [reflexivity|]. cbn [length repeat map stored_vals stored]. rewrite IH. reflexivity. Qed.
Lemma as_ints_map zs : as_ints (map VInt zs) = Ok zs.
Proof. unfold as_ints. induction zs as [|z zs IH]; [reflexivity|]. cbn [map mapM as_int bind]. rewrite IH. reflexivity. Qed.
Lemma stored_vals_app f1 v1 f2 v2 : length v1 = nvals f1 ->
  stored_vals (f1 ++ f2) (v1 ++ v2) = stored_vals f1 v1 ++ stored_vals f2 v2.
Proof.
  revert v1; induction f1 as [|c f1 IH]; intros v1 H; cbn in H.
  - destruct v1; [reflexivity|discriminate].
  - destruct c; cbn [app stored_vals]; try (destruct v1 as [|v v1]; [discriminate H|]; cbn [app]; rewrite IH by (cbn in H; lia); reflexivity).
    apply IH. exact H.
Qed.

Lemma keys_conv names ws : mapM word_of_str names = Ok ws ->
  mapM (fun v => b <- as_bytes v ;; decode_strip b) (map VBytes ws) = Ok (map clean names).
Proof.
  intros H. apply mapM_ok_Forall2 in H. induction H as [|x w names ws H _ IH]; [reflexivity|].
  cbn [map mapM as_bytes bind]. rewrite (decode_word _ _ H). cbn [bind]. rewrite IH. reflexivity.
Qed.
Lemma read_keys_at e d ptr names ws : mapM word_of_str names = Ok ws -> names <> [] ->
  words_at ws ptr d -> read_keys e d ptr (Zlen names) = Ok (map clean names).
Proof.
  intros H Hn HA. pose proof (mapM_ok_length _ _ _ H) as L. destruct (strings_words _ _ H) as [W _].
  destruct HA as [->|HA]; [destruct names; [congruence|discriminate L]|].
  unfold read_keys, word_to_position. replace (ptr * 4 - 4) with (4 * (ptr - 1)) by lia. rewrite Zlen_length.
  rewrite (rd_packed e _ _ ws d _ (packed_strings e names ws H) HA).
  rewrite stored_strings by (assumption || lia). cbn [bind]. apply keys_conv. exact H.
Qed.

(** ** Label *)
Definition label_of (h : dmhead) (p : pointers) : dmlabel :=
  mk_label (Zlen (hd_file_headers h)) (file_keys_ptr p) (hd_rows h) (Zlen (hd_row_names h)) (row_keys_ptr p)
    (row_headers_ptr p) (hd_columns h) (Zlen (hd_column_names h)) (column_keys_ptr p)
    (column_headers_ptr p) (Zlen (hd_parts h)) (parts_ptr p) data_mgmt_ptr data_mgmt_length (data_block_ptr p)
    (hd_file_type h) (data_source_of (hd_data_source h)) 11 missing_int (np32 missing_float) 1.

Lemma label_split e h p lb : struct_pack e label_fmt (label_values h p) = Ok lb ->
  exists rest, lb = GEMPAK_HEADER ++ rest /\ struct_pack e rlabel_fmt (tl (label_values h p)) = Ok rest.
Proof.
  unfold label_fmt, label_values. intros H. cbn [struct_pack pack_item] in H.
  change (struct_pack e (repeat FInt 20 ++ [FPad 12; FFloat])) with (struct_pack e rlabel_fmt) in H.
  destruct (struct_pack e rlabel_fmt _) as [rest|] eqn:E in H; cbn [bind] in H; [|discriminate H].
  apply ok_inj in H. exists rest. split; [symmetry; exact H|]. exact E.
Qed.

Lemma has_at_label e h p d lb : struct_pack e label_fmt (label_values h p) = Ok lb -> has_at d 0 lb ->
  check_header d = Ok tt /\ swap_check d = e /\
  (is_file_type (hd_file_type h) = true -> read_label e d 28 = Ok (label_of h p)).
Proof.
  intros H HA. destruct (label_split _ _ _ _ H) as (rest & -> & HR). apply has_at_app in HA as [A1 A2].
  change (0 + Zlen GEMPAK_HEADER) with 28 in A2. split; [|split].
  - unfold check_header. rewrite (rd_struct_has LE [FStr 28] d 0 [VBytes GEMPAK_HEADER] GEMPAK_HEADER); [reflexivity|reflexivity|exact A1].
  - assert (exists w r, rest = w ++ r /\ w = enc_uint e 4 1) as (w & r & -> & Ew).
    { unfold rlabel_fmt, label_values in HR. cbn [tl repeat app struct_pack pack_item] in HR.
      change (pack_i32 e 1) with (Ok (enc_uint e 4 1)) in HR. cbn [bind] in HR.
      match type of HR with bind ?m _ = _ => destruct m as [r|] end; cbn [bind] in HR; [|discriminate HR].
      apply ok_inj in HR. exists (enc_uint e 4 1), r. split; [symmetry; exact HR|reflexivity]. }
    apply has_at_app in A2 as [A2 _]. destruct (has_at_skipn _ _ _ A2) as [tl2 E2].
    destruct A2 as (_ & B2 & _).
    assert (Lw : length w = 4%nat) by (subst w; apply enc_uint_length).
    unfold swap_check. rewrite py_slice_in by (unfold Zlen in *; lia).
    change (Z.to_nat (32 - 28)) with 4%nat. rewrite E2, firstn_app_exact by exact Lw. subst w.
    destruct e; reflexivity.
  - intros Hft. unfold read_label. rewrite (rd_struct_has e rlabel_fmt d 28 _ rest HR A2). cbn [bind].
    unfold rlabel_fmt, label_values. cbn [tl repeat app stored_vals stored firstn].
    cbn [nth_error as_float bind]. unfold as_ints. cbn [mapM as_int bind]. rewrite Hft. reflexivity.
Qed.

(** ** Data management record *)
Lemma read_mgmt e d nf mg p : struct_pack e data_mgmt_fmt [VInt nf; VInt MMFREE; VInt 0; VInt 0] = Ok mg ->
  has_at d p mg -> rd_struct e (repeat FInt 32) d p = Ok (map VInt (nf :: MMFREE :: repeat 0 30)).
Proof.
  intros H HA. unfold data_mgmt_fmt in H. cbn [struct_pack pack_item] in H.
  destruct (pack_i32 e nf) as [w1|] eqn:E1; cbn [bind] in H; [|discriminate H].
  destruct (pack_i32 e MMFREE) as [w2|] eqn:E2; cbn [bind] in H; [|discriminate H].
  destruct (pack_i32 e 0) as [w3|] eqn:E3; cbn [bind] in H; [|discriminate H].
  apply ok_inj in H.
  assert (EZ : struct_pack e (repeat FInt 28) (repeat (VInt 0) 28) = Ok (repeat 0 112)) by (destruct e; reflexivity).
  assert (E : struct_pack e (repeat FInt 32) (map VInt (nf :: MMFREE :: repeat 0 30)) =
              Ok (w1 ++ w2 ++ w3 ++ w3 ++ repeat 0 112)).
  { change (repeat FInt 32) with (FInt :: FInt :: FInt :: FInt :: repeat FInt 28).
    change (map VInt (nf :: MMFREE :: repeat 0 30)) with (VInt nf :: VInt MMFREE :: VInt 0 :: VInt 0 :: repeat (VInt 0) 28).
    cbn [struct_pack pack_item]. rewrite E1, E2, E3. cbn [bind]. rewrite EZ. reflexivity. }
  rewrite (rd_struct_has e _ d p _ _ E).
  - change 32%nat with (length (nf :: MMFREE :: repeat 0 30)). rewrite stored_ints. reflexivity.
  - subst mg. rewrite app_nil_r in HA. change (repeat 0 464) with (repeat 0 112 ++ repeat 0 352) in HA.
    rewrite !app_assoc in HA. apply has_at_app in HA as [HA _]. rewrite !app_assoc. exact HA.
Qed.

(** ** Parts and parameters (one part) *)
Lemma read_items_words e c d p ws vs : word_list ws -> length vs = length ws ->
  (forall k w v, nth_error ws k = Some w -> nth_error vs k = Some v -> pack_item e c v = Ok w) ->
  (forall n, c <> FPad n) ->
  (ws = [] \/ has_at d p (concat ws)) ->
  read_items e c d p (Zlen ws) = Ok (map (stored c) vs).
Proof.
  intros HW HL HP Hc HA. unfold read_items, zrange. rewrite Zlen_length.
  assert (GO : forall k vs, (length vs + k <= length ws)%nat ->
     (forall j v, nth_error vs j = Some v -> exists w, nth_error ws (k + j) = Some w /\ pack_item e c v = Ok w) ->
     mapM (fun i => vs <- rd_struct e [c] d (p + 4 * i) ;; py_index vs 0) (map Z.of_nat (seq k (length vs))) =
     Ok (map (stored c) vs)).
  { intros k vs'. revert k. induction vs' as [|v vs' IH]; intros k HK HV; [reflexivity|].
    cbn [length seq map mapM].
    destruct (HV O v eq_refl) as (w & Nw & Pw). rewrite Nat.add_0_r in Nw.
    destruct HA as [->|HA]; [destruct k; discriminate Nw|].
    pose proof (has_at_word d p ws k w HW HA Nw) as Hk.
    rewrite (rd_struct_has e [c] d _ [v] w).
    - cbn [bind].
      assert (stored_vals [c] [v] = [stored c v]) as -> by (destruct c; try reflexivity; destruct (Hc n); reflexivity).
      change (py_index [stored c v] 0) with (Ok (stored c v)). cbn [bind]. rewrite IH; [reflexivity|cbn in HK; lia|].
      intros j v' Hj. destruct (HV (S j) v' Hj) as (w' & N' & P'). exists w'. split; [|exact P']. rewrite <- N'. f_equal. lia.
    - cbn [struct_pack]. destruct c; try (rewrite Pw; cbn [bind]; rewrite app_nil_r; reflexivity). destruct (Hc n); reflexivity.
    - exact Hk. }
  rewrite <- HL. apply GO; [lia|]. intros j v Hv.
  destruct (nth_error ws j) as [w|] eqn:Ew.
  - exists w. split; [exact Ew|]. apply (HP j); assumption.
  - apply nth_error_None in Ew. assert (j < length vs)%nat by (apply nth_error_Some; congruence). lia.
Qed.

Lemma Forall2_nth {A B} (R : A -> B -> Prop) l1 l2 : Forall2 R l1 l2 ->
  forall k a b, nth_error l1 k = Some a -> nth_error l2 k = Some b -> R a b.
Proof. induction 1; intros [|k] x' y' H1 H2; cbn in *; try discriminate; [congruence|eauto]. Qed.

Lemma read_attr_strings e d p l ws : mapM word_of_str l = Ok ws ->
  (ws = [] \/ has_at d p (concat ws)) ->
  read_attr e (FStr 4) (fun v => b <- as_bytes v ;; decode_strip b) d p [Zlen l] =
    Ok ([map clean l], p + 4 * Zlen l).
Proof.
  intros H HA. destruct (strings_words _ _ H) as [W L]. cbn [read_attr]. rewrite <- L.
  rewrite (read_items_words e (FStr 4) d p ws (map VBytes ws)); [|exact W|rewrite map_length; reflexivity| |discriminate|exact HA].
  - cbn [bind]. replace (map (stored (FStr 4)) (map VBytes ws)) with (map VBytes ws).
    + rewrite (keys_conv l ws H). cbn [bind]. do 3 f_equal. pose proof (Zlen_nonneg ws). lia.
    + rewrite map_map. apply map_ext_in. intros w HI. unfold stored. rewrite fit_exact; [reflexivity|].
      exact (proj1 (Forall_forall _ _) W w HI).
  - intros k w v Hw Hv. rewrite nth_error_map, Hw in Hv. injection Hv as <-. unfold pack_item. rewrite fit_exact; [reflexivity|].
    apply nth_error_In in Hw. exact (proj1 (Forall_forall _ _) W w Hw).
Qed.
Lemma read_attr_ints e d p l ws : mapM (pack_i32 e) l = Ok ws ->
  (ws = [] \/ has_at d p (concat ws)) ->
  read_attr e FInt as_int d p [Zlen l] = Ok ([l], p + 4 * Zlen l).
Proof.
  intros H HA. destruct (ints_words _ _ _ H) as [W L]. pose proof (mapM_ok_length _ _ _ H) as HL.
  cbn [read_attr]. rewrite <- L.
  rewrite (read_items_words e FInt d p ws (map VInt l)); [|exact W|rewrite map_length; lia| |discriminate|exact HA].
  - cbn [bind]. replace (map (stored FInt) (map VInt l)) with (map VInt l) by (rewrite map_map; reflexivity).
    change (mapM as_int (map VInt l)) with (as_ints (map VInt l)). rewrite as_ints_map. cbn [bind].
    do 3 f_equal. pose proof (Zlen_nonneg ws). lia.
  - intros k w v Hw Hv. rewrite nth_error_map in Hv. destruct (nth_error l k) as [z|] eqn:Ez; [|discriminate Hv].
    injection Hv as <-. cbn. apply mapM_ok_Forall2 in H. exact (Forall2_nth _ _ _ H k z w Ez Hw).
Qed.

Lemma cons_concat_has d p w ws : word_list (w :: ws) -> has_at d p (concat (w :: ws)) ->
  has_at d p w /\ (ws = [] \/ has_at d (p + 4) (concat ws)).
Proof.
  intros HW H. cbn [concat] in H. apply has_at_app in H as [H1 H2]. inversion HW as [|? ? Hw _]; subst.
  split; [exact H1|]. right. replace (p + 4) with (p + Zlen w) by (unfold Zlen; lia). exact H2.
Qed.
Lemma app_concat_has d p ws1 ws2 : word_list ws1 -> has_at d p (concat (ws1 ++ ws2)) ->
  has_at d p (concat ws1) /\ has_at d (p + 4 * Zlen ws1) (concat ws2).
Proof.
  intros HW H. rewrite concat_app in H. apply has_at_app in H as [H1 H2]. split; [exact H1|].
  rewrite word_list_concat in H2 by exact HW. exact H2.
Qed.

Lemma read_parts_at e h pt d ptr ws : hd_parts h = [pt] -> parts_wf h -> part_words e h = Ok ws -> words_at ws ptr d ->
  is_data_type (pt_type pt) = true ->
  read_parts e d ptr 1 = Ok [mk_rpart (clean (pt_name pt)) (pt_header pt) (pt_type pt) (Zlen (pt_parameters pt))] /\
  read_parameters e d (ptr + 4) [Zlen (pt_parameters pt)] =
    Ok [mk_rparams (map clean (pt_parameters pt)) (pt_offset pt) (pt_scale pt) (pt_bits pt)].
Proof.
  intros Hp HF H HA Ht. unfold part_words in H. rewrite Hp in H. unfold parts_wf in HF. rewrite Hp in HF.
  apply forall_inv in HF. destruct HF as [(W1 & W2 & W3) _].
  cbn [map concat] in H. rewrite !app_nil_r in H.
  repeat match type of H with bind ?m _ = _ => let E := fresh "E" in destruct m eqn:E; cbn [bind] in H; [|discriminate H] end.
  apply ok_inj in H.
  cbn [mapM] in E, E0, E1, E2.
  destruct (word_of_str (pt_name pt)) as [wn|] eqn:En; cbn [bind] in E; [|discriminate E]. apply ok_inj in E. subst a.
  destruct (pack_i32 e (pt_header pt)) as [wh|] eqn:Eh; cbn [bind] in E0; [|discriminate E0]. apply ok_inj in E0. subst a0.
  destruct (pack_i32 e (pt_type pt)) as [wt|] eqn:Et; cbn [bind] in E1; [|discriminate E1]. apply ok_inj in E1. subst a1.
  destruct (pack_i32 e (Zlen (pt_parameters pt))) as [wc|] eqn:Ec; cbn [bind] in E2; [|discriminate E2]. apply ok_inj in E2. subst a2.
  pose proof (word_of_str_length _ _ En) as Ln. pose proof (pack_i32_length _ _ _ Eh) as Lh.
  pose proof (pack_i32_length _ _ _ Et) as Lt. pose proof (pack_i32_length _ _ _ Ec) as Lc.
  destruct HA as [->|HA]; [discriminate H|]. subst ws. set (tlw := a3 ++ a4 ++ a5 ++ a6) in *.
  change ([wn] ++ [wh] ++ [wt] ++ [wc] ++ tlw) with ([wn; wh; wt; wc] ++ tlw) in HA.
  apply app_concat_has in HA as [HA HB]; [|repeat constructor; assumption].
  change (Zlen [wn; wh; wt; wc]) with 4 in HB.
  destruct (strings_words _ _ E3) as [V3 L3]. destruct (ints_words _ _ _ E4) as [V4 L4].
  destruct (ints_words _ _ _ E5) as [V5 L5]. destruct (ints_words _ _ _ E6) as [V6 L6].
  assert (N1 : Zlen (pt_offset pt) = Zlen (pt_parameters pt)) by (unfold Zlen; lia).
  assert (N2 : Zlen (pt_scale pt) = Zlen (pt_parameters pt)) by (unfold Zlen; lia).
  assert (N3 : Zlen (pt_bits pt) = Zlen (pt_parameters pt)) by (unfold Zlen; lia).
  split.
  - unfold read_parts. change (1 <? 1) with false. cbn iota. change (zrange 1) with [0]. cbn [mapM].
    unfold read_part, word_to_position. replace ((ptr + 0) * 4 - 4) with (4 * (ptr - 1)) by lia.
    rewrite (rd_struct_has e (parts_fmt 1) d _ [VBytes wn; VInt (pt_header pt); VInt (pt_type pt); VInt (Zlen (pt_parameters pt))] (concat [wn; wh; wt; wc])).
    + cbn [parts_fmt stored_vals stored bind Z.sub Z.mul Z.to_nat]. rewrite fit_exact by exact Ln.
      rewrite (decode_word _ _ En). cbn [bind]. rewrite Ht. reflexivity.
    + unfold parts_fmt. change (Z.to_nat ((1 - 1) * 4)) with O. cbn [struct_pack pack_item].
      rewrite fit_exact by exact Ln. rewrite Eh, Et, Ec. cbn [bind repeat app concat]. reflexivity.
    + exact HA.
  - unfold read_parameters, word_to_position. replace ((ptr + 4) * 4 - 4) with (4 * (ptr - 1) + 4 * 4) by lia.
    set (p0 := 4 * (ptr - 1) + 4 * 4) in *.
    assert (HB1 : a3 = [] \/ has_at d p0 (concat a3)).
    { right. unfold tlw in HB. apply app_concat_has in HB as [HB _]; [exact HB|exact V3]. }
    assert (HB2 : has_at d (p0 + 4 * Zlen a3) (concat (a4 ++ a5 ++ a6))).
    { unfold tlw in HB. apply app_concat_has in HB as [_ HB]; [exact HB|exact V3]. }
    apply app_concat_has in HB2 as [HB2 HB3]; [|exact V4]. apply app_concat_has in HB3 as [HB3 HB4]; [|exact V5].
    rewrite L3 in *. rewrite L4 in *. rewrite L5 in *. rewrite N1 in *. rewrite N2 in *.
    rewrite (read_attr_strings e d p0 _ a3 E3 HB1). cbn [bind].
    rewrite <- N1 at 2. rewrite (read_attr_ints e d _ _ a4 E4 (or_intror HB2)). cbn [bind]. rewrite N1.
    rewrite <- N2 at 3. rewrite (read_attr_ints e d _ _ a5 E5 (or_intror HB3)). cbn [bind]. rewrite N2.
    rewrite <- N3 at 4. rewrite (read_attr_ints e d _ _ a6 E6 (or_intror HB4)). reflexivity.
Qed.

Definition nav_read (e : endian) (h : dmhead) (p : pointers) (b : bytes) (nav : option gnav) : Prop :=
  match hd_file_headers h with
  | [] => nav = None
  | _ => exists n, read_nav e b (file_keys_ptr p) (Zlen (hd_file_headers h)) = Ok n /\ nav = Some n
  end.

Definition file_of (e : endian) (h : dmhead) (pt : part) (p : pointers) (b : bytes) (nav : option gnav) (nf : Z) : gfile :=
  mk_gfile b e (label_of h p) nav (nf :: MMFREE :: repeat 0 30)
    (map clean (hd_row_names h)) (map clean (hd_column_names h))
    [mk_rpart (clean (pt_name pt)) (pt_header pt) (pt_type pt) (Zlen (pt_parameters pt))]
    [mk_rparams (map clean (pt_parameters pt)) (pt_offset pt) (pt_scale pt) (pt_bits pt)].

Lemma open_written e h pt p P_fh P_rh P_ch P_data b nav : head_pointers h = p ->
  written e h P_fh P_rh P_ch P_data b -> nav_read e h p b nav ->
  hd_parts h = [pt] -> parts_wf h -> hd_row_names h <> [] -> hd_column_names h <> [] ->
  is_file_type (hd_file_type h) = true -> is_data_type (pt_type pt) = true ->
  exists nf, P_data nf b /\ open_gempak b = Ok (file_of e h pt p b nav nf).
Proof.
  intros Ep W HN Hp Hwf Hr Hc Hft Hdt. destruct W as [Wl Wr Wc _ _ Wp _ _ Wd]. rewrite Ep in *.
  destruct Wl as (lb & L1 & L2). destruct (has_at_label _ _ _ _ _ L1 L2) as (C1 & C2 & C3). specialize (C3 Hft).
  destruct Wd as (nf & mg & D1 & D2 & D3). exists nf. split; [exact D1|].
  unfold open_gempak. rewrite C1. cbn [bind]. rewrite C2, C3. cbn [bind].
  unfold label_of. cbn [lb_file_headers lb_file_keys_ptr lb_data_mgmt_ptr lb_row_keys_ptr lb_row_keys
    lb_column_keys_ptr lb_column_keys lb_parts_ptr lb_parts].
  assert (EN : (if Zlen (hd_file_headers h) >? 0
                then n <- read_nav e b (file_keys_ptr p) (Zlen (hd_file_headers h)) ;; Ok (Some n)
                else Ok None) = Ok nav).
  { unfold nav_read in HN. destruct (hd_file_headers h) as [|f fr].
    - subst nav. reflexivity.
    - destruct HN as (n & HN1 & ->). rewrite HN1. rewrite Zlen_cons. pose proof (Zlen_nonneg fr).
      destruct (Z.gtb_spec (1 + Zlen fr) 0); [reflexivity|lia]. }
  rewrite EN. cbn [bind].
  unfold word_to_position at 1. replace (data_mgmt_ptr * 4 - 4) with (4 * (data_mgmt_ptr - 1)) by reflexivity.
  rewrite (read_mgmt e b nf mg _ D2 D3). cbn [bind]. rewrite as_ints_map. cbn [bind].
  destruct Wr as (wr & R1 & R2). rewrite (read_keys_at e b _ _ wr R1 Hr R2). cbn [bind].
  destruct Wc as (wc & K1 & K2). rewrite (read_keys_at e b _ _ wc K1 Hc K2). cbn [bind].
  destruct Wp as (wp & Q1 & Q2). destruct (read_parts_at e h pt b _ wp Hp Hwf Q1 Q2 Hdt) as [Q3 Q4].
  rewrite Hp. change (Zlen [pt]) with 1. rewrite Q3. cbn [bind map rp_count].
  change (1 * 4) with 4. rewrite Q4. cbn [bind]. unfold file_of, label_of. rewrite Hp. reflexivity.
Qed.
