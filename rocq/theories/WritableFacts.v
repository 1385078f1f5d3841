(** When the writer of a data management file cannot fail. *)
From Coq Require Import Lia ZifyBool ZifyNat.
From Verif Require Import Base BaseFacts Words Layout LayoutFacts Floats FloatsFacts Structs StructsFacts
  Strings StringsFacts Headers HeadersFacts DmFile StreamFacts DmWriteFacts DmHookFacts.
Open Scope Z_scope.

Definition fine {A} (r : res A) : Prop := exists x, r = Ok x.
Definition works (f : stream -> res stream) : Prop :=
  forall s, 0 <= st_pos s -> exists s', f s = Ok s' /\ 0 <= st_pos s'.

Lemma mapM_fine {A B} (f : A -> res B) l : (forall x, In x l -> fine (f x)) -> fine (mapM f l).
Proof.
  induction l as [|x l IH]; intros H; [exists []; reflexivity|]. cbn [mapM].
  destruct (H x (or_introl eq_refl)) as [y ->]. cbn [bind].
  destruct IH as [ys ->]; [intros z Hz; apply H; right; exact Hz|]. eexists; reflexivity.
Qed.
Lemma pack_fine e z : -2147483648 <= z < 2147483648 -> fine (pack_i32 e z).
Proof. intros H. unfold pack_i32, in_i32, two31. replace (_ && _) with true by lia. eexists; reflexivity. Qed.
Lemma ints_fine e l : Forall (fun z => -2147483648 <= z < 2147483648) l -> fine (mapM (pack_i32 e) l).
Proof. intros H. apply mapM_fine. rewrite Forall_forall in H. intros x Hx. apply pack_fine, H, Hx. Qed.
Lemma strings_fine l : Forall (fun s => is_ascii s = true) l -> fine (mapM word_of_str l).
Proof. intros H. apply mapM_fine. rewrite Forall_forall in H. intros x Hx. apply word_of_str_ok, H, Hx. Qed.

(** struct.pack of values that fit their items *)
Definition item_fits (c : fmtc) (v : pyval) : bool :=
  match c, v with
  | FInt, VInt z => in_i32 z
  | FFloat, VFloat f => match to32 f with Ok _ => true | Err _ => false end
  | FStr _, VBytes _ => true
  | _, _ => false
  end.
Fixpoint all_fit (fmt : list fmtc) (vals : list pyval) : bool :=
  match fmt with
  | [] => match vals with [] => true | _ => false end
  | FPad _ :: r => all_fit r vals
  | c :: r => match vals with [] => false | v :: vs => item_fits c v && all_fit r vs end
  end.
Lemma item_fine e c v : item_fits c v = true -> fine (pack_item e c v).
Proof.
  destruct c, v; cbn; try discriminate; intros H.
  - unfold pack_i32. rewrite H. eexists; reflexivity.
  - unfold pack_f32. destruct (to32 f); [|discriminate H]. eexists; reflexivity.
  - eexists; reflexivity.
Qed.
Lemma struct_fine e fmt : forall vals, all_fit fmt vals = true -> fine (struct_pack e fmt vals).
Proof.
  induction fmt as [|c fmt IH]; intros vals H; cbn [all_fit struct_pack] in *.
  - destruct vals; [eexists; reflexivity|discriminate H].
  - destruct c.
    6: { destruct (IH _ H) as [b ->]. eexists; reflexivity. }
    all: destruct vals as [|v vs]; [discriminate H|]; apply andb_prop in H as [H1 H2];
      destruct (item_fine e _ _ H1) as [a ->]; destruct (IH _ H2) as [b ->]; eexists; reflexivity.
Qed.

(** ** The steps *)
Lemma st_jump_works w : 1 <= w -> works (st_jump w).
Proof. intros H s _. rewrite st_jump_at by lia. eexists. split; [reflexivity|]. cbn [st_pos]. lia. Qed.
Lemma works_write s b : 0 <= st_pos s -> exists s', Ok (st_write b s) = Ok s' /\ 0 <= st_pos s'.
Proof. intros H. eexists. split; [reflexivity|]. apply st_write_pos, H. Qed.
Lemma st_strings_works l : fine (mapM word_of_str l) -> works (st_strings l).
Proof. intros [ws E] s H. rewrite st_strings_eq, E by exact H. apply works_write, H. Qed.
Lemma st_ints_works e l : fine (mapM (pack_i32 e) l) -> works (st_ints e l).
Proof. intros [ws E] s H. rewrite st_ints_eq, E by exact H. apply works_write, H. Qed.
Lemma st_struct_works e fmt vals : all_fit fmt vals = true -> works (st_struct e fmt vals).
Proof. intros H s Hs. unfold st_struct. destruct (struct_fine e fmt vals H) as [b ->]. apply works_write, Hs. Qed.

Ltac step H := let s := fresh "s" in let E := fresh "E" in let P := fresh "P" in
  edestruct H as (s & E & P); [eassumption|rewrite E; cbn [bind]; clear E].

Lemma write_headers_works {H} e slots keys (words : H -> res (list bytes)) hs :
  (forall h, In h hs -> fine (words h)) -> works (write_headers e slots keys words hs).
Proof.
  intros HW s Hs. unfold write_headers. cbv zeta.
  assert (FI : fine (mapM (pack_i32 e) (repeat missing_int (Z.to_nat (slots * (keys + 1)))))).
  { apply ints_fine, Forall_forall. intros z Hz. apply repeat_spec in Hz. subst z. vm_compute. split; [discriminate|reflexivity]. }
  assert (SW : 1 <= st_word s).
  { unfold st_word, position_to_word. pose proof (Z.div_pos (st_pos s) 4). lia. }
  step (st_ints_works e _ FI). step (st_jump_works (st_word s) SW).
  assert (exists flag, pack_i32 e (- missing_int) = Ok flag) as [flag F] by (eexists; reflexivity).
  rewrite (foldM_headers e words hs _ flag) by assumption. destruct (mapM_fine words hs HW) as [wss ->]. cbn [bind].
  apply works_write. assumption.
Qed.

Lemma fill_record_works e : works (fill_record e).
Proof.
  intros s Hs. unfold fill_record. destruct (dmword (st_word s)) as [r w]. destruct (negb _).
  - apply st_ints_works; [|exact Hs]. apply ints_fine, Forall_forall. intros z Hz. apply repeat_spec in Hz. subst z. lia.
  - eauto.
Qed.
(** The items: each pointer word is at least 1, each block encodes, and the end is a 32-bit int. *)
Lemma write_items_works e items nf : 1 <= nf -> items_end items nf < 2147483648 ->
  Forall (fun '(ptr, d) => 1 <= ptr /\ match d with Some m => exists ws, m = Ok ws /\ word_list ws | None => True end) items ->
  forall s, 0 <= st_pos s ->
  exists s', write_items e items nf s = Ok (s', items_end items nf) /\ 0 <= st_pos s'.
Proof.
  intros Hnf He HF.
  assert (GO : forall s, 0 <= st_pos s -> exists s', foldM (write_item e) items (s, nf) = Ok (s', items_end items nf) /\ 0 <= st_pos s').
  { revert nf Hnf He. induction HF as [|[ptr d] items [Hp Hd] HF IH]; intros nf Hnf He s Hs; [cbn; eauto|].
    cbn [foldM write_item items_end] in *. step (st_jump_works ptr Hp). destruct d as [m|].
    - destruct Hd as (ws & -> & HWs). pose proof (items_end_ge items (nf + Zlen ws)). pose proof (Zlen_nonneg ws).
      unfold st_int. destruct (pack_fine e nf) as [w ->]; [lia|]. cbn [bind].
      rewrite st_jump_at by lia. cbn [bind].
      rewrite write_words_eq by (cbn [st_pos]; lia). set (s2 := st_write (concat ws) _).
      assert (E2 : st_pos s2 = 4 * (nf + Zlen ws - 1)).
      { unfold s2, st_write. cbn [st_pos]. rewrite word_list_concat by exact HWs. lia. }
      assert (E3 : st_word s2 = nf + Zlen ws).
      { unfold st_word, position_to_word. rewrite E2. Z.div_mod_to_equations. lia. }
      rewrite E3. apply IH; lia.
    - unfold st_int. destruct (pack_fine e 0) as [w ->]; [lia|]. cbn [bind]. apply IH; [lia|exact He|apply st_write_pos; assumption]. }
  intros s Hs. unfold write_items. destruct (GO s Hs) as (s1 & -> & P1). cbn [bind].
  destruct (fill_record_works e s1 P1) as (s2 & -> & P2). cbn [bind]. eauto.
Qed.

(** ** The whole file *)
Definition i32 (z : Z) : Prop := -2147483648 <= z < 2147483648.
Record writable (e : endian) (h : dmhead) (p : pointers) : Prop := {
  wr_rows : i32 (hd_rows h); wr_cols : i32 (hd_columns h);
  wr_type : i32 (hd_file_type h); wr_source : i32 (hd_data_source h);
  wr_nf : Zlen (hd_file_headers h) < 2147483648; wr_nr : Zlen (hd_row_names h) < 2147483648;
  wr_nc : Zlen (hd_column_names h) < 2147483648; wr_np : Zlen (hd_parts h) < 2147483648;
  wr_ptrs : Forall (fun w => 1 <= w < 2147483648)
    [row_keys_ptr p; column_keys_ptr p; file_keys_ptr p; row_headers_ptr p; column_headers_ptr p; parts_ptr p; data_block_ptr p];
  wr_row_names : fine (mapM word_of_str (hd_row_names h));
  wr_col_names : fine (mapM word_of_str (hd_column_names h));
  wr_parts : fine (part_words e h);
  wr_file_keys : fine (file_key_words e h)
}.
Lemma label_fits e h p : writable e h p -> all_fit label_fmt (label_values h p) = true.
Proof.
  intros [H1 H2 H3 H4 H5 H6 H7 H8 HP _ _ _ _]. rewrite !Forall_cons_iff in HP. destruct HP as (P1 & P2 & P3 & P4 & P5 & P6 & P7 & _).
  pose proof (Zlen_nonneg (hd_file_headers h)). pose proof (Zlen_nonneg (hd_row_names h)).
  pose proof (Zlen_nonneg (hd_column_names h)). pose proof (Zlen_nonneg (hd_parts h)). unfold i32 in *.
  assert (I : forall z, -2147483648 <= z < 2147483648 -> in_i32 z = true) by (intros z Hz; unfold in_i32, two31; lia).
  unfold label_fmt, label_values. cbn [repeat app all_fit item_fits].
  change (in_i32 1) with true. change (in_i32 data_mgmt_ptr) with true. change (in_i32 data_mgmt_length) with true.
  change (in_i32 11) with true. change (in_i32 missing_int) with true.
  rewrite !I by lia. vm_compute. reflexivity.
Qed.
Lemma to_gempak_works e h p wfh wrh wch wd nf : writable e h p -> works wfh -> works wrh -> works wch ->
  (forall s, 0 <= st_pos s -> exists s', wd s = Ok (s', nf) /\ 0 <= st_pos s') -> i32 nf ->
  fine (to_gempak_at e h p wfh wrh wch wd).
Proof.
  intros W W1 W2 W3 WD N. pose proof (label_fits _ _ _ W) as LF. destruct W as [_ _ _ _ _ _ _ _ HP RN CN PW FK].
  rewrite !Forall_cons_iff in HP. destruct HP as (P1 & P2 & P3 & P4 & P5 & P6 & P7 & _).
  unfold to_gempak_at, write_label, write_row_keys, write_column_keys, write_data_management. assert (P0 : 0 <= st_pos st_new) by (cbn; lia).
  step (st_struct_works e label_fmt _ LF).
  step (st_jump_works (row_keys_ptr p) (proj1 P1)).
  step (st_strings_works _ RN). step (st_jump_works (column_keys_ptr p) (proj1 P2)). step (st_strings_works _ CN).
  assert (FH : forall s, 0 <= st_pos s -> exists s',
    match hd_file_headers h with
    | [] => Ok s
    | _ => s <- st_jump (file_keys_ptr p) s ;; s <- write_file_keys e h s ;; wfh s
    end = Ok s' /\ 0 <= st_pos s').
  { intros s9 H9. destruct (hd_file_headers h) as [|f fs]; [eauto|]. step (st_jump_works (file_keys_ptr p) (proj1 P3)).
    rewrite write_file_keys_eq by assumption. destruct FK as [ws ->]. cbn [bind]. apply W1. apply st_write_pos. assumption. }
  step FH. step (st_jump_works (parts_ptr p) (proj1 P6)).
  rewrite write_parts_eq by assumption. destruct PW as [ws ->]. cbn [bind].
  match goal with |- context [st_jump (row_headers_ptr p) ?s] =>
    assert (PP : 0 <= st_pos s) by (apply st_write_pos; assumption); generalize dependent s; intros end.
  step (st_jump_works (row_headers_ptr p) (proj1 P4)). step W2.
  step (st_jump_works (column_headers_ptr p) (proj1 P5)). step W3.
  step (st_jump_works (data_block_ptr p) (proj1 P7)). step WD.
  assert (ML : 1 <= data_mgmt_ptr) by (vm_compute; discriminate).
  step (st_jump_works data_mgmt_ptr ML).
  assert (DF : all_fit data_mgmt_fmt [VInt nf; VInt MMFREE; VInt 0; VInt 0] = true).
  { unfold data_mgmt_fmt. cbn [all_fit item_fits]. unfold i32 in N. replace (in_i32 nf) with true by (unfold in_i32, two31; lia). reflexivity. }
  step (st_struct_works e data_mgmt_fmt _ DF). eexists; reflexivity.
Qed.
