(** Grid files: what save_grid leaves in the file and what the reader gets back, in terms of the
    object's sorted headers and its data. *)
From Coq Require Import Lia ZifyBool ZifyNat QArith.
From Verif Require Import Base BaseFacts Words Layout LayoutFacts Floats FloatsFacts Structs StructsFacts
  Strings StringsFacts Dates SpecDates DatesFacts Headers HeadersFacts Grib Order OrderFacts SpecLayout Props_Layout
  DmFile StreamFacts DmWriteFacts DmHookFacts DmReadFacts Station StationFacts Real Grid GridRead CoordFacts RoundFacts.
Ltac Zify.zify_post_hook ::= Z.div_mod_to_equations.
Open Scope Z_scope.

(** ** The order of headers *)
Lemma good_dtime : good_cmp dtime_cmp.
Proof. apply good_lex; [apply (good_on date_of), good_date|apply (good_on time_of), good_time]. Qed.
Lemma good_gdt : good_cmp gdt_cmp.
Proof. apply good_lex; [apply (good_on fst), good_Z|apply (good_on snd), good_dtime]. Qed.
Lemma good_gtm : good_cmp gtm_cmp.
Proof.
  apply good_lex; [apply (good_on fst), good_Z|].
  apply good_lex; [apply (good_on (fun x => fst (snd x))), good_Z|apply (good_on (fun x => snd (snd x))), good_Z].
Qed.
Lemma good_gdt2 : good_cmp gdt2_cmp.
Proof.
  pose proof good_gdt as G. constructor.
  - intros [x|]; [apply (gc_refl G)|reflexivity].
  - intros [x|] [y|]; cbn [gdt2_cmp]; try reflexivity. apply (gc_opp G).
  - intros [x|] [y|] [z|]; cbn [gdt2_cmp]; intros H; try reflexivity; try discriminate H. apply (gc_eq G _ _ _ H).
  - intros [x|] [y|] [z|]; cbn [gdt2_cmp]; intros H1 H2; try reflexivity; try discriminate H1; try discriminate H2.
    apply (gc_lt G _ _ _ H1 H2).
Qed.
Lemma good_gcol : good_cmp gcol_cmp.
Proof.
  unfold gcol_cmp.
  apply good_lex; [apply (good_on g_dt1), good_gdt|]. apply good_lex; [apply (good_on g_tm1), good_gtm|].
  apply good_lex; [apply (good_on g_dt2), good_gdt2|]. apply good_lex; [apply (good_on g_tm2), good_gtm|].
  apply good_lex; [apply (good_on g_lv1), good_Z|]. apply good_lex; [apply (good_on g_lv2), good_Z|].
  apply good_lex; [apply (good_on g_vc), good_Z|]. apply good_lex; [apply (good_on g_p1), good_str|].
  apply good_lex; [apply (good_on g_p2), good_str|apply (good_on g_p3), good_str].
Qed.

(** ** Words *)
Lemma gcol_words_len e c ws : gcol_words e c = Ok ws -> word_list ws /\ Zlen ws = Zlen grid_column_names.
Proof.
  unfold gcol_words. intros H.
  repeat match type of H with bind ?m _ = _ => let E := fresh "E" in destruct m eqn:E; cbn [bind] in H; [|discriminate H] end.
  apply ok_inj in H. subst ws. split; [|reflexivity].
  repeat constructor; eauto using pack_i32_length, word_of_str_length.
Qed.
Lemma grid_words_len e g pk pr cells ws : grid_words e g pk pr cells = Ok ws -> word_list ws.
Proof.
  unfold grid_words. intros H. destruct (pk =? PK_GRIB); [|discriminate H].
  destruct (negb (forallb finite cells)); [discriminate H|].
  destruct (pack_grib _ _ _) as [[[ref scale] packed]|]; cbn [bind] in H; [|discriminate H].
  repeat match type of H with bind ?m _ = _ => let E := fresh "E" in destruct m eqn:E; cbn [bind] in H; [|discriminate H] end.
  apply ok_inj in H. subst ws.
  repeat (constructor; [first [eapply pack_i32_length; eassumption|eapply pack_f32_length; eassumption]|]).
  eapply ints_words; eassumption.
Qed.

(** ** The object as save_grid sees it *)
Definition gcoherent (o : gridfile) : Prop := gd_cols o = Zlen (gd_col_headers o).
Lemma grid_head_ok o : gcoherent o -> head_ok (grid_head o).
Proof.
  intros H. unfold head_ok, grid_head. cbn [hd_rows hd_columns hd_file_headers]. rewrite H.
  split; [lia|]. split; [apply Zlen_nonneg|]. split; [repeat constructor; vm_compute; discriminate|].
  unfold parts_wf. cbn. constructor; [|constructor]. cbn. auto.
Qed.
Lemma grid_data_ptrs o p : gcoherent o -> head_pointers (grid_head o) = p ->
  record_start (data_block_ptr p) = data_block_ptr p /\ record_start (next_free_word p) = next_free_word p /\
  data_block_ptr p + gd_cols o <= next_free_word p.
Proof.
  intros HC <-. unfold head_pointers, set_pointers. cbv zeta. cbn [data_block_ptr next_free_word].
  rewrite !record_start_idem. split; [reflexivity|]. split; [reflexivity|].
  cbn [head_shape grid_head sh_part_nparms hd_parts map sh_rows sh_columns hd_rows hd_columns].
  match goal with |- ?a + _ <= record_start ?w => pose proof (record_start_spec w) as [R _]; set (x := a) in *; clearbody x end.
  match type of R with context [Zlen ?l] => change (Zlen l) with 1 in * end.
  rewrite !Z.mul_1_l in *. apply R.
Qed.

Lemma grid_items_hook e o base nf : gcoherent o -> 1 <= base -> record_start base = base -> record_start nf = nf ->
  base + gd_cols o <= nf ->
  data_hook (write_items e (grid_items e o base) nf) base (fun _ b => items_at e (grid_items e o base) nf b).
Proof.
  intros C Hb R1 R2 Hn. apply write_items_hook; try assumption; unfold grid_items.
  - apply Forall_forall. intros it H. apply in_map_iff in H as ([j c] & <- & H).
    apply indexed_range in H. cbn [fst] in H. rewrite <- C in H. clear - H Hn. lia.
  - rewrite map_map. apply NoDup_map_in; [apply indexed_NoDup|].
    intros [j c] [j' c'] H H'. cbn. intros E. apply indexed_in in H as [H0 H]. apply indexed_in in H' as [H0' H'].
    assert (j = j') by (clear - E; lia). subst j'. congruence.
  - apply Forall_forall. intros it H. apply in_map_iff in H as ([j c] & <- & H).
    destruct (dict_get _ _ _) as [cells|]; [|exact I]. destruct (grid_words _ _ _ _ _) eqn:E; [|exact I]. eapply grid_words_len; eassumption.
  - intros it H. apply in_map_iff in H as ([j c] & <- & H). 
    destruct (indexed_last (gd_col_headers o)) as (pre & x & E); [intros E; rewrite E in H; destruct H|].
    apply indexed_range in H. cbn [fst] in H.
    rewrite E, map_app. cbn [map]. rewrite last_last. cbn [fst]. clear - H. lia.
Qed.

(** ** File headers *)
(** The navigation and the analysis block as one string of bytes *)
Definition file_headers_at (e : endian) (g : geom) (w : Z) (b : bytes) : Prop :=
  exists w1 nv dn w2 an, pack_i32 e NAVB_SIZE = Ok w1 /\ struct_pack e wnav_fmt (nav_values g) = Ok nv /\
    deltan g = Ok dn /\ pack_i32 e ANLB_SIZE = Ok w2 /\ struct_pack e wanl_fmt (anl_values g dn) = Ok an /\
    has_at b (4 * (w - 1)) (w1 ++ nv ++ w2 ++ an).
Lemma calcsize_wnav : calcsize wnav_fmt = 1024%nat. Proof. reflexivity. Qed.
Lemma calcsize_wanl : calcsize wanl_fmt = 512%nat. Proof. reflexivity. Qed.
Lemma file_headers_hook e g lo : hook (write_grid_file_headers e g) lo (lo + 386) (file_headers_at e g lo).
Proof.
  assert (LEN : forall w1 nv w2 an dn, pack_i32 e NAVB_SIZE = Ok w1 -> struct_pack e wnav_fmt (nav_values g) = Ok nv ->
     pack_i32 e ANLB_SIZE = Ok w2 -> struct_pack e wanl_fmt (anl_values g dn) = Ok an -> Zlen (w1 ++ nv ++ w2 ++ an) = 1544).
  { intros w1 nv w2 an dn H1 H2 H3 H4. apply pack_i32_length in H1, H3. apply struct_pack_length in H2, H4.
    rewrite calcsize_wnav in H2. rewrite calcsize_wanl in H4. rewrite !Zlen_app. unfold Zlen. rewrite H1, H2, H3, H4. reflexivity. }
  split.
  - intros b b' HB (w1 & nv & dn & w2 & an & H1 & H2 & H3 & H4 & H5 & H6).
    exists w1, nv, dn, w2, an. repeat (split; [assumption|]). apply HB; [|exact H6].
    unfold inside. rewrite (LEN _ _ _ _ _ H1 H2 H4 H5). lia.
  - intros s s' Hs Hlo E. unfold write_grid_file_headers, st_int, st_struct in E.
    destruct (pack_i32 e NAVB_SIZE) as [w1|] eqn:H1; cbn [bind] in E; [|discriminate E].
    destruct (struct_pack e wnav_fmt (nav_values g)) as [nv|] eqn:H2; cbn [bind] in E; [|discriminate E].
    destruct (deltan g) as [dn|] eqn:H3; cbn [bind] in E; [|discriminate E].
    destruct (pack_i32 e ANLB_SIZE) as [w2|] eqn:H4; cbn [bind] in E; [|discriminate E].
    destruct (struct_pack e wanl_fmt (anl_values g dn)) as [an|] eqn:H5; cbn [bind] in E; [|discriminate E].
    apply ok_inj in E.
    rewrite !st_write_write in E by (repeat apply st_write_pos; clear - Hs Hlo; lia).
    rewrite <- ?app_assoc in E. subst s'. pose proof (LEN _ _ _ _ _ eq_refl eq_refl eq_refl H5) as L.
    split.
    + apply st_write_changes; [lia|]. unfold inside. lia.
    + exists w1, nv, dn, w2, an. repeat (split; [assumption||reflexivity|]). rewrite <- Hs. apply st_write_has; [lia|].
      left. intros C. rewrite C in L. discriminate L.
Qed.

(** The row: the used flag and the number 1 *)
Definition grow_words (e : endian) (z : Z) : res (list bytes) := w <- pack_i32 e z ;; Ok [w].
Lemma grow_words_len e z ws : grow_words e z = Ok ws -> word_list ws /\ Zlen ws = 1.
Proof.
  unfold grow_words. intros H. destruct (pack_i32 e z) eqn:E; cbn [bind] in H; [|discriminate H]. apply ok_inj in H. subst ws.
  split; [|reflexivity]. repeat constructor. eapply pack_i32_length; eassumption.
Qed.
Lemma grid_row_hook e lo : hook (write_grid_row e) lo (lo + 1 * (Zlen grid_row_names + 1)) (headers_at e (grow_words e) [1] lo).
Proof.
  destruct (write_headers_hook e 1 1 (grow_words e) [1] lo) as [H1 H2].
  - intros h ws _. apply grow_words_len.
  - lia.
  - reflexivity.
  - split; [exact H1|]. intros s s' Hs Hlo E. unfold write_grid_row, st_int in E.
    destruct (pack_i32 e (- missing_int)) as [w1|] eqn:F1; cbn [bind] in E; [|discriminate E].
    destruct (pack_i32 e 1) as [w2|] eqn:F2; cbn [bind] in E; [|discriminate E]. apply ok_inj in E.
    rewrite st_write_write in E by lia. subst s'.
    pose proof (pack_i32_length _ _ _ F1) as L1. pose proof (pack_i32_length _ _ _ F2) as L2.
    assert (W : word_list [w1; w2]) by (constructor; [exact L1|constructor; [exact L2|constructor]]).
    destruct (st_words_hook s [w1; w2] lo (lo + 1 * (Zlen grid_row_names + 1)) W Hs Hlo) as [A B].
    { change (Zlen [w1;w2]) with 2. change (Zlen grid_row_names) with 1. lia. }
    cbn [concat] in A, B. rewrite app_nil_r in A, B. split; [exact A|].
    exists w1, [[w2]]. split; [exact F1|]. split; [|exact B]. cbn [mapM]. unfold grow_words. rewrite F2. reflexivity.
Qed.

(** ** What save_grid leaves *)
Definition gwrite_at (e : endian) (o : gridfile) (p : pointers) : res (bytes * Z) :=
  to_gempak_at e (grid_head o) p (write_grid_file_headers e (gd_geom o)) (write_grid_row e)
    (write_headers e (gd_cols o) (Zlen grid_column_names) (gcol_words e) (gd_col_headers o))
    (write_items e (grid_items e o (data_block_ptr p)) (next_free_word p)).
Lemma save_gwrite_at e o p : head_pointers (grid_head o) = p ->
  save_grid e o = match gwrite_at e o p with
                  | Ok (b, nf) => (with_grid_ptrs o (set_next_free p nf), Ok b)
                  | Err x => (with_grid_ptrs o p, Err x)
                  end.
Proof.
  intros HP. unfold save_grid, gwrite_at. rewrite HP. cbv zeta.
  change (grid_items e (with_grid_ptrs o p) (data_block_ptr p)) with (grid_items e o (data_block_ptr p)).
  cbn [gd_cols gd_col_headers gd_geom with_grid_ptrs]. reflexivity.
Qed.
Definition file_keys_end (p : pointers) : Z := file_keys_ptr p + 6.
Lemma gwrite_at_written e o p b nf : gcoherent o -> head_pointers (grid_head o) = p -> gwrite_at e o p = Ok (b, nf) ->
  written e (grid_head o) (file_headers_at e (gd_geom o) (file_keys_end p))
     (headers_at e (grow_words e) [1] (row_headers_ptr p))
     (headers_at e (gcol_words e) (gd_col_headers o) (column_headers_ptr p))
     (fun _ b => items_at e (grid_items e o (data_block_ptr p)) (next_free_word p) b) b.
Proof.
  intros HC HP HS. pose proof (grid_data_ptrs _ _ HC HP) as (D1 & D2 & D3).
  pose proof (layout_order _ (grid_head_ok _ HC)) as LO. cbv zeta in LO. rewrite HP in LO.
  assert (LD : 1 <= data_block_ptr p) by (clear - LO; pose proof (Zlen_nonneg (hd_row_names (grid_head o))); pose proof (Zlen_nonneg (hd_column_names (grid_head o))); lia).
  clear LO. pose proof (grid_head_ok _ HC) as HK. unfold gwrite_at in HS.
  refine (to_gempak_written e (grid_head o) _ _ _ _ _ _ _ _ p HP HK _ _ _ _ b nf HS).
  - change (file_keys_ptr p + 3 * Zlen (hd_file_headers (grid_head o))) with (file_keys_end p).
    change (sum (map fh_length (hd_file_headers (grid_head o))) + Zlen (hd_file_headers (grid_head o))) with 386.
    apply file_headers_hook.
  - apply grid_row_hook.
  - apply (write_headers_hook e (gd_cols o) (Zlen grid_column_names)); [|apply Zlen_nonneg|apply Z.eq_le_incl; symmetry; exact HC].
    intros h ws _ H. apply gcol_words_len in H. exact H.
  - apply grid_items_hook; assumption.
Qed.

(** ** The navigation read back *)
Definition geom_ok (g : geom) : Prop :=
  In (gm_proj g) known_projections /\ 0 <= gm_nx g < 2 ^ 24 /\ 0 <= gm_ny g < 2 ^ 24.

(** A 4-byte field read as 3 bytes and a pad *)
Lemma read_str3 e rest1 l : (4 <= length l)%nat ->
  unpack_vals e ([FFloat; FStr 3; FPad 1] ++ rest1) l =
  match unpack_vals e ([FFloat; FStr 4] ++ rest1) l with
  | v :: VBytes b :: vs => v :: VBytes (firstn 3 b) :: vs
  | vs => vs
  end.
Proof.
  intros _. cbn [app unpack_vals fmtc_size unpack_item]. rewrite firstn_firstn. cbn [Nat.min].
  destruct (skipn 4 l) as [|x0 [|x1 [|x2 [|x3 r]]]]; reflexivity.
Qed.
Lemma proj3 g : In (gm_proj g) known_projections ->
  firstn 3 (fit 4 (ljust 4 (gm_proj g))) = gm_proj g /\ is_ascii (gm_proj g) = true.
Proof.
  intros H. repeat (destruct H as [<-|H]; [vm_compute; auto|]). destruct H.
Qed.

Definition nav_back (g : geom) : list pyval :=
  [VFloat (np32 (of_Z 2)); VBytes (gm_proj g); VFloat (np32 (of_Z 1)); VFloat (np32 (of_Z 1));
   VFloat (np32 (of_Z (gm_nx g))); VFloat (np32 (of_Z (gm_ny g)));
   VFloat (np32 (gm_ll_lat g)); VFloat (np32 (gm_ll_lon g)); VFloat (np32 (gm_ur_lat g)); VFloat (np32 (gm_ur_lon g));
   VFloat (np32 (gm_angle1 g)); VFloat (np32 (gm_angle2 g)); VFloat (np32 (gm_angle3 g))].
Definition gnav_of (g : geom) (dn : flt) : gnav :=
  mk_nav (nav_back g) (gm_proj g) (gm_nx g) (gm_ny g) (Some (stored_vals wanl_fmt (anl_values g dn))).

Lemma rd_nav e g nv d q : In (gm_proj g) known_projections -> struct_pack e wnav_fmt (nav_values g) = Ok nv -> has_at d q nv ->
  rd_struct e rnav_fmt d q = Ok (nav_back g).
Proof.
  intros HP H HA. pose proof (rd_struct_has _ _ _ _ _ _ H HA) as R.
  unfold rd_struct, struct_unpack_from in *. change (calcsize rnav_fmt) with (calcsize wnav_fmt).
  assert (HQ : 0 <= q) by (destruct HA; assumption).
  destruct (Z.ltb_spec q 0); [lia|].
  destruct (Zlen d - q <? Z.of_nat (calcsize wnav_fmt)); [discriminate R|].
  apply ok_inj in R. f_equal.
  change rnav_fmt with ([FFloat; FStr 3; FPad 1] ++ (repeat FFloat 11 ++ [FPad 972])).
  rewrite read_str3.
  - change ([FFloat; FStr 4] ++ repeat FFloat 11 ++ [FPad 972]) with wnav_fmt. rewrite R.
    unfold wnav_fmt, nav_values. cbn [app repeat stored_vals stored].
    destruct (proj3 g HP) as [P3 _]. rewrite P3. reflexivity.
  - destruct (has_at_skipn _ _ _ HA) as (tl & ->). apply struct_pack_length in H. rewrite calcsize_wnav in H.
    rewrite app_length, H. apply Nat.le_trans with 1024%nat; [|apply Nat.le_add_r].
    apply Nat.leb_le. reflexivity.
Qed.
Lemma rd_first_float e fmt v vs bs d q : struct_pack e (FFloat :: fmt) (VFloat v :: vs) = Ok bs -> has_at d q bs ->
  rd_struct e [FFloat] d q = Ok [VFloat (np32 v)].
Proof.
  intros H HA. cbn [struct_pack] in H. destruct (pack_item e FFloat (VFloat v)) as [a|] eqn:Ea; cbn [bind] in H; [|discriminate H].
  destruct (struct_pack e fmt vs) as [b|] eqn:Eb; cbn [bind] in H; [|discriminate H]. apply ok_inj in H. subst bs.
  apply has_at_app in HA as [HA _].
  assert (P : struct_pack e [FFloat] [VFloat v] = Ok (a ++ [])) by (cbn [struct_pack]; rewrite Ea; reflexivity).
  rewrite app_nil_r in P. apply (rd_struct_has _ _ _ _ _ _ P HA).
Qed.

Lemma read_nav_at e o p b fkw : geom_ok (gd_geom o) ->
  file_key_words e (grid_head o) = Ok fkw -> words_at fkw (file_keys_ptr p) b ->
  file_headers_at e (gd_geom o) (file_keys_end p) b ->
  exists dn, deltan (gd_geom o) = Ok dn /\ read_nav e b (file_keys_ptr p) 2 = Ok (gnav_of (gd_geom o) dn).
Proof.
  intros (GP & GX & GY) HK HW (w1 & nv & dn & w2 & an & H1 & H2 & H3 & H4 & H5 & H6).
  exists dn. split; [exact H3|].
  apply has_at_app in H6 as [A1 H6]. apply has_at_app in H6 as [A2 H6]. apply has_at_app in H6 as [A3 A4].
  assert (L1 : Zlen w1 = 4) by (apply pack_i32_length in H1; unfold Zlen; rewrite H1; reflexivity).
  assert (L2 : Zlen nv = 1024) by (apply struct_pack_length in H2; unfold Zlen; rewrite H2; reflexivity).
  assert (L3 : Zlen w2 = 4) by (apply pack_i32_length in H4; unfold Zlen; rewrite H4; reflexivity).
  rewrite L1, ?L2, ?L3 in *.
  unfold read_nav. change (Z.to_nat 2) with 2%nat. unfold word_to_position.
  replace (file_keys_ptr p * 4 - 4) with (4 * (file_keys_ptr p - 1)) by lia.
  (* the key block *)
  assert (RK : exists vs, rd_struct e (file_keys_fmt 2) b (4 * (file_keys_ptr p - 1)) = Ok vs).
  { unfold file_key_words in HK. cbn [grid_head hd_file_headers map fh_name fh_length fh_type] in HK.
    destruct (mapM word_of_str [k_NAVB; k_ANLB]) as [a1|] eqn:E1; cbn [bind] in HK; [|discriminate HK].
    destruct (mapM (pack_i32 e) [NAVB_SIZE; ANLB_SIZE]) as [a2|] eqn:E2; cbn [bind] in HK; [|discriminate HK].
    destruct (mapM (pack_i32 e) [1; 1]) as [a3|] eqn:E3; cbn [bind] in HK; [|discriminate HK].
    apply ok_inj in HK. subst fkw.
    apply packed_strings with (e := e) in E1. apply packed_ints in E2. apply packed_ints in E3.
    pose proof (packed_app _ _ _ _ _ _ _ E1 (packed_app _ _ _ _ _ _ _ E2 E3)) as PK.
    destruct HW as [HW|HW].
    - exfalso. inversion E1; subst. discriminate HW.
    - eexists. exact (rd_packed _ _ _ _ _ _ PK HW). }
  destruct RK as (vs & RK). rewrite RK. cbn [bind]. change (Z.of_nat (calcsize (file_keys_fmt 2))) with 24.
  unfold file_keys_end in *. replace (4 * (file_keys_ptr p - 1) + 24) with (4 * (file_keys_ptr p + 6 - 1)) by lia.
  rewrite (rd_uint_int e b _ NAVB_SIZE w1 H1 ltac:(vm_compute; discriminate) A1). rewrite Z.eqb_refl. cbn [negb].
  rewrite (rd_nav e _ nv b _ GP H2 A2). cbn [bind].
  change (py_index (nav_back (gd_geom o)) 1) with (Ok (VBytes (gm_proj (gd_geom o)))).
  change (py_index (nav_back (gd_geom o)) 4) with (Ok (VFloat (np32 (of_Z (gm_nx (gd_geom o)))))).
  change (py_index (nav_back (gd_geom o)) 5) with (Ok (VFloat (np32 (of_Z (gm_ny (gd_geom o)))))).
  cbn [bind as_bytes as_float]. unfold bytes_str. rewrite (proj2 (proj3 _ GP)). cbn [bind].
  destruct (np32_of_Z (gm_nx (gd_geom o)) ltac:(lia)) as [X1 X2].
  destruct (np32_of_Z (gm_ny (gd_geom o)) ltac:(lia)) as [Y1 Y2].
  rewrite (int_of_exact _ _ X1 X2), (int_of_exact _ _ Y1 Y2). cbn [bind].
  change (Z.of_nat (calcsize rnav_fmt)) with 1024.
  rewrite (rd_uint_int e b _ ANLB_SIZE w2 H4 ltac:(vm_compute; discriminate) A3). rewrite Z.eqb_refl. cbn [negb].
  rewrite (rd_first_float e _ _ _ an b _ H5 A4). cbn [bind].
  change (py_index [VFloat (np32 (of_Z 2))] 0) with (Ok (VFloat (np32 (of_Z 2)))). cbn [bind as_float].
  replace (float_is (np32 (of_Z 2)) 1) with false by (vm_compute; reflexivity).
  replace (float_is (np32 (of_Z 2)) 2) with true by (vm_compute; reflexivity).
  change ranl_fmt2 with wanl_fmt. rewrite (rd_struct_has _ _ _ _ _ _ H5 A4). reflexivity.
Qed.

(** ** What save_grid leaves, read back *)
Record gsaved (e : endian) (o : gridfile) (p : pointers) (b : bytes) : Prop := {
  gs_rows : headers_at e (grow_words e) [1] (row_headers_ptr p) b;
  gs_cols : headers_at e (gcol_words e) (gd_col_headers o) (column_headers_ptr p) b;
  gs_items : items_at e (grid_items e o (data_block_ptr p)) (next_free_word p) b;
  gs_open : exists nf dn, deltan (gd_geom o) = Ok dn /\
    open_gempak b = Ok (file_of e (grid_head o) grid_part p b (Some (gnav_of (gd_geom o) dn)) nf)
}.
Lemma save_gsaved e o o' b p : gcoherent o -> geom_ok (gd_geom o) -> head_pointers (grid_head o) = p ->
  save_grid e o = (o', Ok b) -> gsaved e o p b.
Proof.
  intros HC HG HP HS. rewrite (save_gwrite_at _ _ _ HP) in HS.
  destruct (gwrite_at e o p) as [[b1 nf1]|] eqn:E in HS; [|injection HS as _ HS; discriminate HS].
  injection HS as _ <-. pose proof (gwrite_at_written _ _ _ _ _ HC HP E) as W. clear E.
  pose proof (grid_head_ok _ HC) as HK.
  pose proof (wr_fkeys _ _ _ _ _ _ _ W) as FK. pose proof (wr_fhead _ _ _ _ _ _ _ W) as FH. rewrite HP in FK.
  destruct FK as [FK|(fkw & FK1 & FK2)]; [discriminate FK|]. destruct FH as [FH|FH]; [discriminate FH|].
  destruct (read_nav_at e o p b1 fkw HG FK1 FK2 FH) as (dn & D1 & D2).
  assert (O : exists nf, items_at e (grid_items e o (data_block_ptr p)) (next_free_word p) b1 /\
     open_gempak b1 = Ok (file_of e (grid_head o) grid_part p b1 (Some (gnav_of (gd_geom o) dn)) nf)).
  { refine (open_written e (grid_head o) grid_part p _ _ _ _ b1 _ HP W _ _ _ _ _ _ _).
    - unfold nav_read. cbn [grid_head hd_file_headers]. exists (gnav_of (gd_geom o) dn). split; [exact D2|reflexivity].
    - reflexivity.
    - apply HK.
    - discriminate.
    - discriminate.
    - reflexivity.
    - reflexivity. }
  destruct O as (nf & O1 & O2). destruct W. constructor; try assumption. exists nf, dn. split; [exact D1|exact O2].
Qed.

(** ** Column headers read back *)
Definition or_def {A} (d : A) (r : res A) : A := match r with Ok x => x | Err _ => d end.
Definition gdt_back (o : option (Z * dtime)) : res (option dtime) :=
  z <- match o with Some (t, d) => enc_gdt t d | None => Ok 0 end ;; convert_dattim z.
Definition gtm_back (x : Z * (Z * Z)) : res (option (ftype * Z)) :=
  z <- enc_gtm (fst x) (fst (snd x)) (snd (snd x)) ;; convert_ftime z.
Definition gcol_head (e : endian) (c : gcol) : gheader :=
  [(k_GDT1, GDate (or_def None (gdt_back (Some (g_dt1 c))))); (k_GTM1, GTime (or_def None (gtm_back (g_tm1 c))));
   (k_GDT2, GDate (or_def None (gdt_back (g_dt2 c)))); (k_GTM2, GTime (or_def None (gtm_back (g_tm2 c))));
   (k_GLV1, GLevel (convert_level (g_lv1 c))); (k_GLV2, GLevel (convert_level (g_lv2 c)));
   (k_GVCD, GCoord (or_def [] (convert_vertical_coord e (g_vc c))));
   (k_GPM1, GText (clean (g_p1 c))); (k_GPM2, GText (clean (g_p2 c))); (k_GPM3, GText (clean (g_p3 c)))].
Definition gcol_ok (e : endian) (c : gcol) : Prop :=
  (exists x, gdt_back (Some (g_dt1 c)) = Ok x) /\ (exists x, gtm_back (g_tm1 c) = Ok x) /\
  (exists x, gdt_back (g_dt2 c) = Ok x) /\ (exists x, gtm_back (g_tm2 c) = Ok x) /\
  (exists s, convert_vertical_coord e (g_vc c) = Ok s).

Lemma read_gcol_head e c ws d p : gcol_ok e c -> gcol_words e c = Ok ws -> has_at d p (concat ws) ->
  read_gheader e grid_column_names d p = Ok (gcol_head e c).
Proof.
  intros ((x1 & B1) & (x2 & B2) & (x3 & B3) & (x4 & B4) & (x7 & B7)) H HA.
  unfold gcol_head. rewrite B1, B2, B3, B4, B7. cbn [or_def].
  unfold gcol_words in H. unfold gdt_back in B1, B3. unfold gtm_back in B2, B4.
  destruct (g_dt1 c) as [t1 d1] eqn:ED. cbn [fst snd] in H.
  destruct (enc_gdt t1 d1) as [z1|]; cbn [bind] in H, B1; [|discriminate H].
  destruct (pack_i32 e z1) as [w1|] eqn:E1; cbn [bind] in H; [|discriminate H].
  destruct (enc_gtm (fst (g_tm1 c)) _ _) as [z2|]; cbn [bind] in H, B2; [|discriminate H].
  destruct (pack_i32 e z2) as [w2|] eqn:E2; cbn [bind] in H; [|discriminate H].
  destruct (match g_dt2 c with Some (t, d) => enc_gdt t d | None => Ok 0 end) as [z3|]; cbn [bind] in H, B3; [|discriminate H].
  destruct (pack_i32 e z3) as [w3|] eqn:E3; cbn [bind] in H; [|discriminate H].
  destruct (enc_gtm (fst (g_tm2 c)) _ _) as [z4|]; cbn [bind] in H, B4; [|discriminate H].
  destruct (pack_i32 e z4) as [w4|] eqn:E4; cbn [bind] in H; [|discriminate H].
  destruct (pack_i32 e (g_lv1 c)) as [w5|] eqn:E5; cbn [bind] in H; [|discriminate H].
  destruct (pack_i32 e (g_lv2 c)) as [w6|] eqn:E6; cbn [bind] in H; [|discriminate H].
  destruct (pack_i32 e (g_vc c)) as [w7|] eqn:E7; cbn [bind] in H; [|discriminate H].
  destruct (word_of_str (g_p1 c)) as [w8|] eqn:E8; cbn [bind] in H; [|discriminate H].
  destruct (word_of_str (g_p2 c)) as [w9|] eqn:E9; cbn [bind] in H; [|discriminate H].
  destruct (word_of_str (g_p3 c)) as [w10|] eqn:E10; cbn [bind] in H; [|discriminate H].
  apply ok_inj in H. subst ws.
  assert (PS : forall s w, word_of_str s = Ok w -> pack_item e (FStr 4) (VBytes w) = Ok w).
  { intros s' w H'. unfold pack_item. rewrite fit_exact by (eapply word_of_str_length; eassumption). reflexivity. }
  assert (FS : forall s w, word_of_str s = Ok w -> fit 4 w = w).
  { intros s' w H'. apply fit_exact. eapply word_of_str_length; eassumption. }
  set (vs := [VInt z1; VInt z2; VInt z3; VInt z4; VInt (g_lv1 c); VInt (g_lv2 c); VInt (g_vc c); VBytes w8; VBytes w9; VBytes w10]).
  set (fm := [FInt; FInt; FInt; FInt; FInt; FInt; FInt; FStr 4; FStr 4; FStr 4]).
  assert (P10 : packed e fm vs [w1;w2;w3;w4;w5;w6;w7;w8;w9;w10]).
  { unfold fm, vs. repeat (constructor; [solve [assumption|eapply PS; eassumption]|]). constructor. }
  unfold read_gheader. change (map gkey_fmt grid_column_names) with fm.
  rewrite (rd_packed e fm vs _ _ _ P10 HA). cbn [bind]. unfold fm, vs. cbn [stored_vals]. unfold stored.
  rewrite (FS _ _ E8), (FS _ _ E9), (FS _ _ E10).
  cbn [grid_column_names combine mapM bind]. unfold gkey_conv.
  change (is_level_key k_GDT1) with false. change (is_level_key k_GDT2) with false. change (is_level_key k_GTM1) with false.
  change (is_level_key k_GTM2) with false. change (is_level_key k_GLV1) with true. change (is_level_key k_GLV2) with true.
  change (is_level_key k_GVCD) with false. 
  change (str_eqb k_GDT1 k_GVCD) with false. change (str_eqb k_GDT2 k_GVCD) with false. change (str_eqb k_GTM1 k_GVCD) with false.
  change (str_eqb k_GTM2 k_GVCD) with false. change (str_eqb k_GVCD k_GVCD) with true.
  change (is_date_key k_GDT1) with true. change (is_date_key k_GDT2) with true. change (is_date_key k_GTM1) with false.
  change (is_date_key k_GTM2) with false. change (is_ftime_key k_GTM1) with true. change (is_ftime_key k_GTM2) with true.
  cbn iota. rewrite B1, B2, B3, B4, B7. cbn [bind].
  rewrite (decode_word _ _ E8), (decode_word _ _ E9), (decode_word _ _ E10). reflexivity.
Qed.

(** The listing of a header *)
Definition gcol_listing (e : endian) (n : Z) (c : gcol) (ty : ftype) (t1 : dtime) (t2 : option dtime) : glisting :=
  mk_gl n ty t1 t2 (clean (g_p1 c) ++ clean (g_p2 c) ++ clean (g_p3 c))
    (convert_level (g_lv1 c)) (convert_level (g_lv2 c)) (or_def [] (convert_vertical_coord e (g_vc c))).
Lemma glisting_head e n c d1 ty delta t1 o2 f2 t2 :
  gdt_back (Some (g_dt1 c)) = Ok (Some d1) -> gtm_back (g_tm1 c) = Ok (Some (ty, delta)) -> add_minutes d1 delta = Ok t1 ->
  gdt_back (g_dt2 c) = Ok o2 -> gtm_back (g_tm2 c) = Ok f2 ->
  match o2, f2 with Some d, Some (_, delta2) => t <- add_minutes d delta2 ;; Ok (Some t) | _, _ => Ok None end = Ok t2 ->
  glisting_of n (gcol_head e c) = Ok (gcol_listing e n c ty t1 t2).
Proof.
  intros B1 B2 A1 B3 B4 A2. unfold gcol_head. rewrite B1, B2, B3, B4. cbn [or_def].
  unfold glisting_of, gattr_ftime, gattr_date, gattr_text, gattr_level, gattr_coord.
  cbn [gattr].
  change (str_eqb k_GTM1 k_GDT1) with false. change (str_eqb k_GTM1 k_GTM1) with true.
  change (str_eqb k_GDT1 k_GDT1) with true. change (str_eqb k_GDT2 k_GDT1) with false. change (str_eqb k_GDT2 k_GTM1) with false.
  change (str_eqb k_GDT2 k_GDT2) with true. change (str_eqb k_GTM2 k_GDT1) with false. change (str_eqb k_GTM2 k_GTM1) with false.
  change (str_eqb k_GTM2 k_GDT2) with false. change (str_eqb k_GTM2 k_GTM2) with true.
  cbn [bind need]. rewrite A1. cbn [bind]. rewrite A2. cbn [bind]. reflexivity.
Qed.
