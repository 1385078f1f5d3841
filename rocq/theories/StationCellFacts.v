(** Sounding and surface files: one cell of the table, its pointer, its block and its values. *)
From Coq Require Import Lia ZifyBool ZifyNat.
From Verif Require Import Base BaseFacts Words Layout LayoutFacts Floats FloatsFacts Structs StructsFacts
  Strings StringsFacts Dates SpecDates DatesFacts Headers HeadersFacts Order OrderFacts SpecLayout Props_Layout
  DmFile StreamFacts DmWriteFacts DmHookFacts DmReadFacts Station Text StationRead StationFacts.
Ltac Zify.zify_post_hook ::= Z.div_mod_to_equations.

(** ** Strides *)
Lemma stride_aux_skip {A} (a rest : list A) k n : stride_aux (a ++ rest) (length a + k) n = stride_aux rest k n.
Proof. induction a as [|x a IH]; [reflexivity|]. cbn. exact IH. Qed.
Lemma stride_row {A} (row rest : list A) i n d : length row = n -> (i < n)%nat ->
  stride_aux (row ++ rest) i n = nth i row d :: stride_aux rest i n.
Proof.
  intros L H. destruct (nth_split row d (n := i)) as (a & b & E & La); [lia|].
  rewrite E at 1. rewrite <- app_assoc. pose proof (stride_aux_skip a ((nth i row d :: b) ++ rest) 0 n) as S1.
  rewrite La, Nat.add_0_r in S1. rewrite S1. cbn [app stride_aux]. f_equal.
  assert (Lb : (n - 1 = length b + i)%nat).
  { apply (f_equal (@length A)) in E. rewrite app_length in E. cbn in E. lia. }
  rewrite Lb. apply stride_aux_skip.
Qed.
Lemma stride_concat {A} (rows : list (list A)) i n d : Forall (fun r => length r = n) rows -> (i < n)%nat ->
  stride i n (concat rows) = map (fun r => nth i r d) rows.
Proof.
  intros H Hi. unfold stride. induction H as [|r rows Hr _ IH]; [reflexivity|].
  cbn [concat map]. rewrite (stride_row _ _ _ _ d Hr Hi). rewrite IH. reflexivity.
Qed.

Lemma nth_map_seq {A} (l : list A) d : map (fun i => nth i l d) (seq 0 (length l)) = l.
Proof.
  apply nth_error_ext. intros i. rewrite nth_error_map.
  destruct (Nat.ltb_spec i (length l)) as [H|H].
  - rewrite (nth_error_nth' _ 0%nat) by (rewrite seq_length; exact H). rewrite seq_nth by exact H. cbn.
    symmetry. apply nth_error_nth'. exact H.
  - assert (E1 : nth_error l i = None) by (apply nth_error_None; lia). rewrite E1.
    assert (E2 : nth_error (seq 0 (length l)) i = None) by (apply nth_error_None; rewrite seq_length; lia). rewrite E2. reflexivity.
Qed.

(** The values of one entry: one list per parameter, all of the same length. *)
Definition shaped (k : kind) (names : list str) (cols : list (list flt)) : Prop :=
  length cols = length names /\
  match k with
  | KSounding => exists n, Forall (fun c => length c = n) cols
  | KSurface => Forall (fun c => length c = 1%nat) cols
  end.
Lemma shaped_same k names cols : shaped k names cols -> exists n, Forall (fun c => length c = n) cols.
Proof. intros [_ H]. destruct k; [exact H|exists 1%nat; exact H]. Qed.

Lemma levels_len cols : Forall (fun r => length r = length cols) (levels cols).
Proof.
  destruct cols as [|c cs]; [constructor|]. unfold levels. apply Forall_forall. intros r H.
  apply in_map_iff in H as (i & <- & _). unfold level. apply map_length.
Qed.
Lemma concat_length_const {A} (rows : list (list A)) n : Forall (fun r => length r = n) rows ->
  length (concat rows) = (length rows * n)%nat.
Proof. induction 1 as [|r rows Hr _ IH]; [reflexivity|]. cbn. rewrite app_length, IH. lia. Qed.
Lemma levels_column cols n i c : Forall (fun c => length c = n) cols -> nth_error cols i = Some c ->
  stride i (length cols) (concat (levels cols)) = c.
Proof.
  intros H Hc. assert (Hi : (i < length cols)%nat) by (apply nth_error_Some; congruence).
  etransitivity; [exact (stride_concat (levels cols) i (length cols) S754_nan (levels_len cols) Hi)|].
  destruct cols as [|c0 cs]; [destruct i; discriminate Hc|]. unfold levels. rewrite map_map.
  assert (Lc : length c = length c0).
  { rewrite Forall_forall in H. rewrite (H c) by (eapply nth_error_In; eassumption). symmetry. apply H. left. reflexivity. }
  rewrite <- Lc. rewrite <- (nth_map_seq c S754_nan) at 2. apply map_ext. intros l. unfold level.
  apply nth_error_nth. exact (map_nth_error (fun c => nth l c S754_nan) i (c0 :: cs) Hc).
Qed.
Lemma levels_single cols : Forall (fun c => length c = 1%nat) cols ->
  concat (levels cols) = map (fun c => nth 0 c S754_nan) cols.
Proof.
  intros H. destruct cols as [|c cs]; [reflexivity|]. unfold levels. inversion H as [|? ? Hc _]; subst. rewrite Hc.
  cbn [seq map concat]. rewrite app_nil_r. reflexivity.
Qed.

(** ** Blocks *)
Lemma as_float_map l : mapM as_float (stored_vals (repeat FFloat (length l)) (map VFloat l)) = Ok (map np32 l).
Proof. induction l as [|x l IH]; [reflexivity|]. cbn [length repeat map stored_vals stored mapM as_float bind]. rewrite IH. reflexivity. Qed.
Lemma stride_map {A B} (f : A -> B) l i n : stride i n (map f l) = map f (stride i n l).
Proof.
  unfold stride. revert i. induction l as [|x l IH]; intros i; [reflexivity|].
  cbn. destruct i; cbn; rewrite IH; reflexivity.
Qed.

(** ** Records *)
Lemma foldM_put g ins r (h : Z -> dval) : (forall i (nm : str), In (i, nm) ins -> g i = Ok (h i)) ->
  foldM (fun r '(i, nm) => v <- g i ;; Ok (put nm v r)) ins r = Ok (update r (map (fun '(i, nm) => (nm, h i)) ins)).
Proof.
  revert r; induction ins as [|[i nm] ins IH]; intros r H; [reflexivity|]. cbn [foldM map update fold_left].
  rewrite (H i nm) by (left; reflexivity). cbn [bind]. rewrite IH by (intros; eapply H; right; eassumption). reflexivity.
Qed.
Lemma combine_nth_error {A B} (la : list A) (lb : list B) i a b : nth_error la i = Some a -> nth_error lb i = Some b ->
  nth_error (combine la lb) i = Some (a, b).
Proof. revert lb i; induction la; intros [|y lb] [|i]; cbn; try discriminate; [congruence|auto]. Qed.
Lemma indexed_combine {A V C} (names : list A) (cols : list C) (h : Z -> V) (val : C -> V) :
  length names = length cols -> (forall i c, nth_error cols i = Some c -> h (Z.of_nat i) = val c) ->
  map (fun '(i, nm) => (nm, h i)) (indexed names) = combine names (map val cols).
Proof.
  intros L H. apply nth_error_ext. intros i. rewrite nth_error_map. unfold indexed.
  destruct (Nat.ltb_spec i (length names)) as [Hi|Hi].
  - destruct (nth_error names i) as [nm|] eqn:E1; [|apply nth_error_None in E1; lia].
    destruct (nth_error cols i) as [c|] eqn:E2; [|apply nth_error_None in E2; lia].
    rewrite (combine_nth_error _ _ i (Z.of_nat i) nm); [|apply zrange_nth; rewrite Zlen_length; exact Hi|exact E1].
    rewrite (combine_nth_error _ _ i nm (val c)); [|exact E1|rewrite nth_error_map, E2; reflexivity].
    cbn. rewrite (H _ _ E2). reflexivity.
  - assert (N1 : nth_error (combine (zrange (Zlen names)) names) i = None) by (apply nth_error_None; rewrite combine_length; lia).
    assert (N2 : nth_error (combine names (map val cols)) i = None) by (apply nth_error_None; rewrite combine_length; lia).
    rewrite N1, N2. reflexivity.
Qed.
Lemma put_fresh n v r : ~ In n (map fst r) -> put n v r = r ++ [(n, v)].
Proof.
  unfold put. induction r as [|[k v'] r IH]; intros H; [reflexivity|]. cbn [dict_set app]. cbn [map fst] in H.
  destruct (str_cmp n k) eqn:E; cbn [is_eq].
  - apply str_cmp_eq in E. subst. exfalso. apply H. left. reflexivity.
  - rewrite IH; [reflexivity|]. intros HI. apply H. right. exact HI.
  - rewrite IH; [reflexivity|]. intros HI. apply H. right. exact HI.
Qed.
Lemma update_fresh vals r : NoDup (map fst vals) -> (forall n, In n (map fst vals) -> ~ In n (map fst r)) -> update r vals = r ++ vals.
Proof.
  unfold update. revert r; induction vals as [|[n v] vals IH]; intros r ND HF; cbn [fold_left].
  - rewrite app_nil_r. reflexivity.
  - cbn [map fst] in ND, HF. inversion ND as [|? ? N1 N2]; subst. rewrite put_fresh by (apply HF; left; reflexivity). rewrite IH.
    + rewrite <- app_assoc. reflexivity.
    + exact N2.
    + intros m Hm HI. rewrite map_app, in_app_iff in HI. destruct HI as [HI|[<-|[]]]; [|contradiction].
      apply (HF m); [right; exact Hm|exact HI].
Qed.
Lemma get_put n v r m : get m (put n v r) = if is_eq (str_cmp m n) then Some v else get m r.
Proof. apply (dict_set_get _ good_str). Qed.
Lemma get_update_other vals r m : ~ In m (map fst vals) -> get m (update r vals) = get m r.
Proof.
  unfold update. revert r; induction vals as [|[n v] vals IH]; intros r H; [reflexivity|]. cbn [fold_left].
  rewrite IH by (intros HI; apply H; right; exact HI). rewrite get_put.
  destruct (str_cmp m n) eqn:E; cbn [is_eq]; try reflexivity. apply str_cmp_eq in E. subst. exfalso. apply H. left. reflexivity.
Qed.
Lemma get_update vals r n v : NoDup (map fst vals) -> In (n, v) vals -> get n (update r vals) = Some v.
Proof.
  unfold update. revert r; induction vals as [|[m w] vals IH]; intros r ND HI; [destruct HI|]. cbn [fold_left].
  cbn [map fst] in ND. inversion ND as [|? ? N1 N2]; subst. destruct HI as [HI|HI].
  - injection HI as -> ->. fold (update (put n v r) vals). rewrite get_update_other by exact N1. rewrite get_put.
    rewrite (proj2 (str_cmp_eq n n) eq_refl). reflexivity.
  - apply IH; assumption.
Qed.

(** What a cell's record holds. *)
Definition val_of (k : kind) (c : list flt) : dval :=
  match k with KSounding => DArr (map np32 c) | KSurface => DFlt (np32 (nth 0 c S754_nan)) end.
Definition values_of (k : kind) (names : list str) (cols : list (list flt)) : record :=
  combine (map clean names) (map (val_of k) cols).
Definition head_rec (k : kind) (r : row) (c : station) : record :=
  [(k_STID, DHead (HText (clean (s_id c)))); (k_STNM, DHead (HInt (s_nm c))); (k_SLAT, DHead (HFlt (coord_back (s_lat c))));
   (k_SLON, DHead (HFlt (coord_back (s_lon c)))); (k_SELV, DHead (HInt (s_elv c))); (k_STAT, DHead (HText (clean (s_stat c))));
   (k_COUN, DHead (HText (clean (s_coun c))))]
  ++ match k with KSounding => [] | KSurface =>
       [(k_STD2, DHead (HText (clean (s_id2 c)))); (k_SPRI, DHead (HInt (int_back (s_pri c))))] end
  ++ [(k_DATE, DHead (HDate (fst r))); (k_TIME, DHead (HTime (minute (snd r))))].
Definition listing_at (k : kind) (i : Z) (r : row) (j : Z) (c : station) : listing :=
  mk_ls i j (combine_dt (fst r) (minute (snd r)))
    (clean (s_id c) ++ match k with KSounding => [] | KSurface => clean (s_id2 c) end)
    (s_nm c) (coord_back (s_lat c)) (coord_back (s_lon c)) (s_elv c) (clean (s_stat c)) (clean (s_coun c)).

(** ** The table *)
Definition cell := ((Z * row) * (Z * station))%type.
Definition grid (o : sfile) : list cell := list_prod (indexed (sf_row_headers o)) (indexed (sf_col_headers o)).
Definition cell_data (o : sfile) (x : cell) : option (list (list flt)) :=
  dict_get key_cmp (snd (fst x), snd (snd x)) (sf_data o).
Definition filled (o : sfile) (x : cell) : bool := match cell_data o x with Some _ => true | None => false end.
Definition kept (o : sfile) : list cell := filter (filled o) (grid o).
Definition idx (x : cell) : Z * Z := (fst (fst x), fst (snd x)).

Lemma list_prod_map {A B A' B'} (f : A -> A') (g : B -> B') la lb :
  list_prod (map f la) (map g lb) = map (fun x => (f (fst x), g (snd x))) (list_prod la lb).
Proof.
  induction la as [|a la IH]; [reflexivity|]. cbn [map list_prod]. rewrite map_app, IH, !map_map. reflexivity.
Qed.
Lemma filter_map_eq {A B} (f : A -> B) (p : B -> bool) (q : A -> bool) l :
  (forall x, In x l -> p (f x) = q x) -> filter p (map f l) = map f (filter q l).
Proof.
  induction l as [|x l IH]; intros H; [reflexivity|]. cbn. rewrite (H x) by (left; reflexivity).
  rewrite IH by (intros; apply H; right; assumption). destruct (q x); reflexivity.
Qed.
Lemma mapM_map_ok {A B C} (g : A -> B) (f : B -> res C) (h : A -> C) l :
  (forall x, In x l -> f (g x) = Ok (h x)) -> mapM f (map g l) = Ok (map h l).
Proof.
  induction l as [|x l IH]; intros H; [reflexivity|]. cbn. rewrite (H x) by (left; reflexivity). cbn [bind].
  rewrite IH by (intros; apply H; right; assumption). reflexivity.
Qed.

Section Cell.
  Variables (e : endian) (o : sfile) (p : pointers) (b : bytes) (nf : Z).
  Hypothesis HC : coherent o.
  Hypothesis HS : saved e o p b.
  Hypothesis HP : head_pointers (sf_head o) = p.
  Let f := opened e o p b nf.
  Let k := sf_kind o.
  Let names := sf_names o.

  Lemma next_free_pos : 1 <= next_free_word p.
  Proof.
    destruct (head_data_ptrs _ _ HC HP) as (_ & _ & D).
    destruct HC as [C1 C2].
    pose proof (layout_order _ (sf_head_ok _ HC)) as LO. cbv zeta in LO. rewrite HP in LO.
    pose proof (Zlen_nonneg (hd_row_names (sf_head o))). pose proof (Zlen_nonneg (hd_column_names (sf_head o))).
    assert (0 <= sf_rows o * sf_cols o) by (rewrite C1, C2; apply Z.mul_nonneg_nonneg; apply Zlen_nonneg).
    clear - D LO H H0 H1. lia.
  Qed.

  Lemma cell_ptr i r j c : In (i, r) (indexed (sf_row_headers o)) -> In (j, c) (indexed (sf_col_headers o)) ->
    match dict_get key_cmp (r, c) (sf_data o) with
    | None => data_ptr f i j 0 = 0
    | Some cols => exists ws, block_words e k r cols = Ok ws /\ 1 <= data_ptr f i j 0 /\
        has_at b (4 * (data_ptr f i j 0 - 1)) (concat ws)
    end.
  Proof.
    intros Hr Hc. pose proof next_free_pos as NF.
    assert (HI : In (item_of e o (data_block_ptr p) (i, r) (j, c)) (items_of e o (data_block_ptr p))).
    { rewrite items_of_eq. apply (in_map (fun '(ir, jc) => item_of e o (data_block_ptr p) ir jc) _ ((i, r), (j, c))).
      apply cell_pairs_in. auto. }
    destruct HS as [_ _ S3 _]. destruct (items_at_in _ _ _ _ _ S3 HI) as [H|H]; [|lia].
    assert (ED : rd_uint e b (4 * (fst (item_of e o (data_block_ptr p) (i, r) (j, c)) - 1)) = data_ptr f i j 0).
    { unfold data_ptr, pointer_word, f, opened. cbn [rf_file file_of gf_endian gf_data gf_label label_of lb_data_block_ptr lb_columns lb_parts sf_head hd_columns hd_parts].
      change (Zlen [the_part (sf_kind o) (sf_names o)]) with 1. unfold item_of, word_to_position. cbn [fst]. f_equal. lia. }
    rewrite ED in H. clear ED. unfold item_of in H. cbn [snd] in H.
    destruct (dict_get key_cmp (r, c) (sf_data o)) as [cols|]; [|exact H].
    destruct H as (ws & nf' & H1 & H2 & H3 & H4). exists ws. split; [exact H1|]. rewrite H3. split; [lia|].
    destruct H4 as [->|H4]; [|exact H4]. exfalso. unfold block_words in H1.
    repeat match type of H1 with bind ?m _ = _ => destruct m; cbn [bind] in H1; [|discriminate H1] end. discriminate H1.
  Qed.

  Lemma cell_block i r j c cols part : In (i, r) (indexed (sf_row_headers o)) -> In (j, c) (indexed (sf_col_headers o)) ->
    dict_get key_cmp (r, c) (sf_data o) = Some cols -> shaped k names cols ->
    part = mk_rpart (clean (part_name k)) part_header DT_REAL (Zlen names) ->
    forall q, read_block f part q (data_ptr f i j 0) = Ok (BReal (map np32 (concat (levels cols)))).
  Proof.
    intros Hr Hc HD HSh -> q. pose proof (cell_ptr i r j c Hr Hc) as H. rewrite HD in H.
    destruct H as (ws & H1 & H2 & H3). unfold block_words in H1.
    destruct (match k with KSounding => _ | KSurface => _ end) as [lendat|] eqn:EL in H1; cbn [bind] in H1; [|discriminate H1].
    assert (EL' : lendat = 1 + Zlen (concat (levels cols))).
    { unfold Zlen. rewrite (concat_length_const _ _ (levels_len cols)). destruct HSh as [_ HSh].
      destruct k.
      - destruct cols as [|c0 cs]; [discriminate EL|]. apply ok_inj in EL. subst lendat. unfold levels, part_header, Zlen.
        rewrite map_length, seq_length. lia.
      - apply ok_inj in EL. subst lendat. unfold part_header, Zlen. destruct cols as [|c0 cs]; [reflexivity|].
        unfold levels. rewrite map_length, seq_length. inversion HSh as [|? ? Hc0 _]; subst. rewrite Hc0. lia. }
    clear EL. destruct (enc_time (snd r)) as [it|]; cbn [bind] in H1; [|discriminate H1].
    destruct (pack_i32 e lendat) as [w1|] eqn:E1; cbn [bind] in H1; [|discriminate H1].
    destruct (pack_i32 e it) as [w2|] eqn:E2; cbn [bind] in H1; [|discriminate H1].
    destruct (mapM (pack_f32 e) _) as [fw|] eqn:E3; cbn [bind] in H1; [|discriminate H1].
    apply ok_inj in H1. subst ws. cbn [concat] in H3. apply has_at_app in H3 as [A1 A2]. apply has_at_app in A2 as [_ A2].
    apply pack_i32_length in E2 as L2. apply pack_i32_length in E1 as L1.
    set (q0 := data_ptr f i j 0) in *. unfold read_block. cbn [rp_header_length rp_data_type]. unfold part_header, DT_REAL.
    cbn [Z.eqb Pos.eqb]. change (gf_endian (rf_file f)) with e. change (gf_data (rf_file f)) with b.
    assert (EP : word_to_position q0 = 4 * (q0 - 1)) by (unfold word_to_position; lia). rewrite EP.
    pose proof (Zlen_nonneg (concat (levels cols))) as NN. rewrite (rd_next_word b (4 * (q0 - 1)) w1 A1 L1).
    rewrite (rd_uint_int e b (4 * (q0 - 1)) lendat w1 E1) by (try assumption; lia). subst lendat.
    unfold rd_array. replace (1 + Zlen (concat (levels cols)) - 1) with (Zlen (concat (levels cols))) by lia.
    replace (Zlen (concat (levels cols)) <? 0) with false by lia. rewrite Zlen_length.
    replace (4 * (q0 - 1) + 4 + word_to_position (1 + 1)) with (4 * (q0 - 1) + Zlen w1 + Zlen w2) by (unfold Zlen, word_to_position; lia).
    rewrite (rd_packed e _ _ _ b _ (packed_floats _ _ _ E3) A2). cbn [bind]. rewrite as_float_map. reflexivity.
  Qed.

  Lemma grid_in x : In x (grid o) <-> In (fst x) (indexed (sf_row_headers o)) /\ In (snd x) (indexed (sf_col_headers o)).
  Proof. destruct x. apply in_prod_iff. Qed.
  Lemma f_type : rf_type f = read_type k. Proof. reflexivity. Qed.
  Lemma f_parts : gf_parts (rf_file f) = [mk_rpart (clean (part_name k)) part_header DT_REAL (Zlen names)].
  Proof. reflexivity. Qed.
  Lemma f_params : exists a b c, gf_parameters (rf_file f) = [mk_rparams (map clean names) a b c].
  Proof. eexists _, _, _. reflexivity. Qed.

  Lemma cells_f : cells f = map idx (grid o).
  Proof.
    unfold cells. rewrite f_type.
    assert (E : list_prod (zrange (Zlen (rf_rows f))) (zrange (Zlen (rf_cols f))) = map idx (grid o)).
    { unfold f, opened. cbn [rf_rows rf_cols]. rewrite !Zlen_map, <- !indexed_fst. apply list_prod_map. }
    destruct k; exact E.
  Qed.
  Lemma present_f x : In x (grid o) -> present f (fst (idx x)) (snd (idx x)) = filled o x.
  Proof.
    destruct x as [[i r] [j c]]. intros H. apply grid_in in H as [H1 H2]. cbn [fst snd idx] in *.
    pose proof (cell_ptr i r j c H1 H2) as HP'. unfold filled, cell_data. cbn [fst snd].
    assert (E : present f i j = negb (data_ptr f i j 0 =? 0)).
    { unfold present. rewrite f_type, f_parts. destruct k; [reflexivity|]. cbn [read_type]. change (zrange (Zlen [_])) with [0].
      cbn [existsb]. apply orb_false_r. }
    rewrite E. destruct (dict_get key_cmp (r, c) (sf_data o)) as [cols|].
    - destruct HP' as (ws & _ & HP' & _). lia.
    - rewrite HP'. reflexivity.
  Qed.
  Lemma head_at_row i r : In (i, r) (indexed (sf_row_headers o)) -> py_index (rf_rows f) i = Ok (row_head r).
  Proof.
    intros H. apply indexed_in in H as [H1 H2]. apply py_index_in; [exact H1|]. unfold f, opened. cbn [rf_rows].
    rewrite nth_error_map, H2. reflexivity.
  Qed.
  Lemma head_at_col j c : In (j, c) (indexed (sf_col_headers o)) -> py_index (rf_cols f) j = Ok (col_head k c).
  Proof.
    intros H. apply indexed_in in H as [H1 H2]. apply py_index_in; [exact H1|]. unfold f, opened. cbn [rf_cols].
    rewrite nth_error_map, H2. reflexivity.
  Qed.
  Lemma heads x : In x (grid o) ->
    time_head f (fst (idx x)) (snd (idx x)) = Ok (row_head (snd (fst x))) /\
    station_head f (fst (idx x)) (snd (idx x)) = Ok (col_head k (snd (snd x))).
  Proof.
    destruct x as [[i r] [j c]]. intros H. apply grid_in in H as [H1 H2]. cbn [fst snd idx] in *.
    unfold time_head, station_head. rewrite f_type. rewrite (head_at_row _ _ H1), (head_at_col _ _ H2). destruct k; split; reflexivity.
  Qed.
  Lemma listing_f x : In x (grid o) ->
    listing_of f (fst (idx x)) (snd (idx x)) =
    Ok (listing_at k (fst (fst x)) (snd (fst x)) (fst (snd x)) (snd (snd x))).
  Proof.
    intros H. destruct (heads x H) as [H1 H2]. unfold listing_of. rewrite H1, H2, f_type. cbn [bind].
    destruct x as [[i r] [j c]]. cbn [fst snd idx]. unfold listing_at. destruct k; [rewrite app_nil_r|]; reflexivity.
  Qed.
  Lemma info_f : info f = Ok (map (fun x => listing_at k (fst (fst x)) (snd (fst x)) (fst (snd x)) (snd (snd x))) (kept o)).
  Proof.
    unfold info. rewrite cells_f. rewrite (filter_map_eq _ _ (filled o)); [|intros x Hx; rewrite <- present_f by exact Hx; destruct (idx x); reflexivity].
    apply mapM_map_ok. intros x Hx. unfold kept in Hx. apply filter_In in Hx as [Hx _].
    rewrite <- listing_f by exact Hx. destruct (idx x); reflexivity.
  Qed.

  Lemma head_record_f x : In x (grid o) ->
    head_record f (fst (idx x)) (snd (idx x)) = Ok (head_rec k (snd (fst x)) (snd (snd x))).
  Proof.
    intros H. destruct (heads x H) as [H1 H2]. unfold head_record. rewrite H1, H2, f_type. cbn [bind].
    destruct k; reflexivity.
  Qed.

  Lemma add_values_f cols r : shaped k names cols ->
    add_values (read_type k) (map clean names) (BReal (map np32 (concat (levels cols)))) r = Ok (update r (values_of k names cols)).
  Proof.
    intros HSh. destruct (shaped_same _ _ _ HSh) as (n & HN). destruct HSh as [L HSh].
    unfold add_values, values_of. rewrite map_length, <- L.
    set (h := fun i : Z => match k with
      | KSounding => DArr (stride (Z.to_nat i) (length cols) (map np32 (concat (levels cols))))
      | KSurface => DFlt (nth (Z.to_nat i) (map np32 (concat (levels cols))) S754_nan) end).
    assert (HH : forall i c, nth_error cols i = Some c -> h (Z.of_nat i) = val_of k c).
    { intros i c Hc. unfold h, val_of. rewrite Nat2Z.id. destruct k.
      - f_equal. rewrite stride_map. f_equal. eapply levels_column; eassumption.
      - f_equal. rewrite levels_single by exact HSh. rewrite map_map. apply nth_error_nth.
        exact (map_nth_error (fun c => np32 (nth 0 c S754_nan)) i cols Hc). }
    rewrite <- (indexed_combine (map clean names) cols h (val_of k)) by (try exact HH; rewrite map_length; lia).
    rewrite <- (foldM_put (fun i => match k with
      | KSounding => Ok (DArr (stride (Z.to_nat i) (length cols) (map np32 (concat (levels cols)))))
      | KSurface => x <- py_index (map np32 (concat (levels cols))) i ;; Ok (DFlt x) end)).
    - destruct k; reflexivity.
    - intros i nm HI. apply indexed_in in HI as [HI1 HI2]. unfold h. destruct k; [reflexivity|].
      assert (HL : (Z.to_nat i < length cols)%nat) by (rewrite L; rewrite <- (map_length clean); apply nth_error_Some; congruence).
      rewrite (py_index_in _ _ (nth (Z.to_nat i) (map np32 (concat (levels cols))) S754_nan)); [reflexivity|exact HI1|].
      apply nth_error_nth'. rewrite map_length, levels_single by exact HSh. rewrite map_length. exact HL.
  Qed.

  Lemma add_parts_f x cols r : In x (grid o) -> cell_data o x = Some cols -> shaped k names cols ->
    add_parts f (fst (idx x)) (snd (idx x)) r = Ok (update r (values_of k names cols)).
  Proof.
    intros H HD HSh. destruct x as [[i r0] [j c]]. apply grid_in in H as [H1 H2]. cbn [fst snd idx] in *.
    unfold cell_data in HD. cbn [fst snd] in HD.
    unfold add_parts. rewrite f_parts. destruct f_params as (a & b' & c' & ->). cbn [combine]. change (indexed [?y]) with [(0, y)].
    set (q := mk_rparams _ a b' c'). set (pt := mk_rpart _ _ _ _).
    cbn [foldM]. unfold add_part. pose proof (cell_ptr i r0 j c H1 H2) as HPt. rewrite HD in HPt. destruct HPt as (ws & _ & HPt & _).
    replace (data_ptr f i j 0 =? 0) with false by lia.
    rewrite (cell_block i r0 j c cols pt H1 H2 HD HSh eq_refl). cbn [bind]. rewrite f_type. cbn [rq_name q].
    rewrite add_values_f by exact HSh. reflexivity.
  Qed.

  Definition plain_names : Prop :=
    NoDup (map clean names) /\
    match k with KSounding => True | KSurface => ~ In k_TEXT (map clean names) /\ ~ In k_SPCL (map clean names) end.

  Lemma fst_values cols : length cols = length names -> map fst (values_of k names cols) = map clean names.
  Proof.
    intros L. unfold values_of.
    assert (L' : length (map (val_of k) cols) = length (map clean names)) by (rewrite !map_length; exact L).
    revert L'. generalize (map (val_of k) cols). generalize (map clean names). intros a. induction a as [|x a IH]; intros [|y l] L'; try discriminate L'; [reflexivity|].
    cbn. rewrite IH by (cbn in L'; lia). reflexivity.
  Qed.

  Lemma unpack_cell_f x cols : plain_names -> In x (grid o) -> cell_data o x = Some cols -> shaped k names cols ->
    unpack_cell f (fst (idx x)) (snd (idx x)) =
    Ok [update (head_rec k (snd (fst x)) (snd (snd x))) (values_of k names cols)].
  Proof.
    intros [ND HT] H HD HSh. unfold unpack_cell. rewrite head_record_f by exact H. cbn [bind]. rewrite f_type.
    pose proof (fst_values cols (proj1 HSh)) as FV.
    destruct k eqn:EK; cbn [read_type]; rewrite (add_parts_f x cols) by (try assumption; rewrite EK; assumption); cbn [bind]; rewrite ?EK; [reflexivity|].
    destruct HT as [T1 T2]. rewrite update_fresh by (rewrite ?FV; auto). cbn [app].
    assert (G : forall n, ~ In n (map clean names) -> get n (values_of KSurface names cols) = None).
    { intros n Hn. apply dict_get_none. apply (mem_false str_cmp). intros y Hy E. apply str_cmp_eq in E. subst y. rewrite FV in Hy. contradiction. }
    rewrite (G _ T1), (G _ T2). reflexivity.
  Qed.
End Cell.
