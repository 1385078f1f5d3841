(** An accepted sounding or surface file whose fields fit can be written. *)
From Coq Require Import Lia ZifyBool ZifyNat Permutation QArith Qabs Lqa.
From Verif Require Import Base BaseFacts Words Layout LayoutFacts SpecLayout Floats FloatsFacts RoundFacts Structs Strings StringsFacts
  Dates SpecDates DatesFacts Headers HeadersFacts CoordFacts Order OrderFacts
  DmFile StreamFacts DmWriteFacts DmHookFacts DmReadFacts Station StationFacts StationRead StationCellFacts SpecStation SpecWrite CoordEq
  HistoryFacts CallFacts WritableFacts.
From Coq Require Import List.
Open Scope Z_scope.

(** ** Parts of a call *)
Lemma valid_time_arg c t : match c_time c with ADDt t => valid_dt t = true | _ => True end ->
  sounding_time (c_time c) = Ok t -> valid_dt t = true.
Proof.
  intros H E. unfold sounding_time in E. destruct (c_time c) as [s|t'|]; [|congruence|discriminate E].
  destruct (existsb _ _).
  - destruct (split_on _ _) as [[|i [|f [|? ?]]] ?]; try discriminate E.
    destruct (strptime _ _) as [t0|] eqn:E0; cbn [bind] in E; [|discriminate E].
    destruct (py_int f) as [h|]; cbn [bind] in E; [|discriminate E].
    apply strptime_valid in E0. exact (proj1 (add_minutes_spec _ _ _ E0 E)).
  - exact (strptime_valid _ _ _ E).
Qed.
Lemma row_words_fine e c t : valid_dt t = true -> time_arg c = t -> fine (row_words e (row_arg c)).
Proof.
  intros V <-. unfold valid_dt in V. apply andb_prop in V as [V1 V2]. unfold row_words, row_arg. cbn [fst snd].
  rewrite enc_date_val by exact V1. cbn [bind]. apply valid_date_ranges in V1 as R1.
  pose proof (days_in_month_range (da_y (date_of (time_arg c))) (da_mo (date_of (time_arg c)))).
  destruct (pack_fine e (da_y (date_of (time_arg c)) mod 100 * 10000 + da_mo (date_of (time_arg c)) * 100 + da_d (date_of (time_arg c)))) as [w1 ->].
  { pose proof (Z.mod_pos_bound (da_y (date_of (time_arg c))) 100). lia. }
  cbn [bind]. rewrite enc_time_val by exact V2. cbn [bind]. unfold valid_time in V2. rewrite !andb_true_iff in V2.
  destruct (pack_fine e (ti_h (time_of (time_arg c)) * 100 + ti_mi (time_of (time_arg c)))) as [w2 ->]; [lia|]. eexists; reflexivity.
Qed.
Lemma enc_time_fine c t : valid_dt t = true -> time_arg c = t -> exists z, enc_time (snd (row_arg c)) = Ok z /\ 0 <= z < 10000.
Proof.
  intros V <-. unfold valid_dt in V. apply andb_prop in V as [V1 V2]. unfold row_arg. cbn [fst snd].
  rewrite enc_time_val by exact V2. unfold valid_time in V2. rewrite !andb_true_iff in V2. eexists. split; [reflexivity|lia].
Qed.
Lemma coord_word_fine e n : fits_coord n -> fine (coord_word e n).
Proof.
  unfold coord_word. destruct n as [z|f]; cbn [fits_coord].
  - intros H. cbn [enc_coord bind]. apply pack_fine. lia.
  - intros (F & V & B). destruct (enc_coord_float f V F) as (z & -> & E & _).
    { eapply Qle_lt_trans; [exact B|]. reflexivity. }
    cbn [bind]. apply pack_fine. apply Qabs_Qle_condition in E as [E1 E2]. apply Qabs_Qle_condition in B as [B1 B2].
    assert (H1 : (inject_Z z <= inject_Z 2147483601)%Q).
    { change (inject_Z 2147483601) with (1 + 100 * inject_Z 21474836)%Q. lra. }
    assert (H2 : (inject_Z (-2147483601) <= inject_Z z)%Q).
    { change (inject_Z (-2147483601)) with (- (1) - 100 * inject_Z 21474836)%Q. lra. }
    rewrite <- Zle_Qle in H1, H2. lia.
Qed.
Lemma ascii_sub (s t : str) : (forall c, In c t -> In c s) -> is_ascii s = true -> is_ascii t = true.
Proof. unfold is_ascii. rewrite !forallb_forall. auto. Qed.
Lemma column_words_fine e k names c : fits_call k names c -> fine (column_words e k (station_arg k c)).
Proof.
  intros (_ & AI & AS & AC & FN & FE & FL & FO & FP & _). unfold column_words, station_arg, fits_int in *.
  cbn [s_id s_nm s_lat s_lon s_elv s_stat s_coun s_id2 s_pri].
  assert (A1 : is_ascii (firstn 4 (text_arg si_id c)) = true /\ is_ascii (firstn 4 (skipn 4 (text_arg si_id c))) = true).
  { split; (eapply ascii_sub; [|exact AI]); generalize (text_arg si_id c); intros w x; do 8 (destruct w as [|? w]; [cbn; tauto|]); cbn; tauto. }
  destruct A1 as [A1 A2].
  destruct (word_of_str_ok _ A1) as [w1 ->]. cbn [bind]. destruct (pack_fine e (int_arg si_number c)) as [w2 ->]; [lia|]. cbn [bind].
  destruct (coord_word_fine e _ FL) as [w3 ->]. cbn [bind]. destruct (coord_word_fine e _ FO) as [w4 ->]. cbn [bind].
  destruct (pack_fine e (int_arg si_elev c)) as [w5 ->]; [lia|]. cbn [bind].
  destruct (word_of_str_ok _ AS) as [w6 ->]. cbn [bind]. destruct (word_of_str_ok _ AC) as [w7 ->]. cbn [bind].
  destruct (word_of_str_ok _ A2) as [w8 ->]. cbn [bind]. destruct k; [eexists; reflexivity|].
  destruct (pri_arg KSurface c) as [z|]; [|contradiction]. cbn [num_word].
  destruct (pack_fine e z) as [w9 ->]; [lia|]. eexists; reflexivity.
Qed.

(** ** Values *)
Lemma value_fine e x : fits_value x -> fine (pack_f32 e (fill_nan x)).
Proof.
  unfold fill_nan, pack_f32. intros H. destruct x as [s|s| |s m ex]; cbn [fnan]; try (eexists; reflexivity).
  destruct (to32_fits s m ex) as [y ->]; [|eexists; reflexivity].
  specialize (H eq_refl). cbn [q_of] in H.
  assert (P : (0 <= pow2q ex)%Q) by (apply Qlt_le_weak, pow2q_pos).
  rewrite Qabs_Qmult, (Qabs_pos _ P) in H.
  assert (A : Qabs (if s then inject_Z (Z.neg m) else inject_Z (Z.pos m)) = inject_Z (Z.pos m)) by (destruct s; reflexivity).
  rewrite A in H. eapply Qle_trans; [exact H|]. vm_compute. discriminate.
Qed.
Lemma levels_in cols x : In x (concat (levels cols)) -> x = S754_nan \/ exists c, In c cols /\ In x c.
Proof.
  intros H. apply in_concat in H as (l & Hl & Hx). unfold levels in Hl. destruct cols as [|c0 cs]; [destruct Hl|].
  apply in_map_iff in Hl as (i & <- & _). unfold level in Hx. apply in_map_iff in Hx as (c & <- & Hc).
  destruct (Nat.ltb_spec i (length c)) as [L|L]; [right; exists c; split; [exact Hc|apply nth_In; exact L]|].
  left. apply nth_overflow. exact L.
Qed.
Lemma shaped_call k names c : match k with KSounding => True | KSurface => Forall (fun '(_, v) => length v = 1%nat) (c_data c) end ->
  validate_length k (upper_data (c_data c)) = Ok tt ->
  (forall n, In n names -> dict_get str_cmp n (upper_data (c_data c)) = Some (map fill_nan (given n c))) ->
  exists n, 0 <= Z.of_nat n < 500 /\ Forall (fun v => length v = n) (cols_arg names c) /\ (k = KSurface -> n = 1%nat).
Proof.
  intros HV HL HD. destruct k.
  - unfold validate_length in HL. remember (upper_data (c_data c)) as d. destruct d as [|[k0 v0] d]; [discriminate HL|].
    destruct (forallb _ _ && _) eqn:E; [|discriminate HL]. apply andb_prop in E as [E EL]. rewrite forallb_forall in E.
    exists (length v0). split; [unfold Zlen, MAX_LEVELS in EL; lia|]. split; [|discriminate].
    apply Forall_forall. intros x Hx. apply in_map_iff in Hx as (n & <- & Hn).
    specialize (HD n Hn). apply (dict_get_in str_cmp) in HD as (k' & _ & HI). apply E in HI. cbn in HI. apply Nat.eqb_eq in HI. exact HI.
  - exists 1%nat. split; [lia|]. split; [|reflexivity]. apply Forall_forall. intros x Hx. apply in_map_iff in Hx as (n & <- & Hn).
    exact (upper_data_len (fun l => l = 1%nat) _ HV n _ (HD n Hn)).
Qed.
Lemma sounding_names names c x : check_call KSounding names c = Ok x -> names <> [].
Proof.
  intros H ->. unfold check_call in H. destruct (param_args [] _) as [cols|] eqn:EP; cbn [bind] in H; [|discriminate H].
  unfold param_args in EP. destruct (upper_data (c_data c)) as [|[k v] d]; [discriminate H|discriminate EP].
Qed.
Lemma sum_const (l : list str) f n : (forall x, In x l -> f x = n) -> sum (map f l) = Zlen l * n.
Proof.
  induction l as [|x l IH]; intros H; [reflexivity|]. cbn [map sum]. rewrite Zlen_cons, (H x) by (left; reflexivity).
  rewrite IH by (intros; apply H; right; assumption). lia.
Qed.
Lemma block_words_fine e k names c t n : valid_dt t = true -> time_arg c = t ->
  Forall (fun m => Forall fits_value (given m c)) names -> Zlen names <= 44 -> (k = KSounding -> names <> []) ->
  0 <= Z.of_nat n < 500 -> Forall (fun v => length v = n) (cols_arg names c) -> (k = KSurface -> n = 1%nat) ->
  exists ws, block_words e k (row_arg c) (cols_arg names c) = Ok ws /\ word_list ws /\ Zlen ws = report_size names c.
Proof.
  intros V ET FV LN NE Hn HS HK.
  assert (LL : Zlen (concat (levels (cols_arg names c))) = sum (map (fun m => Zlen (given m c)) names)).
  { rewrite (sum_const names _ (Z.of_nat n)).
    - unfold Zlen. rewrite (concat_length_const _ _ (levels_len _)). unfold cols_arg in *. rewrite map_length.
      destruct names as [|m ms]; [cbn; lia|]. cbn [levels map] in *. rewrite map_length, seq_length. inversion HS as [|? ? H1 H2]; subst. lia.
    - intros m Hm. unfold Zlen. f_equal. rewrite Forall_forall in HS. rewrite <- (map_length fill_nan). apply HS.
      exact (in_map (fun n => map fill_nan (given n c)) _ _ Hm). }
  assert (HW : fine (mapM (pack_f32 e) (concat (levels (cols_arg names c))))).
  { apply mapM_fine. intros x Hx. apply levels_in in Hx as [->|(v & Hv & Hx)]; [eexists; reflexivity|].
    unfold cols_arg in Hv. apply in_map_iff in Hv as (m & <- & Hm). apply in_map_iff in Hx as (y & <- & Hy).
    rewrite Forall_forall in FV. apply FV in Hm. rewrite Forall_forall in Hm. apply value_fine, Hm, Hy. }
  destruct HW as [ws HW]. destruct (enc_time_fine c t V ET) as (z & EZ & BZ).
  destruct (pack_fine e z) as [w2 E2]; [lia|].
  assert (NL : Zlen (cols_arg names c) = Zlen names) by apply Zlen_map.
  assert (EL : exists l : Z, match k, cols_arg names c with
            | KSounding, [] => Err StopIteration
            | KSounding, v :: _ => Ok (part_header + Zlen v * Zlen (cols_arg names c))
            | KSurface, _ => Ok (part_header + 1 * Zlen (cols_arg names c))
            end = Ok l /\ 0 <= l < 30000).
  { pose proof (Zlen_nonneg names). unfold part_header. destruct k.
    - specialize (NE eq_refl). rewrite NL. destruct names as [|m ms]; [contradiction|]. cbn [cols_arg map].
      eexists. split; [reflexivity|]. inversion HS as [|? ? H1 H2]; subst. unfold Zlen at 1 3. nia.
    - eexists. split; [reflexivity|]. lia. }
  destruct EL as (l & EL & BL). destruct (pack_fine e l) as [w1 E1]; [lia|].
  exists (w1 :: w2 :: ws). split; [|split].
  - unfold block_words. rewrite EL. cbn [bind]. rewrite EZ. cbn [bind]. rewrite E1, E2, HW. reflexivity.
  - constructor; [exact (pack_i32_length _ _ _ E1)|]. constructor; [exact (pack_i32_length _ _ _ E2)|].
    exact (proj1 (floats_words _ _ _ HW)).
  - rewrite !Zlen_cons. rewrite (proj2 (floats_words _ _ _ HW)), LL. unfold report_size. lia.
Qed.

(** ** Limits *)
Lemma add_all_limit calls : forall o o', sf_rows o + sf_cols o <= 32000 -> add_all o calls = Ok o' -> sf_rows o' + sf_cols o' <= 32000.
Proof.
  induction calls as [|c calls IH]; intros o o' H E; unfold add_all in E; cbn [foldM] in E.
  - apply ok_inj in E. subst. exact H.
  - destruct (add_entry o c) as [o1 [[]|x]] eqn:E1; cbn [bind] in E; [|discriminate E]. apply (IH o1 o'); [|exact E].
    unfold add_entry in E1. destruct (check_call _ _ c) as [[[r st] cols]|]; [|discriminate E1]. cbv zeta in E1.
    destruct (Z.gtb_spec (Zlen (set_add row_cmp r (sf_row_set o)) + Zlen (set_add station_cmp st (sf_col_set o))) MMHDRS) as [G|G]; [discriminate E1|].
    injection E1 as <-. cbn [sf_rows sf_cols]. exact G.
Qed.
Lemma new_file_count k params pd o : new_file k params pd = Ok o -> Zlen (sf_names o) <= 44 /\ sf_rows o = 0 /\ sf_cols o = 0.
Proof.
  unfold new_file. intros H. destruct (Z.gtb_spec (Zlen params) MMPARM) as [G|G]; [discriminate H|]. destruct (negb _); [discriminate H|].
  destruct pd; [discriminate H|]. apply ok_inj in H. subst o. cbn [sf_names sf_rows sf_cols]. split; [|split; reflexivity].
  assert (X : forall ps acc, Zlen (fold_left (fun names p => if existsb (str_eqb p) names then names else names ++ [upper p]) ps acc) <= Zlen acc + Zlen ps).
  { clear. induction ps as [|p ps IH]; intros acc; cbn [fold_left]; [unfold Zlen; cbn; lia|]. specialize (IH (if existsb (str_eqb p) acc then acc else acc ++ [upper p])).
    rewrite Zlen_cons. destruct (existsb _ acc); [lia|]. rewrite Zlen_app, Zlen_cons in IH. unfold Zlen in *. cbn [length] in IH. lia. }
  unfold add_parameters. specialize (X params []). unfold MMPARM in G. change (Zlen []) with 0 in X. lia.
Qed.
Lemma sf_ptrs_bound o p : coherent o -> sf_rows o + sf_cols o <= 32000 -> Zlen (sf_names o) <= 44 -> head_pointers (sf_head o) = p ->
  Forall (fun w => 1 <= w < 2147483648)
    [row_keys_ptr p; column_keys_ptr p; file_keys_ptr p; row_headers_ptr p; column_headers_ptr p; parts_ptr p; data_block_ptr p] /\
  1 <= next_free_word p <= 256400000.
Proof.
  intros [HC1 HC2] HL HN <-. pose proof (Zlen_nonneg (sf_row_headers o)). pose proof (Zlen_nonneg (sf_col_headers o)). pose proof (Zlen_nonneg (sf_names o)).
  rewrite <- HC1 in *. rewrite <- HC2 in *. clear HC1 HC2.
  unfold head_pointers, set_pointers. cbv zeta.
  cbn [row_keys_ptr column_keys_ptr file_keys_ptr row_headers_ptr column_headers_ptr parts_ptr data_block_ptr next_free_word].
  cbn [head_shape sf_head sh_row_keys sh_rows sh_column_keys sh_columns sh_fh_lengths sh_part_nparms hd_row_names hd_column_names hd_file_headers hd_parts hd_rows hd_columns map fold_left the_part pt_parameters].
  change (Zlen row_names) with 2. change (@Zlen Z []) with 0. unfold data_mgmt_ptr, data_mgmt_length, MBLKSZ.
  assert (NK : 8 <= Zlen (column_names (sf_kind o)) <= 9) by (destruct (sf_kind o); vm_compute; split; discriminate).
  change (Zlen [Zlen (sf_names o)]) with 1.
  set (nk := Zlen (column_names (sf_kind o))) in *. set (rows := sf_rows o) in *. set (cols := sf_cols o) in *. set (nn := Zlen (sf_names o)) in *.
  clearbody nk rows cols nn.
  assert (C1 : 0 <= cols * (nk + 1) <= cols * 10) by nia.
  assert (C2 : 0 <= 1 * rows * cols <= 256000000).
  { rewrite Z.mul_1_l. split; [apply Z.mul_nonneg_nonneg; assumption|].
    apply Z.le_trans with (rows * (32000 - rows)); [apply Z.mul_le_mono_nonneg_l; lia|].
    pose proof (Z.square_nonneg (rows - 16000)). lia. }
  set (c1 := cols * (nk + 1)) in *. set (c2 := 1 * rows * cols) in *. clearbody c1 c2.
  pose proof (record_start_spec (129 + 128 + 2 + nk + 3 * 0 + 0)) as [R1 _]. set (a := record_start (129 + 128 + 2 + nk + 3 * 0 + 0)) in *. clearbody a.
  pose proof (record_start_spec (a + rows * (2 + 1) + c1)) as [R2 _]. set (b := record_start (a + rows * (2 + 1) + c1)) in *. clearbody b.
  pose proof (record_start_spec (b + 4 * 1 + 4 * (0 + nn))) as [R3 _]. set (d := record_start (b + 4 * 1 + 4 * (0 + nn))) in *. clearbody d.
  pose proof (record_start_spec (d + c2)) as [R4 _]. set (f := record_start (d + c2)) in *. clearbody f.
  split; [repeat constructor; lia|lia].
Qed.

(** ** Sums *)
Lemma sum_perm (l m : list Z) : Permutation l m -> sum l = sum m.
Proof. induction 1; cbn [sum]; lia. Qed.
Lemma sum_nonneg l : Forall (fun z => 0 <= z) l -> 0 <= sum l.
Proof. induction 1; cbn [sum]; lia. Qed.
Definition isize (it : Z * option (res (list bytes))) : Z := match snd it with Some (Ok ws) => Zlen ws | _ => 0 end.
Lemma items_end_sum items : forall nf, items_end items nf = nf + sum (map isize items).
Proof.
  induction items as [|[ptr [[ws|]|]] items IH]; intros nf; cbn [items_end map sum isize snd]; [lia| | |]; rewrite IH; lia.
Qed.
Lemma sum_filter {A} (g : A -> Z) p l : (forall x, In x l -> p x = false -> g x = 0) -> sum (map g l) = sum (map g (filter p l)).
Proof.
  induction l as [|x l IH]; intros H; [reflexivity|]. cbn [map sum filter]. rewrite IH by (intros y Hy; apply H; right; exact Hy).
  destruct (p x) eqn:E; [reflexivity|]. rewrite (H x) by (auto; left; reflexivity). reflexivity.
Qed.
Lemma list_prod_flat {A B} (la : list A) (lb : list B) : list_prod la lb = flat_map (fun a => map (fun b => (a, b)) lb) la.
Proof. induction la as [|a la IH]; [reflexivity|]. cbn. rewrite IH. reflexivity. Qed.
Lemma cell_pairs_perm o : Permutation (cell_pairs o) (grid o).
Proof.
  apply NoDup_Permutation.
  - apply cell_pairs_NoDup.
  - unfold grid. rewrite list_prod_flat. apply (NoDup_pairs (fun a b => (a, b))); try apply indexed_NoDup. intros a b a' b' [= -> ->]. auto.
  - intros [ir jc]. rewrite cell_pairs_in. unfold grid. rewrite in_prod_iff. reflexivity.
Qed.

Lemma field_ok_ascii s : field_ok s = true -> is_ascii s = true.
Proof.
  unfold field_ok, is_ascii. destruct s as [|c r]; [discriminate|]. intros H. apply andb_prop in H as [H1 H2]. rewrite forallb_forall in H2.
  apply forallb_forall. intros x [<-|Hx]; [unfold is_alpha in *; lia|]. apply H2 in Hx. unfold is_alpha, is_digit in *. lia.
Qed.

Section W.
  Variables (k : kind) (e : endian) (params : list str) (calls : list call) (o0 o : sfile).
  Hypothesis H0 : new_file k params false = Ok o0.
  Hypothesis HA : add_all o0 calls = Ok o.
  Hypothesis HCalls : Forall (fits_call k (param_names params)) calls.
  Let names := param_names params.
  Let opx (c : call) : op := ((row_arg c, station_arg k c), cols_arg names c).

  Lemma write_history : after k names (map opx calls) o /\ Forall (fun c => exists x, check_call k names c = Ok x) calls.
  Proof.
    pose proof (after_new _ _ _ _ H0) as A0. destruct (new_file_names _ _ _ _ H0) as (EN & _). rewrite EN in A0.
    destruct (after_all _ _ _ _ _ _ A0 HA) as (ops & F & A). cbn [app] in A. fold names in F, A.
    assert (X : ops = map opx calls /\ Forall (fun c => exists x, check_call k names c = Ok x) calls).
    { clear A A0 HA HCalls. induction F as [|c x cs xs Hc F [-> I2]]; [split; [reflexivity|constructor]|].
      split; [|constructor; eauto]. apply check_call_spec in Hc as (-> & _). reflexivity. }
    destruct X as [-> X]. auto.
  Qed.
  Lemma names_count : Zlen names <= 44.
  Proof. destruct (new_file_count _ _ _ _ H0) as (H & _). destruct (new_file_names _ _ _ _ H0) as (EN & _). unfold names. rewrite <- EN. exact H. Qed.

  Lemma call_time c : In c calls -> valid_dt (time_arg c) = true.
  Proof.
    intros Hc. destruct write_history as [_ HX]. rewrite Forall_forall in HX. destruct (HX c Hc) as [x Hx].
    apply check_call_spec in Hx as (_ & (t & Ht) & _). pose proof (proj1 (Forall_forall _ _) HCalls c Hc) as (V & _).
    replace (time_arg c) with t by (unfold time_arg; rewrite Ht; reflexivity). exact (valid_time_arg c t V Ht).
  Qed.
  Lemma call_block c : In c calls -> exists ws, block_words e k (row_arg c) (cols_arg names c) = Ok ws /\ word_list ws /\ Zlen ws = report_size names c.
  Proof.
    intros Hc. destruct write_history as [_ HX]. rewrite Forall_forall in HX. destruct (HX c Hc) as [x Hx].
    pose proof (proj1 (Forall_forall _ _) HCalls c Hc) as FC. destruct FC as (_ & _ & _ & _ & _ & _ & _ & _ & _ & F1 & FV).
    pose proof Hx as Hx'. apply check_call_spec in Hx' as (_ & _ & HL & HD).
    destruct (shaped_call k names c F1 HL HD) as (n & N1 & N2 & N3).
    eapply block_words_fine; try eassumption; [apply call_time, Hc|reflexivity|exact names_count|].
    intros ->. exact (sounding_names _ _ _ Hx).
  Qed.
  Lemma filled_cell x v : In x (grid o) -> cell_data o x = Some v ->
    exists c, In c calls /\ snd (fst x) = row_arg c /\ key_cmp (cell_key x) (fst (opx c)) = Eq /\ v = cols_arg names c.
  Proof.
    intros Hg ED. destruct write_history as [A _]. rewrite (cell_data_of _ _ _ _ A) in ED.
    apply (dict_of_some _ good_key) in ED as (y & Hy & EK & <-). apply keep_last_in in Hy.
    apply in_map_iff in Hy as (c & <- & Hc). exists c. split; [exact Hc|]. split; [|auto].
    unfold key_cmp in EK. apply then_cmp_eq in EK as [ER _]. unfold row_cmp in ER. apply then_cmp_eq in ER as [E1 E2].
    apply date_cmp_eq in E1. apply time_cmp_eq in E2. destruct x as [[i [dd tt]] [j s]]. cbn in *. unfold row_arg. congruence.
  Qed.
  Let csize (x : cell) : Z := match cell_data o x with Some v => isize (0, Some (block_words e k (snd (fst x)) v)) | None => 0 end.
  Lemma items_sum base : sum (map isize (items_of e o base)) = sum (map (report_size names) (keep_last (same_entry k) calls)).
  Proof.
    destruct write_history as [A _].
    rewrite items_of_eq, map_map.
    assert (E : map (fun x => isize (let '(ir, jc) := x in item_of e o base ir jc)) (cell_pairs o) = map csize (cell_pairs o)).
    { apply map_ext. intros [ir jc]. unfold csize, item_of, isize, cell_data. cbn [snd fst]. rewrite (af_kind _ _ _ _ A).
      destruct (dict_get _ _ _); reflexivity. }
    rewrite E. clear E. rewrite (sum_perm _ _ (Permutation_map csize (cell_pairs_perm o))).
    rewrite (sum_filter csize (filled o)).
    - apply sum_perm. apply (kept_ops _ _ _ _ A opx calls); [reflexivity|intros x y; apply same_entry_key|].
      intros x y Hx Hy EK ED. unfold csize. rewrite ED. cbn [opx snd].
      unfold kept in Hx. apply filter_In in Hx as [Hg _].
      assert (ER : snd (fst x) = row_arg y).
      { unfold key_cmp in EK. apply then_cmp_eq in EK as [ER _]. unfold row_cmp in ER. apply then_cmp_eq in ER as [E1 E2].
        apply date_cmp_eq in E1. apply time_cmp_eq in E2. destruct x as [[i [dd tt]] [j s]]. cbn in *. unfold row_arg. congruence. }
      rewrite ER. destruct (call_block y Hy) as (ws & -> & _ & EL). exact EL.
    - intros x _ HF. unfold csize. unfold filled in HF. destruct (cell_data o x); [discriminate HF|reflexivity].
  Qed.

  Hypothesis HSize : fits_file k (param_names params) calls.
  Theorem can_write : exists o' b, save e o = (o', Ok b).
  Proof.
    destruct write_history as [A _]. pose proof (after_coherent _ _ _ _ A) as HC.
    remember (head_pointers (sf_head o)) as p eqn:HP. symmetry in HP. rewrite (save_write_at _ _ _ HP).
    assert (LIM : sf_rows o + sf_cols o <= 32000).
    { destruct (new_file_count _ _ _ _ H0) as (_ & R & C). apply (add_all_limit calls o0); [lia|exact HA]. }
    assert (LN : Zlen (sf_names o) <= 44) by (rewrite (af_names _ _ _ _ A); exact names_count).
    destruct (sf_ptrs_bound o p HC LIM LN HP) as [PB NB].
    destruct (new_file_names _ _ _ _ H0) as (EN & _ & FO). rewrite EN in FO. fold names in FO.
    assert (W : writable e (sf_head o) p).
    { destruct HC as [HC1 HC2]. pose proof (Zlen_nonneg (sf_row_headers o)). pose proof (Zlen_nonneg (sf_col_headers o)).
      constructor; unfold sf_head; cbn [hd_rows hd_columns hd_file_type hd_data_source hd_file_headers hd_row_names hd_column_names hd_parts].
      - unfold i32. lia.
      - unfold i32. lia.
      - destruct (sf_kind o); vm_compute; split; [discriminate|reflexivity|discriminate|reflexivity].
      - destruct (sf_kind o); vm_compute; split; [discriminate|reflexivity|discriminate|reflexivity].
      - reflexivity.
      - reflexivity.
      - destruct (sf_kind o); reflexivity.
      - reflexivity.
      - exact PB.
      - eexists; reflexivity.
      - destruct (sf_kind o); eexists; reflexivity.
      - unfold part_words. cbn [hd_parts map the_part pt_name pt_header pt_type pt_parameters pt_scale pt_offset pt_bits concat].
        rewrite !app_nil_r.
        assert (X1 : fine (mapM word_of_str [part_name (sf_kind o)])) by (destruct (sf_kind o); eexists; reflexivity).
        destruct X1 as [x1 ->]. cbn [bind].
        assert (X2 : fine (mapM (pack_i32 e) [part_header])) by (eexists; reflexivity). destruct X2 as [x2 ->]. cbn [bind].
        assert (X3 : fine (mapM (pack_i32 e) [DT_REAL])) by (eexists; reflexivity). destruct X3 as [x3 ->]. cbn [bind].
        pose proof (Zlen_nonneg (sf_names o)).
        destruct (ints_fine e [Zlen (sf_names o)]) as [x4 ->]; [repeat constructor; lia|]. cbn [bind].
        destruct (strings_fine (sf_names o)) as [x5 ->].
        { rewrite (af_names _ _ _ _ A). apply Forall_forall. intros s Hs. rewrite forallb_forall in FO. apply field_ok_ascii, FO, Hs. }
        cbn [bind]. destruct (ints_fine e (repeat 0 (length (sf_names o)))) as [x6 E6].
        { apply Forall_forall. intros z Hz. apply repeat_spec in Hz. subst z. lia. }
        rewrite E6. cbn [bind]. eexists; reflexivity.
      - eexists; reflexivity. }
    pose proof (items_sum (data_block_ptr p)) as IS. pose proof HSize as HZ. unfold fits_file in HZ. fold names in HZ. rewrite <- IS in HZ.
    pose proof (items_end_sum (items_of e o (data_block_ptr p)) (next_free_word p)) as IE.
    assert (EB : items_end (items_of e o (data_block_ptr p)) (next_free_word p) < 2147483648) by lia.
    pose proof (items_end_ge (items_of e o (data_block_ptr p)) (next_free_word p)) as EG.
    assert (HI : Forall (fun '(ptr, d) => 1 <= ptr /\ match d with Some m => exists ws, m = Ok ws /\ word_list ws | None => True end)
      (items_of e o (data_block_ptr p))).
    { apply Forall_forall. intros it Hit. rewrite items_of_eq in Hit. apply in_map_iff in Hit as ([ir jc] & <- & Hx).
      pose proof Hx as Hg. apply (Permutation_in _ (cell_pairs_perm o)) in Hg. apply cell_pairs_in in Hx as [Hi Hj].
      apply indexed_range in Hi. apply indexed_range in Hj. unfold item_of. split.
      - rewrite !Forall_cons_iff in PB. destruct HC as [HC1 HC2]. nia.
      - destruct (dict_get _ _ _) as [v|] eqn:ED; [|exact I]. destruct (filled_cell (ir, jc) v Hg ED) as (c & Hc & ER & _ & ->).
        cbn [fst snd] in ER. rewrite ER, (af_kind _ _ _ _ A). destruct (call_block c Hc) as (ws & EW & WL & _). eauto. }
    destruct (to_gempak_works e (sf_head o) p (fun s => Ok s)
      (write_headers e (sf_rows o) (Zlen row_names) (row_words e) (sf_row_headers o))
      (write_headers e (sf_cols o) (Zlen (column_names (sf_kind o))) (column_words e (sf_kind o)) (sf_col_headers o))
      (write_items e (items_of e o (data_block_ptr p)) (next_free_word p)) (items_end (items_of e o (data_block_ptr p)) (next_free_word p)) W)
      as [[b nf] E].
    - intros s Hs. eauto.
    - apply write_headers_works. intros r Hr. destruct (row_header_in _ _ _ _ A r Hr) as (y & Hy & <-).
      apply in_map_iff in Hy as (c & <- & Hc). cbn [opx fst]. eapply row_words_fine; [apply call_time, Hc|reflexivity].
    - apply write_headers_works. intros s Hs. destruct (col_header_in _ _ _ _ A s Hs) as (y & Hy & <-).
      apply in_map_iff in Hy as (c & <- & Hc). cbn [opx fst snd]. rewrite (af_kind _ _ _ _ A). eapply column_words_fine.
      exact (proj1 (Forall_forall _ _) HCalls c Hc).
    - apply write_items_works; [lia|exact EB|exact HI].
    - unfold i32. lia.
    - unfold write_at. rewrite E. eauto.
  Qed.
End W.

(** ** What a written file shows *)
Lemma pack_ok_range e z b : pack_i32 e z = Ok b -> fits_int z.
Proof. unfold pack_i32, in_i32, two31, fits_int. destruct (_ && _) eqn:E; [|discriminate]. lia. Qed.
Lemma word_of_str_ascii s b : word_of_str s = Ok b -> is_ascii s = true.
Proof. unfold word_of_str, str_bytes. rewrite is_ascii_ljust. destruct (is_ascii s); [reflexivity|discriminate]. Qed.
Lemma column_words_inv e k s ws : column_words e k s = Ok ws ->
  is_ascii (s_id s) = true /\ is_ascii (s_id2 s) = true /\ is_ascii (s_stat s) = true /\ is_ascii (s_coun s) = true /\
  fits_int (s_nm s) /\ fits_int (s_elv s).
Proof.
  unfold column_words. intros H.
  destruct (word_of_str (s_id s)) eqn:E1; cbn [bind] in H; [|discriminate H].
  destruct (pack_i32 e (s_nm s)) eqn:E2; cbn [bind] in H; [|discriminate H].
  destruct (coord_word e (s_lat s)) eqn:E3; cbn [bind] in H; [|discriminate H].
  destruct (coord_word e (s_lon s)) eqn:E4; cbn [bind] in H; [|discriminate H].
  destruct (pack_i32 e (s_elv s)) eqn:E5; cbn [bind] in H; [|discriminate H].
  destruct (word_of_str (s_stat s)) eqn:E6; cbn [bind] in H; [|discriminate H].
  destruct (word_of_str (s_coun s)) eqn:E7; cbn [bind] in H; [|discriminate H].
  destruct (word_of_str (s_id2 s)) eqn:E8; cbn [bind] in H; [|discriminate H].
  repeat split; eauto using word_of_str_ascii; try (eapply pack_ok_range; eassumption).
Qed.
Lemma ascii8 (w : str) : is_ascii (firstn 4 w) = true -> is_ascii (firstn 4 (skipn 4 w)) = true -> is_ascii (firstn 8 w) = true.
Proof.
  intros H1 H2. assert (S : firstn 8 w = firstn 4 w ++ firstn 4 (skipn 4 w)).
  { do 4 (destruct w as [|? w]; [reflexivity|]). reflexivity. }
  rewrite S, is_ascii_app, H1, H2. reflexivity.
Qed.
Lemma mapM_ok_in {A B} (f : A -> res B) l ys : mapM f l = Ok ys -> forall x, In x l -> exists y, f x = Ok y.
Proof. intros E x Hx. apply mapM_ok_Forall2 in E. induction E as [|a b l l' H _ IH]; [destruct Hx|destruct Hx as [<-|Hx]; eauto]. Qed.
Theorem written_fits k e params calls o0 o o' b : new_file k params false = Ok o0 -> add_all o0 calls = Ok o -> save e o = (o', Ok b) ->
  Forall (fun c => is_ascii (firstn 8 (text_arg si_id c)) = true /\ is_ascii (firstn 4 (text_arg si_state c)) = true /\
    is_ascii (firstn 4 (text_arg si_country c)) = true /\ fits_int (int_arg si_number c) /\ fits_int (int_arg si_elev c)) calls.
Proof.
  intros H0 HA HW. pose proof (after_new _ _ _ _ H0) as A0.
  destruct (after_all _ _ _ _ _ _ A0 HA) as (ops & F & A). cbn [app] in A.
  pose proof (after_coherent _ _ _ _ A) as HC.
  remember (head_pointers (sf_head o)) as p eqn:HP. symmetry in HP.
  assert (HS : saved e o p b) by (eapply save_saved; eassumption).
  apply Forall_forall. intros c Hc. destruct (in_split _ _ Hc) as (l1 & l2 & ->).
  apply Forall2_app_inv_l in F as (x1 & x2 & F1 & F2 & ->). inversion F2 as [|? x ? ? Hx _]; subst.
  pose proof (proj1 (check_call_spec _ _ _ _ Hx)) as EX. subst x.
  destruct (op_col _ _ _ _ A ((row_arg c, station_arg k c), cols_arg (sf_names o0) c)) as (s & Hs & ES).
  { apply in_or_app. right. left. reflexivity. }
  destruct (sv_cols _ _ _ _ HS) as (flag & wss & _ & EM & _).
  destruct (mapM_ok_in _ _ _ EM s Hs) as (ws & EW).
  apply column_words_inv in EW as (I1 & I2 & I3 & I4 & I5 & I6).
  unfold station_cmp in ES. rewrite !then_cmp_eq, !str_cmp_eq, !Z.compare_eq_iff in ES.
  destruct ES as (E1 & E2 & E3 & E4 & E5 & E6 & E7 & E8 & _).
  cbn [fst snd station_arg s_id s_nm s_lat s_lon s_elv s_stat s_coun s_id2 s_pri] in E1, E2, E5, E6, E7, E8.
  rewrite <- E1 in I1. rewrite <- E2 in I5. rewrite <- E5 in I6. rewrite <- E6 in I3. rewrite <- E7 in I4. rewrite <- E8 in I2.
  split; [apply ascii8; assumption|]. auto.
Qed.
