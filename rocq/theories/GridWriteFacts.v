(** An accepted grid file whose fields fit can be written. *)
From Coq Require Import Lia ZifyBool ZifyNat Permutation QArith Qabs Lqa.
From Verif Require Import Base BaseFacts Words Layout LayoutFacts SpecLayout Floats FloatsFacts RoundFacts FloatBound Structs Strings StringsFacts
  Dates SpecDates DatesFacts Headers HeadersFacts CoordFacts Order OrderFacts SpecGrib Grib GribFacts GribQFacts Props_Grib
  DmFile StreamFacts DmWriteFacts DmHookFacts DmReadFacts Station SpecStation SpecWrite StationFacts StationWriteFacts WritableFacts
  HistoryFacts Grid GridRead SpecGrid SpecGridWrite GridFacts GridDataFacts GridHistoryFacts.
From Coq Require Import List.
Open Scope Z_scope.

(** ** The geometry *)
Lemma degrees_small x : fits_degrees x -> small 39 x.
Proof.
  intros H. apply (bounded_small 40); [lia|]. intros F. specialize (H F). eapply Qle_lt_trans; [exact H|]. vm_compute. reflexivity.
Qed.
Lemma value_to32 x : fits_value x -> exists y, to32 x = Ok y.
Proof.
  intros H. destruct x as [s|s| |s m ex]; try (eexists; reflexivity). destruct (value_fine LE _ H) as [b Hb].
  unfold fill_nan, pack_f32 in Hb. cbn [fnan] in Hb. destruct (to32 (S754_finite s m ex)); [eauto|discriminate Hb].
Qed.
Lemma cell_in a i j x : cell a i j = Ok x -> In x (snd a).
Proof.
  unfold cell. destruct (fst a) as [|ny [|nx [|? ?]]]; try discriminate. destruct (_ && _); [|discriminate].
  unfold py_index. set (k := if i * nx + j <? 0 then _ else _). clearbody k. cbv zeta.
  destruct (k <? 0); [discriminate|]. destruct (nth_error _ _) eqn:E; [|discriminate]. intros [= <-]. eapply nth_error_In. exact E.
Qed.
Lemma of_Z_small z : 0 <= z < 2 ^ 24 -> small 126 (of_Z z).
Proof.
  intros H. unfold of_Z. destruct (Z.eq_dec z 0) as [->|N]; [exact I|].
  apply small_mono with (24 + 1); [lia|]. apply normalize_small; [exact N| |lia].
  rewrite Z.abs_eq by lia. assert (Z.log2 z < 24) by (apply Z.log2_lt_pow2; lia). lia.
Qed.
Lemma spacing_small lon2 lon1 lat2 lat1 : small 39 lon2 -> small 39 lon1 -> small 39 lat2 -> small 39 lat1 ->
  small 126 (fmul (SFsqrt p64 e64 (fmul (fdiv (of_Z 1) (of_Z 2))
    (fadd (fmul (fsub lon2 lon1) (fsub lon2 lon1)) (fmul (fsub lat2 lat1) (fsub lat2 lat1))))) (of_Z 2)).
Proof.
  intros H1 H2 H3 H4.
  pose proof (fsub_small 39 _ _ H1 H2 ltac:(lia)) as D1. pose proof (fsub_small 39 _ _ H3 H4 ltac:(lia)) as D2.
  pose proof (fmul_small _ _ _ _ D1 D1 ltac:(lia)) as M1. pose proof (fmul_small _ _ _ _ D2 D2 ltac:(lia)) as M2.
  pose proof (fadd_small _ _ _ M1 M2 ltac:(lia)) as S.
  assert (HF : small 0 (fdiv (of_Z 1) (of_Z 2))) by (vm_compute; discriminate).
  pose proof (fmul_small _ _ _ _ HF S ltac:(lia)) as M3.
  assert (TW : small 2 (of_Z 2)) by (vm_compute; discriminate).
  assert (Q : small 51 (SFsqrt p64 e64 (fmul (fdiv (of_Z 1) (of_Z 2))
    (fadd (fmul (fsub lon2 lon1) (fsub lon2 lon1)) (fmul (fsub lat2 lat1) (fsub lat2 lat1)))))).
  { apply (sqrt_small 50); [|lia]. eapply small_mono; [|exact M3]. lia. }
  eapply small_mono; [|exact (fmul_small _ _ _ _ Q TW ltac:(lia))]. lia.
Qed.

Definition sized (lon lat : ndarray) : Prop :=
  forall ny nx, fst lon = [ny; nx] -> 0 <= ny /\ 0 <= nx /\ Zlen (snd lon) = ny * nx /\ Zlen (snd lat) = ny * nx.
Lemma cell_there (a : ndarray) ny nx i j : fst a = [ny; nx] -> Zlen (snd a) = ny * nx -> 0 <= i < ny -> 0 <= j < nx ->
  exists v, cell a i j = Ok v.
Proof.
  intros Ea La Hi Hj. unfold cell. rewrite Ea. replace (i <? ny) with true by lia. replace (j <? nx) with true by lia. cbn [andb].
  assert (R : 0 <= i * nx + j < Zlen (snd a)) by (rewrite La; nia).
  destruct (nth_error (snd a) (Z.to_nat (i * nx + j))) as [v|] eqn:EN.
  - exists v. apply py_index_in; [lia|exact EN].
  - apply nth_error_None in EN. unfold Zlen in R. lia.
Qed.
Record geom_facts (lon lat : ndarray) (a1 a2 a3 : flt) (g : geom) : Prop := {
  gf_lon : gm_lon g = lon; gf_lat : gm_lat g = lat;
  gf_shape : fst lon = [gm_ny g; gm_nx g]; gf_shape2 : fst lat = [gm_ny g; gm_nx g];
  gf_corners : In (gm_ll_lon g) (snd lon) /\ In (gm_ll_lat g) (snd lat) /\ In (gm_ur_lon g) (snd lon) /\ In (gm_ur_lat g) (snd lat);
  gf_angles : gm_angle1 g = a1 /\ gm_angle2 g = a2 /\ gm_angle3 g = a3 }.
Lemma geographic_facts lon lat proj a1 a2 a3 g : geographic lon lat proj a1 a2 a3 = Ok g -> geom_facts lon lat a1 a2 a3 g.
Proof.
  unfold geographic. intros H. destruct (negb (shape_eqb (fst lat) (fst lon))) eqn:ES; [discriminate H|].
  apply negb_false_iff in ES. unfold shape_eqb in ES. apply str_eqb_spec in ES.
  destruct (fst lat) as [|ny [|nx [|? ?]]] eqn:EL; try discriminate H.
  destruct (cell lon 0 0) eqn:C1; cbn [bind] in H; [|discriminate H].
  destruct (cell lat 0 0) eqn:C2; cbn [bind] in H; [|discriminate H].
  destruct (cell lon (ny - 1) (nx - 1)) eqn:C3; cbn [bind] in H; [|discriminate H].
  destruct (cell lat (ny - 1) (nx - 1)) eqn:C4; cbn [bind] in H; [|discriminate H].
  apply ok_inj in H. subst g. constructor; cbn; auto.
  repeat split; eapply cell_in; eassumption.
Qed.
Lemma file_headers_works e lon lat proj a1 a2 a3 g : sized lon lat -> fits_geometry lon lat a1 a2 a3 ->
  geographic lon lat proj a1 a2 a3 = Ok g -> geom_ok g -> 3 <= gm_nx g -> 3 <= gm_ny g -> works (write_grid_file_headers e g).
Proof.
  intros HSZ (F1 & F2 & F3 & _) HG (_ & GX & GY) N3 M3. destruct (geographic_facts _ _ _ _ _ _ _ HG) as [L1 L2 S1 S2 (K1 & K2 & K3 & K4) (A1 & A2 & A3)].
  destruct (HSZ _ _ S1) as (_ & _ & Z1 & Z2).
  rewrite Forall_forall in F1, F2. rewrite !Forall_cons_iff in F3. destruct F3 as (V1 & V2 & V3 & _).
  rewrite <- A1 in V1. rewrite <- A2 in V2. rewrite <- A3 in V3.
  assert (T1 : forall x, In x (snd lon) -> small 39 x) by (intros x Hx; apply degrees_small, F1, Hx).
  assert (T2 : forall x, In x (snd lat) -> small 39 x) by (intros x Hx; apply degrees_small, F2, Hx).
  assert (T32 : forall x, small 39 x -> small 126 x) by (intros x; apply small_mono; lia).
  assert (DN : exists dn, deltan g = Ok dn /\ small 126 dn).
  { unfold deltan. rewrite L1, L2. cbv zeta.
    assert (K : 0 <= gm_ny g / 2 /\ 0 <= gm_nx g / 2 /\ gm_ny g / 2 + 1 < gm_ny g /\ gm_nx g / 2 + 1 < gm_nx g)
      by (clear - N3 M3; Z.div_mod_to_equations; lia).
    destruct (cell_there lon _ _ (gm_ny g / 2 + 1) (gm_nx g / 2 + 1) S1 Z1 ltac:(lia) ltac:(lia)) as (v1 & C1).
    destruct (cell_there lon _ _ (gm_ny g / 2) (gm_nx g / 2) S1 Z1 ltac:(lia) ltac:(lia)) as (v2 & C2).
    destruct (cell_there lat _ _ (gm_ny g / 2 + 1) (gm_nx g / 2 + 1) S2 Z2 ltac:(lia) ltac:(lia)) as (v3 & C3).
    destruct (cell_there lat _ _ (gm_ny g / 2) (gm_nx g / 2) S2 Z2 ltac:(lia) ltac:(lia)) as (v4 & C4).
    rewrite C1, C2, C3, C4. cbn [bind]. eexists. split; [reflexivity|].
    apply spacing_small; [apply T1|apply T1|apply T2|apply T2]; eapply cell_in; eassumption. }
  destruct DN as (dn & ED & SD).
  assert (FT : forall x, (exists y, to32 x = Ok y) -> match to32 x with Ok _ => true | Err _ => false end = true) by (intros x [y ->]; reflexivity).
  assert (FN : all_fit wnav_fmt (nav_values g) = true).
  { unfold wnav_fmt, nav_values. cbn [repeat app all_fit item_fits].
    rewrite !FT by first [apply small_to32, of_Z_small; lia | solve [apply small_to32, T32; auto] | apply value_to32; assumption | eexists; vm_compute; reflexivity].
    reflexivity. }
  assert (FA : all_fit wanl_fmt (anl_values g dn) = true).
  { unfold wanl_fmt, anl_values. cbn [repeat app all_fit item_fits].
    rewrite !FT by first [apply small_to32; exact SD | solve [apply small_to32, T32; auto] | eexists; vm_compute; reflexivity].
    reflexivity. }
  assert (I1 : fine (pack_i32 e NAVB_SIZE)) by (apply pack_fine; vm_compute; split; [discriminate|reflexivity]).
  assert (I2 : fine (pack_i32 e ANLB_SIZE)) by (apply pack_fine; vm_compute; split; [discriminate|reflexivity]).
  intros s Hs. unfold write_grid_file_headers, st_int. destruct I1 as [w1 ->]. cbn [bind].
  assert (H1 : 0 <= st_pos (st_write w1 s)) by (apply st_write_pos, Hs). set (s1 := st_write w1 s) in *. clearbody s1.
  step (st_struct_works e wnav_fmt _ FN). rewrite ED. cbn [bind]. destruct I2 as [w2 ->]. cbn [bind].
  apply (st_struct_works e wanl_fmt _ FA). apply st_write_pos. assumption.
Qed.

(** ** One call *)
Lemma fits_pack e z : fits_int z -> fine (pack_i32 e z).
Proof. unfold fits_int. intros H. apply pack_fine. lia. Qed.
Lemma is_ascii_parts (a b c : str) : is_ascii (a ++ b ++ c) = true -> is_ascii a = true /\ is_ascii b = true /\ is_ascii c = true.
Proof. rewrite !is_ascii_app, !andb_true_iff. tauto. Qed.
Lemma column_fine e g q c cells : call_ok g q -> fits_grid q -> check_grid g q = Ok (c, cells) -> fine (gcol_words e c).
Proof.
  intros (T1 & T2 & HD) (F1 & F2 & F3 & F4 & F5 & _) H. unfold check_grid in H.
  destruct (q_grid q) as [arr|] eqn:EG; cbn [bind] in H; [|discriminate H].
  destruct (negb _); [discriminate H|].
  destruct (q_parm q) as [name|] eqn:EN; cbn [bind] in H; [|discriminate H].
  destruct (enc_parm name) as [[[p1 p2] p3]|] eqn:EP; cbn [bind] in H; [|discriminate H].
  destruct (vcoord_name (q_vcoord q)) as [coord|] eqn:EC; cbn [bind] in H; [|discriminate H].
  destruct (level1 (q_level q)) as [lv1|] eqn:E1; cbn [bind] in H; [|discriminate H].
  destruct (parse_date_time (q_time q)) as [[[[g1 d1] h1] m1]|] eqn:ET; cbn [bind] in H; [|discriminate H].
  destruct (level2 (q_level2 q)) as [lv2|] eqn:E2; cbn [bind] in H; [|discriminate H].
  destruct (parse_date_time2 (q_time q) g1 (q_time2 q)) as [t2|] eqn:ET2; cbn [bind] in H; [|discriminate H].
  destruct (encode_vertical_coordinate coord) as [vc|] eqn:EV; cbn [bind] in H; [|discriminate H].
  assert (LV1 : level_of (q_level q) = lv1).
  { unfold level1 in E1. destruct (q_level q); try discriminate E1. cbn. rewrite E1. reflexivity. }
  assert (LV2 : level_of (q_level2 q) = lv2).
  { unfold level2 in E2. destruct (q_level2 q); try discriminate E2; cbn; [congruence|]. rewrite E2. reflexivity. }
  rewrite LV1 in F3. rewrite LV2 in F4.
  pose proof (enc_parm_ok _ _ _ _ EP) as (_ & _ & _ & _ & EJ).
  assert (EN12 : name_of q = p1 ++ p2 ++ p3) by (unfold name_of; rewrite EN; symmetry; exact EJ).
  rewrite EN12 in F5. apply is_ascii_parts in F5 as (P1 & P2 & P3).
  assert (VC : fits_int vc).
  { unfold encode_vertical_coordinate in EV. destruct (index_of _ _ 0) eqn:EI; [|discriminate EV]. injection EV as <-.
    apply index_of_nth in EI as [I1 I2]. assert (I3 : (Z.to_nat (z - 0) < length vcoord_names)%nat) by (apply nth_error_Some; congruence).
    change (length vcoord_names) with 9%nat in I3. unfold fits_int. lia. }
  assert (TIME : forall a g2 d2 h2 m2, parse_date_time a = Ok (g2, d2, h2, m2) -> time_readable a -> fits_time a ->
    exists z1 z2, enc_gdt g2 d2 = Ok z1 /\ enc_gtm g2 h2 m2 = Ok z2 /\ fits_int z1 /\ fits_int z2).
  { intros a g2 d2 h2 m2 P (ty & t & R) F. unfold fits_time, stored_time in *. rewrite P in R, F. cbn [bind] in R, F.
    destruct (enc_gdt g2 d2) as [z1|]; cbn [bind] in *; [|discriminate R]. destruct (enc_gtm g2 h2 m2) as [z2|]; cbn [bind] in *; [|discriminate R].
    exists z1, z2. destruct (F _ _ eq_refl). auto. }
  destruct (TIME _ _ _ _ _ ET T1 F1) as (z1 & z2 & G1 & G2 & G3 & G4).
  assert (W : forall dt2 tm2 z3 z4, match dt2 with Some (t, d) => enc_gdt t d | None => Ok 0 end = Ok z3 ->
    enc_gtm (fst tm2) (fst (snd tm2)) (snd (snd tm2)) = Ok z4 -> fits_int z3 -> fits_int z4 ->
    fine (gcol_words e (mk_gc (g1, d1) (g1, (h1, m1)) dt2 tm2 lv1 lv2 vc p1 p2 p3))).
  { intros dt2 tm2 z3 z4 G5 G6 G7 G8. unfold gcol_words. cbn [g_dt1 g_tm1 g_dt2 g_tm2 g_lv1 g_lv2 g_vc g_p1 g_p2 g_p3 fst snd].
    rewrite G1. cbn [bind]. destruct (fits_pack e _ G3) as [w1 ->]. cbn [bind].
    rewrite G2. cbn [bind]. destruct (fits_pack e _ G4) as [w2 ->]. cbn [bind].
    rewrite G5. cbn [bind]. destruct (fits_pack e _ G7) as [w3 ->]. cbn [bind].
    rewrite G6. cbn [bind]. destruct (fits_pack e _ G8) as [w4 ->]. cbn [bind].
    destruct (fits_pack e _ F3) as [w5 ->]. cbn [bind]. destruct (fits_pack e _ F4) as [w6 ->]. cbn [bind].
    destruct (fits_pack e _ VC) as [w7 ->]. cbn [bind].
    destruct (word_of_str_ok _ P1) as [w8 ->]. cbn [bind]. destruct (word_of_str_ok _ P2) as [w9 ->]. cbn [bind].
    destruct (word_of_str_ok _ P3) as [w10 ->]. cbn [bind]. eexists; reflexivity. }
  destruct (q_time2 q) as [a2|] eqn:EA.
  - destruct t2 as [[[[g2 d2] h2] m2]|]; [|exfalso; eapply time2_none; exact ET2].
    pose proof (time2_parse _ _ _ _ ET2 (T2 a2 eq_refl)) as PA.
    destruct (TIME _ _ _ _ _ PA (T2 a2 eq_refl) (F2 a2 eq_refl)) as (z3 & z4 & G5 & G6 & G7 & G8).
    injection H as <- <-. eapply W; eassumption.
  - cbn [parse_date_time2] in ET2. injection ET2 as <-. injection H as <- <-.
    apply (W None (0, (0, 0)) 0 0); try reflexivity; unfold fits_int; lia.
Qed.

Lemma scale_fine e k : -32 <= k <= 126 -> fine (pack_f32 e (flt_of_Q (pow2 (- k)))).
Proof.
  intros H.
  assert (A : forallb (fun k => match to32 (flt_of_Q (pow2 (- (k - 32)))) with Ok _ => true | Err _ => false end) (zrange 159) = true) by (vm_compute; reflexivity).
  rewrite forallb_forall in A. specialize (A (k + 32) ltac:(apply zrange_in; lia)). cbv beta in A. replace (k + 32 - 32) with k in A by lia.
  unfold pack_f32. destruct (to32 _); [eexists; reflexivity|discriminate A].
Qed.
Lemma grid_fine e g bits q : 1 <= bits <= 31 -> 32 < bits * (gm_nx g * gm_ny g) -> fits_int (gm_nx g * gm_ny g) ->
  fits_int (words_for (bits * (gm_nx g * gm_ny g)) + 8) ->
  0 <= gm_nx g < 2 ^ 24 -> 0 <= gm_ny g < 2 ^ 24 ->
  Zlen (cells_of q) = gm_nx g * gm_ny g -> Forall cell_ok (cells_of q) ->
  (forall x y, In x (cells_of q) -> In y (cells_of q) -> (q_of x - q_of y <= 2147483647)%Q) ->
  exists ws, grid_words e g PK_GRIB bits (cells_of q) = Ok ws /\ word_list ws /\ Zlen ws = grid_size bits (gm_nx g * gm_ny g).
Proof.
  intros HB H32 HN HW HX HY HL HC HS. unfold grid_words. change (PK_GRIB =? PK_GRIB) with true. cbv iota.
  assert (FI : forallb finite (cells_of q) = true).
  { apply forallb_forall. rewrite Forall_forall in HC. intros x Hx. apply (HC x Hx). }
  rewrite FI. cbn [negb].
  set (grid := map q_of (cells_of q)). assert (LG : Zlen grid = gm_nx g * gm_ny g) by (unfold grid; rewrite Zlen_map; exact HL).
  assert (NE : grid <> []) by (intros E; rewrite E in LG; unfold Zlen in LG; cbn in LG; lia).
  pose proof (g_min_in (q_of missing_float) grid NE) as MI.
  assert (MX : In (g_max (q_of missing_float) grid) grid).
  { destruct grid as [|y r]; [congruence|]. apply list_qmax_in. }
  assert (TOT : exists r s ws, pack_grib grid (q_of missing_float) bits = Ok (r, s, ws)).
  { apply (pack_grib_total grid _ bits (g_min (q_of missing_float) grid) (g_max (q_of missing_float) grid) HB).
    - rewrite LG. exact H32.
    - split; [eexists; split; [exact MI|reflexivity]|]. intros x Hx. apply g_min_le, Hx.
    - split; [eexists; split; [exact MX|reflexivity]|]. intros x Hx. apply g_max_ge, Hx.
    - unfold grid in MI, MX. apply in_map_iff in MI as (a & EA & HA). apply in_map_iff in MX as (b & EB & Hb).
      fold grid in EA, EB. rewrite <- EA, <- EB. apply HS; assumption. }
  destruct TOT as (r & s & ws & EP). rewrite EP. cbn [bind].
  destruct (C12_packed_length _ _ _ _ _ _ EP) as [LW RW]. rewrite LG in LW.
  destruct (unpack_pack_grib _ _ _ _ _ _ (Some miss_back) 0%Q EP) as (k & (Hs & Hk) & _).
  assert (RC : exists c, cell_ok c /\ r = q_of c).
  { destruct (pack_grib_ref _ _ _ _ _ _ EP) as [->|HR]; [exists missing_float; split; [apply missing_cell|reflexivity]|].
    unfold grid in HR. apply in_map_iff in HR as (c & <- & Hc). rewrite Forall_forall in HC. exists c. split; [apply HC, Hc|reflexivity]. }
  destruct RC as (c & Hc & ER). destruct (flt_back c Hc) as [FB1 FB2].
  assert (RF : fine (pack_f32 e (flt_of_Q r))).
  { unfold pack_f32. destruct (small_to32 (flt_of_Q r)) as [y ->]; [|eexists; reflexivity].
    apply (bounded_small 127); [lia|]. intros _. rewrite ER, FB2. apply Hc. }
  unfold fits_int in *.
  destruct (pack_fine e (Zlen ws + 2 + 6)) as [w1 E1]; [lia|]. rewrite E1. cbn [bind].
  destruct (pack_fine e (gm_nx g)) as [w2 E2]; [lia|]. rewrite E2. cbn [bind].
  destruct (pack_fine e (gm_ny g)) as [w3 E3]; [lia|]. rewrite E3. cbn [bind].
  destruct (pack_fine e PK_GRIB) as [w4 E4]; [unfold PK_GRIB; lia|]. rewrite E4. cbn [bind].
  destruct (pack_fine e bits) as [w5 E5]; [lia|]. rewrite E5. cbn [bind].
  destruct (pack_fine e (-1)) as [w6 E6]; [lia|]. rewrite E6. cbn [bind].
  destruct (pack_fine e (gm_nx g * gm_ny g)) as [w7 E7]; [lia|]. rewrite E7. cbn [bind].
  destruct RF as [w8 E8]. rewrite E8. cbn [bind].
  destruct (scale_fine e k Hk) as [w9 E9]. rewrite Hs, E9. cbn [bind].
  destruct (ints_fine e ws) as [wl EL]; [exact RW|]. rewrite EL. cbn [bind].
  eexists. split; [reflexivity|]. split.
  - repeat (constructor; [first [eapply pack_i32_length; eassumption | eapply pack_f32_length; eassumption]|]).
    apply Forall_forall. intros b Hb. apply mapM_ok_Forall2 in EL. clear - EL Hb.
    induction EL as [|x y l l' H F IH]; [destruct Hb|]. destruct Hb as [<-|Hb]; [eapply pack_i32_length; exact H|auto].
  - rewrite !Zlen_cons. assert (X : Zlen wl = Zlen ws) by (unfold Zlen; f_equal; apply mapM_ok_Forall2 in EL; clear - EL; induction EL; cbn; congruence).
    unfold grid_size. lia.
Qed.

(** ** The file *)
Lemma add_grids_limit calls : forall o o', 1 + gd_cols o <= 32000 -> add_grids o calls = Ok o' -> 1 + gd_cols o' <= 32000.
Proof.
  induction calls as [|q calls IH]; intros o o' H E; unfold add_grids in E; cbn [foldM] in E.
  - apply ok_inj in E. subst. exact H.
  - destruct (add_grid o q) as [o1 [[]|x]] eqn:E1; cbn [bind] in E; [|discriminate E]. apply (IH o1 o'); [|exact E].
    unfold add_grid in E1. destruct (check_grid _ q) as [[c cells]|]; [|discriminate E1]. cbv zeta in E1.
    destruct (Z.gtb_spec (1 + Zlen (set_add gcol_cmp c (gd_col_set o))) MMHDRS) as [G|G]; [discriminate E1|].
    destruct (sort_headers _); [|discriminate E1]. injection E1 as <-. cbn [gd_cols]. exact G.
Qed.
Lemma grid_ptrs_bound o p : gcoherent o -> 1 + gd_cols o <= 32000 -> head_pointers (grid_head o) = p ->
  Forall (fun w => 1 <= w < 2147483648)
    [row_keys_ptr p; column_keys_ptr p; file_keys_ptr p; row_headers_ptr p; column_headers_ptr p; parts_ptr p; data_block_ptr p] /\
  1 <= next_free_word p <= 1000000.
Proof.
  intros HC HL <-. pose proof (Zlen_nonneg (gd_col_headers o)). rewrite <- HC in *. clear HC.
  unfold head_pointers, set_pointers. cbv zeta.
  cbn [row_keys_ptr column_keys_ptr file_keys_ptr row_headers_ptr column_headers_ptr parts_ptr data_block_ptr next_free_word].
  cbn [head_shape grid_head sh_row_keys sh_rows sh_column_keys sh_columns sh_fh_lengths sh_part_nparms hd_row_names hd_column_names hd_file_headers hd_parts hd_rows hd_columns map fold_left grid_part pt_parameters fh_length].
  change (Zlen grid_row_names) with 1. change (Zlen grid_column_names) with 10. unfold data_mgmt_ptr, data_mgmt_length, MBLKSZ, NAVB_SIZE, ANLB_SIZE.
  change (Zlen [k_GRID]) with 1. set (cols := gd_cols o) in *. clearbody cols.
  repeat match goal with |- context [Zlen [?a; ?b]] => change (Zlen [a; b]) with 2 | |- context [Zlen [?a]] => change (Zlen [a]) with 1 end.
  repeat match goal with |- context [record_start ?w] =>
    lazymatch w with context [record_start _] => fail | _ => idtac end;
    let R := fresh "R" in pose proof (record_start_spec w) as [R _]; let a := fresh "a" in set (a := record_start w) in *; clearbody a end.
  split; [repeat constructor; lia|lia].
Qed.

Section W.
  Variables (e : endian) (lon lat : ndarray) (proj : str) (a1 a2 a3 : flt) (g : geom) (bits : Z) (calls : list gcall) (o0 : gridfile).
  Hypothesis HSZ : sized lon lat.
  Hypothesis HGEO : geographic lon lat proj a1 a2 a3 = Ok g.
  Hypothesis HG : geom_ok g.
  Hypothesis HX : 3 <= gm_nx g.
  Hypothesis HY : 3 <= gm_ny g.
  Hypothesis HF : fits_geometry lon lat a1 a2 a3.
  Hypothesis HB : 1 <= bits <= 31.
  Hypothesis H32 : 32 < bits * (gm_nx g * gm_ny g).
  Hypothesis HOK : forall q, In q calls -> call_ok g q.
  Hypothesis HFIT : Forall fits_grid calls.
  Hypothesis HA : add_grids (new_grid_file g) calls = Ok o0.
  Hypothesis HSize : fits_grid_file bits (gm_nx g * gm_ny g) calls.
  Let o := set_precision bits o0.

  Theorem grid_can_write : exists o' b, save_grid e o = (o', Ok b).
  Proof.
    destruct (gafter_all _ _ _ _ _ (gafter_new g) HA) as (ops & F & A0). cbn [app] in A0.
    assert (A : gafter g ops o) by (destruct A0; constructor; assumption).
    pose proof (gafter_coherent _ _ _ A) as HC.
    remember (head_pointers (grid_head o)) as p eqn:HP. symmetry in HP. rewrite (save_gwrite_at _ _ _ HP).
    assert (LIM : 1 + gd_cols o <= 32000) by (change (gd_cols o) with (gd_cols o0); apply (add_grids_limit calls (new_grid_file g)); [cbn; lia|exact HA]).
    destruct (grid_ptrs_bound o p HC LIM HP) as [PB NB].
    assert (NN : 0 <= gd_cols o) by (rewrite HC; apply Zlen_nonneg).
    assert (W : writable e (grid_head o) p).
    { constructor; unfold grid_head; cbn [hd_rows hd_columns hd_file_type hd_data_source hd_file_headers hd_row_names hd_column_names hd_parts].
      - unfold i32. lia.
      - unfold i32. lia.
      - unfold i32. lia.
      - unfold i32. lia.
      - reflexivity.
      - reflexivity.
      - reflexivity.
      - reflexivity.
      - exact PB.
      - eexists; reflexivity.
      - eexists; reflexivity.
      - destruct e; eexists; vm_compute; reflexivity.
      - destruct e; eexists; vm_compute; reflexivity. }
    pose proof (headers_order e g calls ops o HOK F A) as HH.
    set (base := data_block_ptr p) in *. set (size := grid_size bits (gm_nx g * gm_ny g)) in *.
    destruct (HSZ _ _ (gf_shape _ _ _ _ _ _ (geographic_facts _ _ _ _ _ _ _ HGEO))) as (_ & _ & Z1 & _).
    assert (NCELL : fits_int (gm_nx g * gm_ny g)) by (destruct HF as (_ & _ & _ & X); rewrite Z1, Z.mul_comm in X; exact X).
    assert (SZ : 0 <= words_for (bits * (gm_nx g * gm_ny g))) by (unfold words_for; Z.div_mod_to_equations; lia).
    assert (BLOCK : forall q, In q (file_order calls) -> exists ws,
      dict_get gcol_cmp (fst (fop g q)) (gd_data o) = Some (cells_of q) /\
      grid_words e (gd_geom o) (gd_packing o) (gd_precision o) (cells_of q) = Ok ws /\ word_list ws /\ Zlen ws = size).
    { intros q Hq. pose proof (order_data e g calls ops o HOK F A q Hq) as HD.
      assert (Hc : In q calls) by (eapply order_in; exact Hq).
      pose proof (call_spec e g calls ops HOK F q Hc) as S.
      assert (K1 : 1 <= Zlen (keep_last same_header calls)).
      { apply (Permutation_in _ (order_perm calls)) in Hq. destruct (keep_last same_header calls); [destruct Hq|]. rewrite Zlen_cons. pose proof (Zlen_nonneg l). lia. }
      destruct (grid_fine e g bits q HB H32 NCELL) as (ws & E1 & E2 & E3).
      - unfold fits_int. unfold fits_grid_file in HSize. fold size in HSize. assert (size <= 2140000000) by nia. unfold size, grid_size in *. lia.
      - apply HG.
      - apply HG.
      - rewrite <- (cs_cells _ _ _ _ _ S). exact (cs_length _ _ _ _ _ S).
      - rewrite <- (cs_cells _ _ _ _ _ S). exact (cs_range _ _ _ _ _ S).
      - apply (proj1 (Forall_forall _ _) HFIT q Hc).
      - exists ws. split; [exact HD|]. rewrite (ga_geom _ _ _ A), (ga_packing _ _ _ A). auto. }
    assert (LIST : forall j c, In (j, c) (indexed (gd_col_headers o)) -> exists q, In q (file_order calls) /\ c = fst (fop g q)).
    { intros j c Hj. apply indexed_in in Hj as [_ Hj]. apply nth_error_In in Hj. rewrite HH in Hj. apply in_map_iff in Hj as (q & <- & Hq). eauto. }
    assert (SUM : sum (map isize (grid_items e o base)) = Zlen (keep_last same_header calls) * size).
    { unfold grid_items. rewrite map_map.
      assert (E : forall l, (forall jc, In jc l -> In jc (indexed (gd_col_headers o))) ->
        sum (map (fun x => isize (let '(j, c) := x in (base + j, match dict_get gcol_cmp c (gd_data o) with
          | Some cells => Some (grid_words e (gd_geom o) (gd_packing o) (gd_precision o) cells) | None => None end))) l) = Zlen l * size).
      { induction l as [|[j c] l IH]; intros HI; [reflexivity|]. cbn [map sum]. rewrite IH by (intros x Hx; apply HI; right; exact Hx).
        destruct (LIST j c (HI _ (or_introl eq_refl))) as (q & Hq & ->). destruct (BLOCK q Hq) as (ws & D & E & _ & L).
        rewrite D, E. cbn [isize snd]. rewrite Zlen_cons. lia. }
      rewrite E by auto. f_equal. transitivity (Zlen (gd_col_headers o)).
      - rewrite <- (indexed_snd (gd_col_headers o)) at 2. rewrite Zlen_map. reflexivity.
      - rewrite HH, Zlen_map. unfold Zlen. f_equal. apply Permutation_length, order_perm. }
    assert (IE : items_end (grid_items e o base) (next_free_word p) = next_free_word p + Zlen (keep_last same_header calls) * size)
      by (rewrite items_end_sum, SUM; reflexivity).
    unfold fits_grid_file in HSize. fold size in HSize.
    assert (PS : 0 <= Zlen (keep_last same_header calls) * size) by (apply Z.mul_nonneg_nonneg; [apply Zlen_nonneg|unfold size, grid_size; lia]).
    destruct (to_gempak_works e (grid_head o) p (write_grid_file_headers e (gd_geom o)) (write_grid_row e)
      (write_headers e (gd_cols o) (Zlen grid_column_names) (gcol_words e) (gd_col_headers o))
      (write_items e (grid_items e o base) (next_free_word p)) (items_end (grid_items e o base) (next_free_word p)) W) as [[b nf] E].
    - rewrite (ga_geom _ _ _ A). eapply file_headers_works; eassumption.
    - intros s Hs. unfold write_grid_row, st_int. destruct (pack_fine e (- missing_int)) as [w1 ->]; [vm_compute; split; [discriminate|reflexivity]|]. cbn [bind].
      destruct (pack_fine e 1) as [w2 ->]; [lia|]. cbn [bind]. apply works_write, st_write_pos, Hs.
    - apply write_headers_works. intros c Hc. rewrite HH in Hc. apply in_map_iff in Hc as (q & <- & Hq).
      assert (Hin : In q calls) by (eapply order_in; exact Hq).
      assert (X : exists x, check_grid g q = Ok x).
      { clear - F Hin. induction F as [|q' x l l' E F IH]; [destruct Hin|]. destruct Hin as [->|H]; eauto. }
      destruct X as ([c cells] & X). unfold fop. rewrite X. cbn [or_def fst].
      eapply column_fine; [apply HOK, Hin|exact (proj1 (Forall_forall _ _) HFIT q Hin)|exact X].
    - apply write_items_works; [lia|rewrite IE; lia|]. apply Forall_forall. intros it Hit. unfold grid_items in Hit.
      apply in_map_iff in Hit as ([j c] & <- & Hj). pose proof (indexed_range _ _ Hj) as R. cbn [fst] in R. split.
      + rewrite !Forall_cons_iff in PB. unfold base. lia.
      + destruct (LIST j c Hj) as (q & Hq & ->). destruct (BLOCK q Hq) as (ws & D & E & WL & _). rewrite D. eauto.
    - unfold i32. rewrite IE. lia.
    - unfold gwrite_at. fold base. rewrite E. eauto.
  Qed.
End W.
