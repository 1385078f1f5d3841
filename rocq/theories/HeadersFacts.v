(** Lemmas about Headers.v and the date/time words. *)
From Coq Require Import Lia ZifyBool ZifyNat.
From Verif Require Import Base BaseFacts Floats Structs StructsFacts Strings StringsFacts Dates SpecDates
  DatesFacts Headers.
Ltac Zify.zify_post_hook ::= Z.div_mod_to_equations.

(** ** date/time arguments *)
Lemma strftime_pieces t : valid_dt t = true ->
  strftime fmt_YmdHM t = pieces fmt_YmdHM [dt_y t; dt_mo t; dt_d t; dt_h t; dt_mi t].
Proof.
  intros V. apply valid_dt_ranges in V. pose proof (days_in_month_range (dt_y t) (dt_mo t)).
  unfold strftime, pieces, fmt_YmdHM. cbn [map strf1 combine concat dwidth].
  rewrite !(fmt_d_fixed 2) by (p10; lia). rewrite (fmt_d_fixed 4) by (p10; lia). reflexivity.
Qed.

Lemma pieces_digits ds vs : forallb is_digit (pieces ds vs) = true.
Proof.
  revert vs; induction ds as [|d ds IH]; intros [|v vs]; try reflexivity.
  unfold pieces. cbn [combine map concat]. rewrite forallb_app, fixed_digits. apply IH.
Qed.

Lemma strptime_strftime t : valid_dt t = true ->
  strptime fmt_YmdHM (strftime fmt_YmdHM t) = Ok (to_minute t).
Proof.
  intros V. rewrite strftime_pieces by assumption. apply valid_dt_ranges in V.
  pose proof (days_in_month_range (dt_y t) (dt_mo t)).
  rewrite strptime_pieces by (repeat constructor; cbn; lia).
  cbn [combine fmt_YmdHM fold_left set_field]. fold (to_minute t). cbv zeta.
  change (mk_dt (dt_y t) (dt_mo t) (dt_d t) (dt_h t) (dt_mi t) 0 0) with (to_minute t).
  rewrite valid_dt_intro; cbn; try lia. reflexivity.
Qed.

Lemma valid_to_minute t : valid_dt t = true -> valid_dt (to_minute t) = true.
Proof. intros V. apply valid_dt_ranges in V. apply valid_dt_intro; cbn; lia. Qed.

Lemma strftime_length t : valid_dt t = true -> Zlen (strftime fmt_YmdHM t) = 12.
Proof. intros V. rewrite strftime_pieces by assumption. reflexivity. Qed.

Lemma digits_no_letter s : forallb is_digit s = true -> forallb (fun c => negb (is_type_letter c)) s = true.
Proof.
  induction s as [|c r IH]; intros H; [reflexivity|]. cbn [forallb] in *. apply andb_prop in H as [H1 H2].
  rewrite IH by assumption. unfold is_digit in H1. unfold is_type_letter. lia.
Qed.

Lemma parse_plain t : valid_dt t = true ->
  parse_date_time (ADStr (strftime fmt_YmdHM t)) = Ok (0, to_minute t, dt_h t, dt_mi t).
Proof.
  intros V. unfold parse_date_time. rewrite strftime_length by assumption. cbn [Z.ltb Z.compare Pos.compare Pos.compare_cont].
  assert (D : forallb is_digit (strftime fmt_YmdHM t) = true)
    by (rewrite strftime_pieces by assumption; apply pieces_digits).
  rewrite upper_digits by assumption. unfold parse_dattim.
  rewrite split_on_none by (apply digits_no_letter, D).
  rewrite strptime_strftime by assumption. reflexivity.
Qed.

Lemma letter_upper c ty : letter_type c = Some ty ->
  is_type_letter (upper_c c) = true /\
  forecast_type (type_code (upper_c c)) = Ok ty /\ 0 <= type_code (upper_c c) <= 3 /\
  (type_code (upper_c c) = 0 <-> ty = analysis).
Proof.
  unfold letter_type, is_type_letter.
  assert (U : c = 65 \/ c = 97 \/ c = 70 \/ c = 102 \/ c = 86 \/ c = 118 \/ c = 71 \/ c = 103 \/ c = 73 \/ c = 105 \/
     ~ (c = 65 \/ c = 97 \/ c = 70 \/ c = 102 \/ c = 86 \/ c = 118 \/ c = 71 \/ c = 103 \/ c = 73 \/ c = 105)) by lia.
  destruct U as [->|[->|[->|[->|[->|[->|[->|[->|[->|[->|U]]]]]]]]]]; cbn; intros H;
    try (injection H as <-; repeat split; try reflexivity; intros; discriminate || reflexivity || lia).
  exfalso. replace ((c =? 65) || (c =? 97)) with false in H by lia.
  replace ((c =? 70) || (c =? 102) || (c =? 86) || (c =? 118)) with false in H by lia.
  replace ((c =? 71) || (c =? 103)) with false in H by lia.
  replace ((c =? 73) || (c =? 105)) with false in H by lia. discriminate.
Qed.

(** The three accepted suffixes: nothing, up to three digits of hours, hhhmm. *)
Inductive suffix : str -> Z -> Z -> Prop :=
| suffix_none : suffix [] 0 0
| suffix_h k h : (1 <= k <= 3)%nat -> 0 <= h < 10 ^ Z.of_nat k -> suffix (fixed k h) h 0
| suffix_hm h m : 0 <= h <= 999 -> 0 <= m <= 99 -> suffix (fixed 3 h ++ fixed 2 m) h m.

Lemma suffix_digits r h m : suffix r h m -> forallb is_digit r = true.
Proof. destruct 1; [reflexivity|apply fixed_digits|]. rewrite forallb_app, !fixed_digits. reflexivity. Qed.
Lemma suffix_range r h m : suffix r h m -> 0 <= h <= 999 /\ 0 <= m <= 99.
Proof.
  destruct 1; try lia. split; [|lia].
  assert (10 ^ Z.of_nat k <= 10 ^ 3) by (apply Z.pow_le_mono_r; lia). change (10 ^ 3) with 1000 in *. lia.
Qed.

Lemma parse_typed t c ty r h m : valid_dt t = true -> letter_type c = Some ty -> suffix r h m ->
  parse_date_time (ADStr (strftime fmt_YmdHM t ++ c :: r)) =
    Ok (type_code (upper_c c), to_minute t, h, m).
Proof.
  intros V L S. unfold parse_date_time.
  assert (HL : Zlen (strftime fmt_YmdHM t ++ c :: r) <? 12 = false).
  { rewrite Zlen_app, strftime_length by assumption. pose proof (Zlen_nonneg (c :: r)). lia. }
  rewrite HL. clear HL.
  assert (D : forallb is_digit (strftime fmt_YmdHM t) = true)
    by (rewrite strftime_pieces by assumption; apply pieces_digits).
  pose proof (suffix_digits _ _ _ S) as DS.
  rewrite upper_app. cbn [upper map]. rewrite upper_digits by assumption.
  change (map upper_c r) with (upper r). rewrite upper_digits by assumption.
  destruct (letter_upper c ty L) as (HL & _ & _ & _).
  unfold parse_dattim. rewrite split_on_one; [|apply digits_no_letter, D|assumption|apply digits_no_letter, DS].
  rewrite strptime_strftime by assumption. cbn [bind].
  destruct S as [|k h Hk Hh|h m Hh Hm].
  - reflexivity.
  - unfold Zlen. rewrite fixed_length. replace (3 <? Z.of_nat k) with false by lia.
    replace (k =? 0)%nat with false by lia. rewrite py_int_fixed by lia. rewrite Z.mod_small by lia. reflexivity.
  - rewrite Zlen_app. unfold Zlen. rewrite !fixed_length. cbn [Z.of_nat Pos.of_succ_nat Pos.succ Z.add Pos.add Z.ltb Z.compare Pos.compare Pos.compare_cont].
    rewrite firstn_app_exact by apply fixed_length. rewrite skipn_app_exact by apply fixed_length.
    rewrite !py_int_fixed by lia. p10. change (10 ^ Z.of_nat 3) with 1000.
    rewrite !Z.mod_small by lia. reflexivity.
Qed.

(** ** words *)
Lemma enc_gtm_val g h m : 0 <= h -> 0 <= m < 100 ->
  enc_gtm g h m = Ok (g * 100000 + (h * 100 + m)).
Proof.
  intros Hh Hm. unfold enc_gtm. destruct (Z.eqb_spec g 0).
  - subst. rewrite py_int_fmt_pair by lia. reflexivity.
  - rewrite py_int_fmt_pair by lia. reflexivity.
Qed.

Lemma convert_ftime_val g ty h m : forecast_type g = Ok ty -> 0 <= g -> 0 <= h <= 999 -> 0 <= m < 100 ->
  convert_ftime (g * 100000 + (h * 100 + m)) = Ok (Some (ty, h * 60 + m)).
Proof.
  intros F Hg Hh Hm. unfold convert_ftime.
  replace (g * 100000 + (h * 100 + m) >=? 0) with true by lia.
  replace ((g * 100000 + (h * 100 + m)) / 100000) with g by lia. rewrite F. cbn [bind].
  do 2 f_equal. f_equal. lia.
Qed.

Lemma add_minutes_midnight y mo d h mi : 1 <= y <= 9999 -> 0 <= h <= 23 -> 0 <= mi <= 59 ->
  add_minutes (mk_dt y mo d 0 0 0 0) (h * 60 + mi) = Ok (mk_dt y mo d h mi 0 0).
Proof.
  intros Hy Hh Hm. unfold add_minutes. cbn [dt_h dt_mi dt_s dt_us].
  replace (0 * 60 + 0 + (h * 60 + mi)) with (h * 60 + mi) by lia.
  replace ((h * 60 + mi) / 1440) with 0 by lia. cbn [add_days date_of da_y da_mo da_d dt_y dt_mo dt_d].
  replace ((1 <=? y) && (y <=? 9999)) with true by lia. do 2 f_equal; lia.
Qed.

Lemma listed_analysis y mo d h mi : 1 <= mo <= 12 -> 1 <= d <= 31 -> 0 <= h <= 23 -> 0 <= mi <= 59 ->
  listed_time (y mod 100 * 10000 + mo * 100 + d) (h * 100 + mi) =
    let t := mk_dt (window_year y) mo d h mi 0 0 in
    if valid_dt t then Ok (analysis, t) else Err ValueError.
Proof.
  intros Hm Hd Hh Hmi. unfold listed_time. rewrite dattim_analysis by lia. cbv zeta.
  assert (E : valid_dt (mk_dt (window_year y) mo d 0 0 0 0) = valid_dt (mk_dt (window_year y) mo d h mi 0 0)).
  { unfold valid_dt, valid_time. cbn. f_equal. lia. }
  rewrite E. clear E. destruct (valid_dt (mk_dt (window_year y) mo d h mi 0 0)) eqn:V; [|reflexivity]. cbn [bind].
  pose proof (convert_ftime_val 0 analysis h mi eq_refl) as F. cbn [Z.mul Z.add] in F.
  rewrite F by lia. cbn [bind].
  apply valid_dt_ranges in V. cbn in V. rewrite add_minutes_midnight by lia. reflexivity.
Qed.

Lemma stored_datetime t : valid_dt t = true ->
  stored_time (ADDt t) = Ok (dt_y t mod 100 * 10000 + dt_mo t * 100 + dt_d t, dt_h t * 100 + dt_mi t).
Proof.
  intros V. unfold stored_time. cbn [parse_date_time bind]. unfold enc_gdt. cbn [Z.eqb].
  rewrite enc_ymd by assumption. cbn [bind]. apply valid_dt_ranges in V.
  rewrite enc_gtm_val by lia. reflexivity.
Qed.

Lemma stored_plain t : valid_dt t = true ->
  stored_time (ADStr (strftime fmt_YmdHM t)) = stored_time (ADDt t).
Proof.
  intros V. unfold stored_time. rewrite parse_plain by assumption. cbn [parse_date_time bind].
  unfold enc_gdt. cbn [Z.eqb].
  rewrite !enc_ymd by (try apply valid_to_minute; assumption). reflexivity.
Qed.

Lemma listed_datetime t : valid_dt t = true ->
  (' (z1, z2) <- stored_time (ADDt t) ;; listed_time z1 z2) =
    let t' := mk_dt (window_year (dt_y t)) (dt_mo t) (dt_d t) (dt_h t) (dt_mi t) 0 0 in
    if valid_dt t' then Ok (analysis, t') else Err ValueError.
Proof.
  intros V. rewrite stored_datetime by assumption. cbn [bind].
  apply valid_dt_ranges in V. pose proof (days_in_month_range (dt_y t) (dt_mo t)).
  apply listed_analysis; lia.
Qed.

Lemma stored_typed t c ty r h m : valid_dt t = true -> letter_type c = Some ty -> ty <> analysis -> suffix r h m ->
  exists g, forecast_type g = Ok ty /\ 1 <= g <= 3 /\
  stored_time (ADStr (strftime fmt_YmdHM t ++ c :: r)) =
    Ok (dt_mo t * 100000000 + dt_d t * 1000000 + dt_y t mod 100 * 10000 + dt_h t * 100 + dt_mi t,
        g * 100000 + (h * 100 + m)).
Proof.
  intros V L NA S. destruct (letter_upper c ty L) as (_ & F & R & Z0).
  exists (type_code (upper_c c)). split; [assumption|].
  assert (type_code (upper_c c) <> 0) by (intros E; apply NA, Z0, E). split; [lia|].
  unfold stored_time. erewrite parse_typed by eassumption. cbn [bind]. unfold enc_gdt.
  replace (type_code (upper_c c) =? 0) with false by lia.
  rewrite enc_mdyHM by (apply valid_to_minute, V). cbn [bind].
  apply suffix_range in S. rewrite enc_gtm_val by lia. reflexivity.
Qed.

Lemma listed_forecast t g ty h m : valid_dt t = true -> in_window (dt_y t) ->
  forecast_type g = Ok ty -> 0 <= g -> 0 <= h <= 999 -> 0 <= m < 100 ->
  exists t', listed_time
      (dt_mo t * 100000000 + dt_d t * 1000000 + dt_y t mod 100 * 10000 + dt_h t * 100 + dt_mi t)
      (g * 100000 + (h * 100 + m)) = Ok (ty, t') /\
    valid_dt t' = true /\ minute_number t' = minute_number t + (60 * h + m) /\ dt_s t' = 0 /\ dt_us t' = 0.
Proof.
  intros V W F Hg Hh Hm. pose proof V as V'. apply valid_dt_ranges in V'.
  pose proof (days_in_month_range (dt_y t) (dt_mo t)).
  unfold listed_time. rewrite dattim_forecast by lia. rewrite window_year_id by assumption. cbv zeta.
  change (mk_dt (dt_y t) (dt_mo t) (dt_d t) (dt_h t) (dt_mi t) 0 0) with (to_minute t).
  rewrite valid_to_minute by assumption. cbn [bind]. rewrite (convert_ftime_val g ty) by assumption || lia. cbn [bind].
  unfold in_window in W.
  destruct (add_minutes_total (to_minute t) (h * 60 + m) 2068) as [t' E]; [apply valid_to_minute, V|lia|cbn; lia|lia|lia|].
  rewrite E. cbn [bind]. exists t'. split; [reflexivity|].
  destruct (add_minutes_spec _ _ _ (valid_to_minute _ V) E) as (V2 & N & S1 & S2).
  split; [assumption|]. split; [|split; assumption].
  rewrite N. change (minute_number (to_minute t)) with (minute_number t). lia.
Qed.

(** 'A' with a suffix stores the date of the initial time and the suffix as hours/minutes. *)
Lemma stored_typed_analysis t c r h m : valid_dt t = true -> letter_type c = Some analysis -> suffix r h m ->
  stored_time (ADStr (strftime fmt_YmdHM t ++ c :: r)) =
    Ok (dt_y t mod 100 * 10000 + dt_mo t * 100 + dt_d t, h * 100 + m).
Proof.
  intros V L S. destruct (letter_upper c analysis L) as (_ & F & R & Z0).
  assert (E0 : type_code (upper_c c) = 0) by (apply Z0; reflexivity).
  unfold stored_time. erewrite parse_typed by eassumption. cbn [bind]. rewrite E0. unfold enc_gdt. cbn [Z.eqb].
  rewrite enc_ymd by (apply valid_to_minute, V). cbn [bind].
  apply suffix_range in S. rewrite enc_gtm_val by lia. reflexivity.
Qed.

(** ** strings *)
Lemma word_of_str_length s b : word_of_str s = Ok b -> length b = 4%nat.
Proof. unfold word_of_str, str_bytes. destruct (is_ascii _); cbn [bind]; intros H; [|discriminate]. injection H as <-. apply fit_length. Qed.

Lemma fit4_ljust s : (length s <= 4)%nat -> fit 4 (ljust 4 s) = ljust 4 s.
Proof.
  intros H. apply fit_exact. unfold ljust. rewrite app_length, repeat_length. lia.
Qed.
Lemma fit4_ljust_long s : (4 <= length s)%nat -> fit 4 (ljust 4 s) = firstn 4 s.
Proof.
  intros H. unfold ljust. replace (4 - length s)%nat with O by lia. cbn [repeat]. rewrite app_nil_r.
  unfold fit. replace (4 - length s)%nat with O by lia. cbn [repeat]. apply app_nil_r.
Qed.

(** What a 4-character header string reads back as. *)
Lemma decode_word s b : word_of_str s = Ok b -> decode_strip b = Ok (strip (firstn 4 s)).
Proof.
  unfold word_of_str, str_bytes, decode_strip, bytes_str.
  destruct (is_ascii (ljust 4 s)) eqn:A; cbn [bind]; intros H; [|discriminate]. injection H as <-.
  rewrite is_ascii_ljust in A.
  destruct (Nat.le_gt_cases (length s) 4).
  - rewrite fit4_ljust by assumption. rewrite is_ascii_ljust, A. cbn [bind].
    rewrite strip_ljust, firstn_all2 by assumption. reflexivity.
  - rewrite fit4_ljust_long by lia. rewrite is_ascii_firstn by assumption. reflexivity.
Qed.

Lemma word_of_str_ok s : is_ascii s = true -> exists b, word_of_str s = Ok b.
Proof. intros A. unfold word_of_str, str_bytes. rewrite is_ascii_ljust, A. eexists; reflexivity. Qed.

Definition no_space (s : str) : Prop := forallb (fun c => negb (is_space c)) s = true.
Lemma strip_no_space s : no_space s -> strip s = s.
Proof.
  intros H. unfold no_space in H. rewrite forallb_forall in H. apply strip_id; intros c r ->.
  - specialize (H c (or_introl eq_refl)). destruct (is_space c); [discriminate|reflexivity].
  - specialize (H c). rewrite in_app_iff in H. specialize (H (or_intror (or_introl eq_refl))).
    destruct (is_space c); [discriminate|reflexivity].
Qed.
Lemma no_space_firstn n s : no_space s -> no_space (firstn n s).
Proof. unfold no_space. rewrite !forallb_forall. intros H x Hx. apply H. rewrite <- (firstn_skipn n s). apply in_or_app; auto. Qed.
Lemma no_space_skipn n s : no_space s -> no_space (skipn n s).
Proof. unfold no_space. rewrite !forallb_forall. intros H x Hx. apply H. rewrite <- (firstn_skipn n s). apply in_or_app; auto. Qed.
Lemma upper_c_space c : is_space (upper_c c) = is_space c.
Proof. unfold upper_c, is_space. destruct ((97 <=? c) && (c <=? 122)) eqn:E; lia. Qed.
Lemma no_space_upper s : no_space s -> no_space (upper s).
Proof.
  unfold no_space, upper. rewrite !forallb_forall. intros H x Hx. apply in_map_iff in Hx as (c & <- & Hc).
  rewrite upper_c_space. apply H, Hc.
Qed.

(** parameter names *)
Lemma strip_firstn_ljust n s : (length s <= 12)%nat -> no_space s ->
  strip (firstn 4 (skipn n (ljust 12 s))) = firstn 4 (skipn n s).
Proof.
  intros L H. unfold ljust. rewrite skipn_app, firstn_app.
  set (a := firstn 4 (skipn n s)).
  assert (E : exists j, firstn (4 - length (skipn n s)) (skipn (n - length s) (repeat 32 (12 - length s))) = repeat 32 j).
  { exists (Nat.min (4 - length (skipn n s)) (12 - length s - (n - length s))).
    generalize (4 - length (skipn n s))%nat as x. intros x.
    assert (S1 : forall p q, skipn p (repeat 32 q) = repeat 32 (q - p)).
    { clear. induction p; intros [|q]; cbn; auto. }
    assert (S2 : forall p q, firstn p (repeat 32 q) = repeat 32 (Nat.min p q)).
    { clear. induction p; intros [|q]; cbn; [reflexivity..|]. f_equal. apply IHp. }
    rewrite S1, S2. reflexivity. }
  destruct E as [j ->].
  assert (P : strip (a ++ repeat 32 j) = strip a).
  { unfold strip. destruct (forallb is_space a) eqn:F.
    - rewrite !lstrip_all_space; [reflexivity|assumption|]. rewrite forallb_app, F. apply repeat_space.
    - rewrite lstrip_app by assumption. apply rstrip_app_space. }
  rewrite P. apply strip_no_space, no_space_firstn, no_space_skipn, H.
Qed.

Lemma ok_triple {A B C} (x a : A) (y b : B) (z c : C) : Ok (x, y, z) = Ok (a, b, c) -> x = a /\ y = b /\ z = c.
Proof. intros H. injection H as -> -> ->. auto. Qed.

Lemma enc_parm_ok name a b c : enc_parm name = Ok (a, b, c) ->
  (length name <= 12)%nat /\ length a = 4%nat /\ length b = 4%nat /\ length c = 4%nat /\
  a ++ b ++ c = ljust 12 (upper name).
Proof.
  unfold enc_parm. destruct (Z.ltb_spec 12 (Zlen name)); [discriminate|]. intros E. apply ok_triple in E as (<- & <- & <-).
  assert (HL : (length name <= 12)%nat) by (unfold Zlen in *; lia).
  assert (LL : length (ljust 12 (upper name)) = 12%nat).
  { unfold ljust. rewrite app_length, repeat_length, upper_length. lia. }
  set (l := ljust 12 (upper name)) in *. clearbody l.
  assert (F : forall k, (k <= 8)%nat -> length (firstn 4 (skipn k l)) = 4%nat).
  { intros k Hk. rewrite firstn_length, skipn_length. lia. }
  split; [assumption|]. split; [exact (F O ltac:(lia))|]. split; [exact (F 4%nat ltac:(lia))|]. split; [exact (F 8%nat ltac:(lia))|].
  clear F.
  do 12 (destruct l as [|? l]; [discriminate LL|]). destruct l; [reflexivity|discriminate LL].
Qed.

Lemma parm_roundtrip name a b c : is_ascii name = true -> no_space name -> enc_parm name = Ok (a, b, c) ->
  (w1 <- word_of_str a ;; w2 <- word_of_str b ;; w3 <- word_of_str c ;; dec_parm w1 w2 w3) = Ok (upper name).
Proof.
  intros A NS E. pose proof (enc_parm_ok _ _ _ _ E) as (L & La & Lb & Lc & Eq).
  unfold enc_parm in E. destruct (Z.ltb_spec 12 (Zlen name)); [discriminate|]. apply ok_triple in E as (Ea & Eb & Ec).
  assert (AL : is_ascii (ljust 12 (upper name)) = true) by (rewrite is_ascii_ljust; apply is_ascii_upper, A).
  rewrite <- Eq in AL. rewrite !is_ascii_app, !andb_true_iff in AL. destruct AL as (A1 & A2 & A3).
  destruct (word_of_str_ok a A1) as [w1 W1]. destruct (word_of_str_ok b A2) as [w2 W2].
  destruct (word_of_str_ok c A3) as [w3 W3]. rewrite W1, W2, W3. cbn [bind]. unfold dec_parm.
  rewrite (decode_word _ _ W1), (decode_word _ _ W2), (decode_word _ _ W3). cbn [bind].
  rewrite !firstn_all2 by lia. subst a b c.
  assert (L' : (length (upper name) <= 12)%nat) by (rewrite upper_length; assumption).
  pose proof (no_space_upper _ NS) as NU.
  rewrite <- (skipn_O (ljust 12 (upper name))) at 1.
  rewrite !strip_firstn_ljust by assumption. f_equal. cbn [skipn].
  set (l := upper name) in *. clearbody l. clear - L'.
  do 13 (destruct l as [|? l]; [reflexivity|]). cbn in L'. lia.
Qed.

Lemma ljust4_len4 s : length s = 4%nat -> ljust 4 s = s.
Proof. intros H. unfold ljust. rewrite H. apply app_nil_r. Qed.

(** vertical coordinates *)
Lemma index_of_nth s l : forall i v, index_of s l i = Some v -> i <= v /\ nth_error l (Z.to_nat (v - i)) = Some s.
Proof.
  induction l as [|x r IH]; intros i v H; [discriminate|]. cbn in H. destruct (str_eqb s x) eqn:E.
  - injection H as <-. apply str_eqb_spec in E. subst. rewrite Z.sub_diag. split; [lia|reflexivity].
  - apply IH in H as [H1 H2]. split; [lia|].
    replace (Z.to_nat (v - i)) with (S (Z.to_nat (v - (i + 1)))) by lia. exact H2.
Qed.
Lemma index_of_none s l : forall i, index_of s l i = None -> ~ In s l.
Proof.
  induction l as [|x r IH]; intros i H; [auto|]. cbn in H. destruct (str_eqb s x) eqn:E; [discriminate|].
  intros [->|Hin]; [|eapply IH; eauto]. assert (str_eqb s s = true) by (apply str_eqb_spec; reflexivity). congruence.
Qed.
Lemma upper_lower_c c : upper_c (lower_c c) = upper_c c.
Proof.
  unfold upper_c, lower_c. destruct ((65 <=? c) && (c <=? 90)) eqn:E; [|reflexivity].
  replace ((97 <=? c + 32) && (c + 32 <=? 122)) with true by lia.
  replace ((97 <=? c) && (c <=? 122)) with false by lia. lia.
Qed.
Lemma upper_lower s : upper (lower s) = upper s.
Proof. unfold upper, lower. rewrite map_map. apply map_ext, upper_lower_c. Qed.
Lemma lower_upper_c c : lower_c (upper_c c) = lower_c c.
Proof.
  unfold upper_c, lower_c. destruct ((97 <=? c) && (c <=? 122)) eqn:E; [|reflexivity].
  replace ((65 <=? c - 32) && (c - 32 <=? 90)) with true by lia.
  replace ((65 <=? c) && (c <=? 90)) with false by lia. lia.
Qed.
Lemma lower_upper s : lower (upper s) = lower s.
Proof. unfold upper, lower. rewrite map_map. apply map_ext, lower_upper_c. Qed.

Lemma vcoord_roundtrip e coord z : enc_vcoord coord = Ok z ->
  0 <= z <= 8 /\ convert_vertical_coord e z = Ok (match coord with None => [78;79;78;69] | Some s => upper s end).
Proof.
  unfold enc_vcoord, encode_vertical_coordinate. set (c := match coord with None => _ | Some s => upper s end).
  destruct (4 <? Zlen c); [discriminate|].
  destruct (index_of (lower c) vcoord_names 0) as [v|] eqn:I; [|discriminate]. intros E; injection E as <-.
  apply index_of_nth in I as [I1 I2]. rewrite Z.sub_0_r in I2.
  assert (Hv : v <= 8).
  { assert (HH : nth_error vcoord_names (Z.to_nat v) <> None) by congruence. apply nth_error_Some in HH. cbn in HH. lia. }
  split; [lia|]. unfold convert_vertical_coord. replace (v <=? 8) with true by lia.
  replace (v <? 0) with false by lia. rewrite I2, upper_lower.
  destruct coord; subst c; [rewrite upper_idem|]; reflexivity.
Qed.
