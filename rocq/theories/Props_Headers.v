(** Properties C21-C32: dates, levels, names, identifiers and coordinates through the header
    words of a file.  [stored_...] is what the writer puts in the file for an argument,
    [listed_...] what the reader reports for the words it finds. *)
From Coq Require Import Lia ZifyBool ZifyNat QArith Qabs.
From Verif Require Import Base BaseFacts Floats Strings StringsFacts Dates SpecDates DatesFacts Structs
  Headers HeadersFacts Order CoordFacts.
Open Scope Z_scope.
Ltac Zify.zify_post_hook ::= Z.div_mod_to_equations.

(** Write a grid time and list it back. *)
Definition time_through (a : dtarg) : res (ftype * dtime) :=
  ' (z1, z2) <- stored_time a ;; listed_time z1 z2.

(** C21: a datetime, or the same instant written YYYYmmddHHMM. *)
Theorem C21_analysis_time : forall t, valid_dt t = true -> in_window (dt_y t) ->
  time_through (ADDt t) = Ok (analysis, to_minute t) /\
  time_through (ADStr (strftime fmt_YmdHM t)) = Ok (analysis, to_minute t).
Proof.
  intros t V W.
  assert (E : time_through (ADDt t) = Ok (analysis, to_minute t)).
  { unfold time_through. rewrite listed_datetime by assumption. cbv zeta. rewrite window_year_id by assumption.
    change (mk_dt (dt_y t) (dt_mo t) (dt_d t) (dt_h t) (dt_mi t) 0 0) with (to_minute t).
    rewrite valid_to_minute by assumption. reflexivity. }
  split; [exact E|]. rewrite <- E. unfold time_through. rewrite stored_plain by assumption. reflexivity.
Qed.
Print Assumptions C21_analysis_time.
Definition sample_t : dtime := mk_dt 2024 2 29 23 59 30 5.
Example C21_example : valid_dt sample_t = true /\ in_window (dt_y sample_t) /\
  strftime fmt_YmdHM sample_t = [50;48;50;52;48;50;50;57;50;51;53;57] /\
  time_through (ADDt sample_t) = Ok (analysis, mk_dt 2024 2 29 23 59 0 0).
Proof. vm_compute. repeat split; discriminate. Qed.

(** C22: initial time, letter (either case), forecast time; [suffix r h m] says that the text [r]
    is empty (h = m = 0), up to three digits of hours, or hhhmm. *)
Theorem C22_forecast_time : forall t c ty r h m,
  valid_dt t = true -> in_window (dt_y t) ->
  letter_type c = Some ty -> ty <> analysis -> suffix r h m ->
  exists t', time_through (ADStr (strftime fmt_YmdHM t ++ c :: r)) = Ok (ty, t') /\
    valid_dt t' = true /\ minute_number t' = minute_number t + 60 * h + m /\ dt_s t' = 0 /\ dt_us t' = 0.
Proof.
  intros t c ty r h m V W L NA S. destruct (stored_typed t c ty r h m V L NA S) as (g & F & G & E).
  pose proof (suffix_range _ _ _ S) as R.
  destruct (listed_forecast t g ty h m V W F) as (t' & E' & V' & N & S1 & S2); try lia.
  exists t'. unfold time_through. rewrite E. cbn [bind]. rewrite E'. repeat split; try assumption. lia.
Qed.
Print Assumptions C22_forecast_time.

(** The minute number identifies the instant, so C22 determines the reported time. *)
Theorem C22_minutes_identify : forall t t', valid_dt t = true -> valid_dt t' = true ->
  dt_s t = dt_s t' -> dt_us t = dt_us t' -> minute_number t = minute_number t' -> t = t'.
Proof.
  intros t t' V V' S U N. apply valid_dt_ranges in V. apply valid_dt_ranges in V'.
  unfold minute_number in N.
  assert (D : day_number (dt_y t) (dt_mo t) (dt_d t) = day_number (dt_y t') (dt_mo t') (dt_d t') /\ dt_h t = dt_h t' /\ dt_mi t = dt_mi t').
  { generalize dependent (day_number (dt_y t) (dt_mo t) (dt_d t)).
    generalize dependent (day_number (dt_y t') (dt_mo t') (dt_d t')). intros a b N.
    destruct V as (_ & _ & _ & ? & ? & _). destruct V' as (_ & _ & _ & ? & ? & _). lia. }
  destruct D as (D & H & M).
  assert (E : date_of t = date_of t').
  { apply dnum_inj; [split; cbn; tauto|split; cbn; tauto|exact D]. }
  destruct t, t'. unfold date_of in E. cbn in *. injection E as -> -> ->. subst. reflexivity.
Qed.
Print Assumptions C22_minutes_identify.

Example C22_example :   (* 202402281800f030 and 202012312330G10030 *)
  time_through (ADStr (strftime fmt_YmdHM (mk_dt 2024 2 28 18 0 0 0) ++ 102 :: [48;51;48])) =
    Ok (forecast, mk_dt 2024 3 1 0 0 0 0) /\
  suffix [48;51;48] 30 0 /\
  time_through (ADStr (strftime fmt_YmdHM (mk_dt 2020 12 31 23 30 0 0) ++ 71 :: [49;48;48;51;48])) =
    Ok (guess, mk_dt 2021 1 5 4 0 0 0) /\
  suffix [49;48;48;51;48] 100 30.
Proof.
  split; [vm_compute; reflexivity|]. split; [change [48;51;48] with (fixed 3 30); apply (suffix_h 3); cbn; lia|].
  split; [vm_compute; reflexivity|]. change [49;48;48;51;48] with (fixed 3 100 ++ fixed 2 30). apply suffix_hm; lia.
Qed.

(** C23 is false: an explicit 'A' replaces the time of day by the text after the letter. *)
Theorem C23_refuted : exists t, valid_dt t = true /\ in_window (dt_y t) /\
  time_through (ADStr (strftime fmt_YmdHM t ++ [65])) = Ok (analysis, mk_dt (dt_y t) (dt_mo t) (dt_d t) 0 0 0 0) /\
  time_through (ADStr (strftime fmt_YmdHM t ++ [65])) <> Ok (analysis, to_minute t).
Proof. exists (mk_dt 2020 1 1 12 0 0 0). repeat split; vm_compute; try discriminate; reflexivity. Qed.
Print Assumptions C23_refuted.
(** What holds: the date is kept and the time of day is the one after the letter, so midnight
    initial times and 'A' followed by the same HHMM (as hhhmm) are kept. *)
Theorem C23_partial : forall t c r h m,
  valid_dt t = true -> in_window (dt_y t) -> letter_type c = Some analysis -> suffix r h m ->
  h < 24 -> m < 60 ->
  time_through (ADStr (strftime fmt_YmdHM t ++ c :: r)) =
    Ok (analysis, mk_dt (dt_y t) (dt_mo t) (dt_d t) h m 0 0).
Proof.
  intros t c r h m V W L S Hh Hm. unfold time_through. rewrite (stored_typed_analysis t c r h m) by assumption.
  cbn [bind]. pose proof (suffix_range _ _ _ S). pose proof V as V'. apply valid_dt_ranges in V'.
  pose proof (days_in_month_range (dt_y t) (dt_mo t)).
  rewrite listed_analysis by lia. cbv zeta. rewrite window_year_id by assumption.
  destruct (valid_dt (mk_dt (dt_y t) (dt_mo t) (dt_d t) h m 0 0)) eqn:X; [reflexivity|].
  rewrite valid_dt_intro in X; [discriminate| | | | | | |]; cbn; lia.
Qed.
Print Assumptions C23_partial.
Example C23_example : valid_dt (mk_dt 2020 1 1 0 0 0 0) = true /\ letter_type 97 = Some analysis /\
  time_through (ADStr (strftime fmt_YmdHM (mk_dt 2020 1 1 0 0 0 0) ++ [97])) = Ok (analysis, mk_dt 2020 1 1 0 0 0 0).
Proof. vm_compute. auto. Qed.

(** C24 is false: 1968 is accepted and comes back as 2068. *)
Theorem C24_refuted : exists t, valid_dt t = true /\
  time_through (ADDt t) = Ok (analysis, mk_dt 2068 7 4 12 0 0 0) /\ t = mk_dt 1968 7 4 12 0 0 0.
Proof. exists (mk_dt 1968 7 4 12 0 0 0). repeat split; vm_compute; reflexivity. Qed.
Print Assumptions C24_refuted.
(** What holds: a datetime is kept exactly when its year is in 1969..2068. *)
Theorem C24_partial : forall t, valid_dt t = true ->
  (exists z, stored_time (ADDt t) = Ok z) /\
  (time_through (ADDt t) = Ok (analysis, to_minute t) <-> in_window (dt_y t)).
Proof.
  intros t V. split; [eexists; apply stored_datetime; assumption|]. split.
  - unfold time_through. rewrite listed_datetime by assumption. cbv zeta.
    match goal with |- context [valid_dt ?x] => destruct (valid_dt x) end; [|discriminate]. intros E.
    apply f_equal with (f := fun r => match r with Ok (_, u) => dt_y u | Err _ => 0 end) in E. cbn [dt_y to_minute] in E.
    unfold window_year in E. unfold in_window. clear V. destruct (dt_y t mod 100 <=? 68) eqn:X; lia.
  - intros W. apply C21_analysis_time; assumption.
Qed.
Print Assumptions C24_partial.

(** C25: the stored words. *)
Theorem C25_ranges : forall t, valid_dt t = true ->
  (exists z1 z2, stored_time (ADDt t) = Ok (z1, z2) /\ 1 <= z1 < 100000000 /\ 0 <= z2 < 2 ^ 31) /\
  (forall c ty r h m, letter_type c = Some ty -> ty <> analysis -> suffix r h m ->
   exists z1 z2, stored_time (ADStr (strftime fmt_YmdHM t ++ c :: r)) = Ok (z1, z2) /\
     100000000 <= z1 < 2 ^ 31 /\ 100000 <= z2 < 2 ^ 31).
Proof.
  intros t V. pose proof V as V'. apply valid_dt_ranges in V'. pose proof (days_in_month_range (dt_y t) (dt_mo t)).
  split.
  - do 2 eexists. split; [apply stored_datetime; assumption|]. lia.
  - intros c ty r h m L NA S. destruct (stored_typed t c ty r h m V L NA S) as (g & F & G & E).
    pose proof (suffix_range _ _ _ S). do 2 eexists. split; [exact E|]. lia.
Qed.
Print Assumptions C25_ranges.

Theorem C25_injective : forall t t', valid_dt t = true -> valid_dt t' = true ->
  in_window (dt_y t) -> in_window (dt_y t') ->
  (stored_time (ADDt t) = stored_time (ADDt t') -> to_minute t = to_minute t') /\
  (forall c ty r h m c' ty' r' h' m', letter_type c = Some ty -> ty <> analysis -> suffix r h m ->
     letter_type c' = Some ty' -> ty' <> analysis -> suffix r' h' m' ->
   stored_time (ADStr (strftime fmt_YmdHM t ++ c :: r)) = stored_time (ADStr (strftime fmt_YmdHM t' ++ c' :: r')) ->
   to_minute t = to_minute t' /\ ty = ty' /\ h = h' /\ m = m').
Proof.
  intros t t' V V' W W'. pose proof V as R. apply valid_dt_ranges in R. pose proof V' as R'. apply valid_dt_ranges in R'.
  pose proof (days_in_month_range (dt_y t) (dt_mo t)) as D. pose proof (days_in_month_range (dt_y t') (dt_mo t')) as D'.
  unfold in_window in *. split.
  - rewrite !stored_datetime by assumption. intros E. apply f_equal with (f := fun r => match r with Ok p => p | Err _ => (0, 0) end) in E.
    apply pair_equal_spec in E as [E1 E2].
    assert (dt_y t mod 100 = dt_y t' mod 100 /\ dt_mo t = dt_mo t' /\ dt_d t = dt_d t') as (E3 & E4 & E5).
    { clear E2. assert (0 <= dt_y t mod 100 < 100) by lia. assert (0 <= dt_y t' mod 100 < 100) by lia.
      generalize dependent (dt_y t mod 100). generalize dependent (dt_y t' mod 100). intros. lia. }
    assert (dt_h t = dt_h t' /\ dt_mi t = dt_mi t') as (E6 & E7) by (clear - E2 R R'; lia).
    assert (dt_y t = dt_y t') as E8 by (clear - W W' E3; lia).
    unfold to_minute. rewrite E4, E5, E6, E7, E8. reflexivity.
  - intros c ty r h m c' ty' r' h' m' L NA S L' NA' S'.
    destruct (stored_typed t c ty r h m V L NA S) as (g & F & G & ->).
    destruct (stored_typed t' c' ty' r' h' m' V' L' NA' S') as (g' & F' & G' & ->).
    pose proof (suffix_range _ _ _ S) as SR. pose proof (suffix_range _ _ _ S') as SR'. intros E.
    apply f_equal with (f := fun r => match r with Ok p => p | Err _ => (0, 0) end) in E.
    apply pair_equal_spec in E as [E1 E2].
    assert (g = g' /\ h = h' /\ m = m') as (Eg & Eh & Em) by (clear - E2 G G' SR SR'; lia).
    subst g'. rewrite F in F'. injection F' as <-.
    assert (dt_y t mod 100 = dt_y t' mod 100 /\ dt_mo t = dt_mo t' /\ dt_d t = dt_d t' /\ dt_h t = dt_h t' /\ dt_mi t = dt_mi t') as (E3 & E4 & E5 & E6 & E7).
    { clear E2. assert (0 <= dt_y t mod 100 < 100) by lia. assert (0 <= dt_y t' mod 100 < 100) by lia.
      generalize dependent (dt_y t mod 100). generalize dependent (dt_y t' mod 100). intros. lia. }
    assert (dt_y t = dt_y t') as E8 by (clear - W W' E3; lia).
    split; [|auto]. unfold to_minute. rewrite E4, E5, E6, E7, E8. reflexivity.
Qed.
Print Assumptions C25_injective.
Example C25_example : stored_time (ADDt sample_t) = Ok (240229, 2359) /\
  stored_time (ADStr (strftime fmt_YmdHM sample_t ++ [70;48;48;54])) = Ok (229242359, 100600).
Proof. vm_compute. auto. Qed.

(** C26: row dates and times of sounding and surface files. *)
Theorem C26_row_times : forall d t, valid_date d = true -> in_window (da_y d) -> valid_time t = true ->
  (z <- enc_date d ;; dec_date z) = Ok d /\
  (z <- enc_time t ;; dec_time z) = Ok (mk_time (ti_h t) (ti_mi t) 0 0).
Proof. intros d t V W VT. split; [apply row_date_roundtrip; assumption|apply row_time_roundtrip; assumption]. Qed.
Print Assumptions C26_row_times.
Example C26_example : valid_date (mk_date 2000 2 29) = true /\ in_window 2000 /\ valid_time (mk_time 0 5 59 0) = true /\
  enc_date (mk_date 2000 2 29) = Ok 229 /\ dec_date 229 = Ok (mk_date 2000 2 29) /\ dec_time 5 = Ok (mk_time 0 5 0 0).
Proof. repeat split; vm_compute; congruence || reflexivity. Qed.

(** C27: the nine names are accepted in any letter case and read back upper-cased, in either byte
    order; None stands for 'NONE'; any other name is rejected; levels. *)
Definition vcoord_list : list str :=   (* NONE PRES THTA HGHT SGMA DPTH HYBD PVAB PVBL *)
  [[78;79;78;69]; [80;82;69;83]; [84;72;84;65]; [72;71;72;84]; [83;71;77;65]; [68;80;84;72]; [72;89;66;68];
   [80;86;65;66]; [80;86;66;76]].
Theorem C27_vertical_coordinates : forall e name,
  (In (upper name) vcoord_list ->
   exists z, enc_vcoord (Some name) = Ok z /\ - 2 ^ 31 <= z < 2 ^ 31 /\ convert_vertical_coord e z = Ok (upper name)) /\
  (~ In (upper name) vcoord_list -> exists ex, enc_vcoord (Some name) = Err ex) /\
  (z <- enc_vcoord None ;; convert_vertical_coord e z) = Ok [78;79;78;69].
Proof.
  intros e name.
  assert (U : forall c, lower (upper c) = lower c) by apply lower_upper.
  split; [|split].
  - intros I. destruct (enc_vcoord (Some name)) as [z|ex] eqn:E.
    + exists z. apply (vcoord_roundtrip e) in E as [E1 E2]. split; [reflexivity|]. split; [lia|assumption].
    + exfalso. unfold enc_vcoord in E. cbn [In vcoord_list] in I.
      repeat (destruct I as [I|I]; [rewrite <- I in E; vm_compute in E; discriminate|]). destruct I.
  - intros NI. destruct (enc_vcoord (Some name)) as [z|ex] eqn:E; [|eauto]. exfalso. apply NI.
    unfold enc_vcoord, encode_vertical_coordinate in E. destruct (4 <? _); [discriminate|].
    rewrite U in E. destruct (index_of (lower name) vcoord_names 0) eqn:I; [|discriminate].
    apply index_of_nth in I as [_ I]. apply nth_error_In in I.
    assert (M : In (upper (lower name)) (map upper vcoord_names)) by (apply in_map; assumption).
    rewrite upper_lower in M. exact M.
  - destruct e; reflexivity.
Qed.
Print Assumptions C27_vertical_coordinates.
Theorem C27_levels : forall n,
  (0 <= n -> (z <- int_of_num (PInt n) ;; Ok (convert_level z)) = Ok (Some n) /\
             (z <- enc_level2 (Some (PInt n)) ;; Ok (convert_level z)) = Ok (Some n)) /\
  (n < 0 -> (z <- int_of_num (PInt n) ;; Ok (convert_level z)) = Ok None) /\
  (z <- enc_level2 None ;; Ok (convert_level z)) = Ok None.
Proof.
  intros n. unfold enc_level2, int_of_num, convert_level. cbn [bind]. split; [|split; [|reflexivity]]; intros H.
  - replace (n >=? 0) with true by lia. auto.
  - replace (n >=? 0) with false by lia. auto.
Qed.
Print Assumptions C27_levels.
Example C27_example : In (upper [112;114;69;83]) vcoord_list /\ enc_vcoord (Some [112;114;69;83]) = Ok 1 /\
  ~ In (upper [97;98;99;100]) vcoord_list /\ enc_vcoord (Some [97;98;99;100]) = Err KeyError.
Proof. split; [cbn; auto|]. split; [reflexivity|]. split; [|reflexivity]. cbn. intuition congruence. Qed.

(** C28 *)
Definition name_through (name : str) : res str :=
  ' (a, b, c) <- enc_parm name ;;
  w1 <- word_of_str a ;; w2 <- word_of_str b ;; w3 <- word_of_str c ;; dec_parm w1 w2 w3.
Theorem C28_parameter_names : forall name,
  is_ascii name = true -> no_space name -> Zlen name <= 12 -> name_through name = Ok (upper name).
Proof.
  intros name A N L. unfold name_through. destruct (enc_parm name) as [[[a b] c]|ex] eqn:E.
  - cbn [bind]. apply (parm_roundtrip name a b c); assumption.
  - unfold enc_parm in E. destruct (Z.ltb_spec 12 (Zlen name)); [lia|discriminate].
Qed.
Print Assumptions C28_parameter_names.
Theorem C28_long_names_rejected : forall name, 12 < Zlen name -> name_through name = Err ValueError.
Proof. intros name L. unfold name_through, enc_parm. replace (12 <? Zlen name) with true by lia. reflexivity. Qed.
Print Assumptions C28_long_names_rejected.
Example C28_example : name_through [116;109;112;99;95;97;98;99;49] = Ok [84;77;80;67;95;65;66;67;49].
Proof. reflexivity. Qed.

(** C29 is false: 'ABC DEFG' comes back as 'ABCDEFG', so two different accepted names collide. *)
Theorem C29_refuted : exists n1 n2, upper n1 <> upper n2 /\ name_through n1 = name_through n2 /\
  exists r, name_through n1 = Ok r /\ r <> upper n1.
Proof.
  exists [65;66;67;32;68;69;70;71], [65;66;67;68;69;70;71]. split; [discriminate|]. split; [reflexivity|].
  eexists. split; [reflexivity|discriminate].
Qed.
Print Assumptions C29_refuted.
(** What holds for any accepted ASCII name: each four-character piece comes back stripped. *)
Theorem C29_partial : forall name, is_ascii name = true -> Zlen name <= 12 ->
  let p := upper name ++ repeat 32 (12 - length name) in
  name_through name = Ok (strip (firstn 4 p) ++ strip (firstn 4 (skipn 4 p)) ++ strip (firstn 4 (skipn 8 p))).
Proof.
  intros name A L p. unfold name_through, enc_parm. replace (12 <? Zlen name) with false by lia. cbn [bind].
  assert (P : ljust 12 (upper name) = p) by (unfold ljust, p; rewrite upper_length; reflexivity). rewrite P.
  assert (AP : is_ascii p = true) by (rewrite <- P, is_ascii_ljust; apply is_ascii_upper; assumption).
  assert (AF : forall n, is_ascii (firstn 4 (skipn n p)) = true).
  { intros n. unfold is_ascii in *. rewrite forallb_forall in *. intros x Hx. apply AP.
    rewrite <- (firstn_skipn n p). apply in_or_app. right. rewrite <- (firstn_skipn 4 (skipn n p)). apply in_or_app. auto. }
  destruct (word_of_str_ok _ (AF O)) as [w1 E1]. destruct (word_of_str_ok _ (AF 4%nat)) as [w2 E2].
  destruct (word_of_str_ok _ (AF 8%nat)) as [w3 E3]. change (skipn 0 p) with p in E1.
  rewrite E1, E2, E3. cbn [bind]. unfold dec_parm.
  rewrite (decode_word _ _ E1), (decode_word _ _ E2), (decode_word _ _ E3). cbn [bind].
  rewrite !firstn_firstn. reflexivity.
Qed.
Print Assumptions C29_partial.

(** C30: |100 x| in i32 range is stored as an integer on the same side of zero within one
    hundredth of the value; the reported value is that integer over 100 to binary64 accuracy. *)
Theorem C30_coordinates : forall f,
  valid64 f = true -> finite f = true -> (Qabs (q_of f) < 21474836)%Q ->
  exists z, enc_coord (PFloat f) = Ok z /\ - 2 ^ 31 <= z < 2 ^ 31 /\
    (Qabs (inject_Z z - 100 * q_of f) <= 1)%Q /\ (0 <= inject_Z z * q_of f)%Q /\
    finite (dec_coord z) = true /\
    (Qabs (q_of (dec_coord z) - q_of f) <= (1 # 100) + (1 # 134217728))%Q.
Proof.
  intros f V F B. destruct (enc_coord_float f V F) as (z & E & B1 & B2).
  { apply Qlt_trans with 21474836%Q; [assumption|reflexivity]. }
  assert (Z31 : - 2 ^ 31 <= z < 2 ^ 31).
  { assert (X : (Qabs (inject_Z z) <= 1 + 2147483600)%Q).
    { apply finite_bound_le with (100 * q_of f)%Q; [assumption|]. rewrite Qabs_Qmult. change (Qabs 100) with 100%Q.
      apply Qle_trans with (100 * 21474836)%Q; [|discriminate]. apply Qmult_le_l; [reflexivity|]. apply Qlt_le_weak. assumption. }
    apply Qabs_Qle_condition in X as [X1 X2].
    change (1 + 2147483600)%Q with (inject_Z 2147483601) in *. rewrite <- inject_Z_opp in X1. rewrite <- Zle_Qle in X1, X2. lia. }
  destruct (dec_coord_err z Z31) as (F' & V' & D).
  exists z. split; [exact E|]. split; [exact Z31|]. split; [exact B1|]. split; [exact B2|]. split; [exact F'|].
  setoid_replace (q_of (dec_coord z) - q_of f)%Q
    with ((inject_Z z - 100 * q_of f) * (1 # 100) + (q_of (dec_coord z) - inject_Z z / 100))%Q by (field; discriminate).
  eapply Qle_trans; [apply Qabs_triangle|]. apply Qplus_le_compat; [|exact D].
  rewrite Qabs_Qmult. change (Qabs (1 # 100)) with (1 # 100)%Q.
  setoid_replace (1 # 100)%Q with (1 * (1 # 100))%Q at 2 by ring. apply Qmult_le_compat_r; [exact B1|discriminate].
Qed.
Print Assumptions C30_coordinates.
Theorem C30_integer_coordinates : forall n, enc_coord (PInt n) = Ok (100 * n).
Proof. intros n. rewrite enc_coord_int. f_equal. lia. Qed.
Print Assumptions C30_integer_coordinates.
Definition f_minus_97_39 : flt := S754_finite true 6853211995462697 (-46).   (* -97.39 *)
Example C30_example : valid64 f_minus_97_39 = true /\ enc_coord (PFloat f_minus_97_39) = Ok (-9739) /\
  enc_coord (PFloat (fdiv (of_Z 35) (of_Z 10))) = Ok 350 /\ dec_coord (-9739) = f_minus_97_39.
Proof. vm_compute. auto. Qed.

(** C31 is false: 0.29 is read from 29 hundredths and stored again as 28. *)
Theorem C31_refuted : exists z, enc_coord (PFloat (dec_coord z)) = Ok (z - 1).
Proof. exists 29. reflexivity. Qed.
Print Assumptions C31_refuted.
(** What holds: one cycle moves a coordinate by at most one hundredth. *)
Theorem C31_partial : forall z, - 2 ^ 31 <= z < 2 ^ 31 ->
  exists z', enc_coord (PFloat (dec_coord z)) = Ok z' /\ z - 1 <= z' <= z + 1.
Proof. exact coord_cycle. Qed.
Print Assumptions C31_partial.
Example C31_example : enc_coord (PFloat (dec_coord 3522)) = Ok 3522 /\ enc_coord (PFloat (dec_coord (-29))) = Ok (-28).
Proof. vm_compute. auto. Qed.

(** C32: surface files report the whole identifier. *)
Lemma split_stid_ascii id : is_ascii id = true -> no_space id ->
  is_ascii (fst (split_stid id)) = true /\ is_ascii (snd (split_stid id)) = true /\
  strip (firstn 4 (fst (split_stid id))) = firstn 4 (upper id) /\
  strip (firstn 4 (snd (split_stid id))) = firstn 4 (skipn 4 (upper id)).
Proof.
  intros A N. assert (A' : is_ascii (upper id) = true) by (apply is_ascii_upper; assumption).
  assert (AF : forall a b, is_ascii (firstn a (skipn b (upper id))) = true).
  { intros a b. unfold is_ascii in *. rewrite forallb_forall in *. intros x Hx. apply A'.
    rewrite <- (firstn_skipn b (upper id)). apply in_or_app. right. rewrite <- (firstn_skipn a (skipn b _)). apply in_or_app. auto. }
  pose proof (no_space_upper id N) as N'.
  unfold split_stid. destruct (Z.ltb_spec 4 (Zlen (upper id))) as [H|H]; cbn [fst snd].
  - split; [apply (AF 4%nat O)|]. split; [apply AF|]. rewrite !firstn_firstn. cbn [Nat.min].
    split; apply strip_no_space, no_space_firstn; [assumption|]. apply no_space_skipn. assumption.
  - split; [assumption|]. split; [reflexivity|].
    split; [apply strip_no_space, no_space_firstn; assumption|].
    rewrite skipn_all2 by (unfold Zlen in H; lia). reflexivity.
Qed.

Theorem C32_surface_identifiers : forall id, is_ascii id = true -> no_space id -> Zlen id <= 8 ->
  (' (w1, w2) <- stored_id id ;; listed_surface_id w1 w2) = Ok (upper id).
Proof.
  intros id A N L. destruct (split_stid_ascii id A N) as (A1 & A2 & S1 & S2).
  unfold stored_id. destruct (split_stid id) as [a b]. cbn [fst snd] in *.
  destruct (word_of_str_ok _ A1) as [w1 E1]. destruct (word_of_str_ok _ A2) as [w2 E2].
  rewrite E1, E2. cbn [bind]. unfold listed_surface_id.
  rewrite (decode_word _ _ E1), (decode_word _ _ E2). cbn [bind]. rewrite S1, S2. f_equal.
  rewrite (firstn_all2 (n := 4) (skipn 4 (upper id))); [apply firstn_skipn|].
  rewrite skipn_length, upper_length. unfold Zlen in L. lia.
Qed.
Print Assumptions C32_surface_identifiers.
(** Sounding files report only the first four characters, so the sounding half is false ... *)
Theorem C32_refuted : exists id, is_ascii id = true /\ no_space id /\ Zlen id <= 8 /\
  exists r, (' (w1, w2) <- stored_id id ;; listed_sounding_id w1 w2) = Ok r /\ r <> upper id.
Proof. exists [75;79;85;78;50]. repeat split; try (vm_compute; congruence). eexists. split; [reflexivity|discriminate]. Qed.
Print Assumptions C32_refuted.
(** ... beyond four characters. *)
Theorem C32_partial : forall id, is_ascii id = true -> no_space id ->
  (' (w1, w2) <- stored_id id ;; listed_sounding_id w1 w2) = Ok (firstn 4 (upper id)).
Proof.
  intros id A N. destruct (split_stid_ascii id A N) as (A1 & A2 & S1 & S2).
  unfold stored_id. destruct (split_stid id) as [a b]. cbn [fst snd] in *.
  destruct (word_of_str_ok _ A1) as [w1 E1]. destruct (word_of_str_ok _ A2) as [w2 E2].
  rewrite E1, E2. cbn [bind]. unfold listed_sounding_id. rewrite (decode_word _ _ E1), S1. reflexivity.
Qed.
Print Assumptions C32_partial.
Example C32_example : (' (w1, w2) <- stored_id [107;111;117;110;50;120] ;; listed_surface_id w1 w2) = Ok [75;79;85;78;50;88].
Proof. reflexivity. Qed.
