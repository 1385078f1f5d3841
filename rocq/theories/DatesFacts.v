(** Lemmas about Dates.v. *)
From Coq Require Import Lia ZifyBool ZifyNat.
From Verif Require Import Base BaseFacts Strings StringsFacts Dates SpecDates.
Ltac Zify.zify_post_hook ::= Z.div_mod_to_equations.

(** ** Calendar *)
Lemma valid_date_ranges d : valid_date d = true ->
  1 <= da_y d <= 9999 /\ 1 <= da_mo d <= 12 /\ 1 <= da_d d <= days_in_month (da_y d) (da_mo d).
Proof. unfold valid_date. rewrite !andb_true_iff. lia. Qed.

Lemma days_in_month_range y m : 28 <= days_in_month y m <= 31.
Proof. unfold days_in_month. repeat match goal with |- context [if ?b then _ else _] => destruct b end; lia. Qed.

(** months and days in range, whatever the year *)
Definition cal_ok (d : date) : Prop :=
  1 <= da_mo d <= 12 /\ 1 <= da_d d <= days_in_month (da_y d) (da_mo d).

Ltac month_cases m H :=
  let E := fresh in
  assert (E : m = 1 \/ m = 2 \/ m = 3 \/ m = 4 \/ m = 5 \/ m = 6 \/ m = 7 \/ m = 8 \/ m = 9 \/
              m = 10 \/ m = 11 \/ m = 12) by lia;
  destruct E as [E|[E|[E|[E|[E|[E|[E|[E|[E|[E|[E|E]]]]]]]]]]].

Lemma leap_step y : (y / 4 - y / 100 + y / 400) - ((y - 1) / 4 - (y - 1) / 100 + (y - 1) / 400) =
  if (y mod 4 =? 0) && (negb (y mod 100 =? 0) || (y mod 400 =? 0)) then 1 else 0.
Proof.
  destruct (Z.eqb_spec (y mod 4) 0), (Z.eqb_spec (y mod 100) 0), (Z.eqb_spec (y mod 400) 0);
    cbn [negb andb orb]; lia.
Qed.

Definition dnum (d : date) : Z := day_number (da_y d) (da_mo d) (da_d d).

Lemma next_day_ok d : cal_ok d -> cal_ok (next_day d) /\ dnum (next_day d) = dnum d + 1.
Proof.
  destruct d as [y m dd]. unfold cal_ok, next_day, dnum. cbn [da_y da_mo da_d]. intros [Hm Hd].
  destruct (Z.ltb_spec dd (days_in_month y m)).
  - cbn [da_y da_mo da_d]. split; [lia|]. unfold day_number. lia.
  - assert (Hdd : dd = days_in_month y m) by lia. clear Hd H. subst dd.
    destruct (Z.ltb_spec m 12); cbn [da_y da_mo da_d].
    + split. { pose proof (days_in_month_range y (m + 1)). lia. }
      unfold day_number, days_in_month, leap.
      month_cases m Hm; subst m; cbn [Z.eqb Z.ltb Z.compare Pos.eqb Pos.compare Pos.compare_cont andb orb];
        try lia;
      (change (days_before_month 1) with 0; change (days_before_month (1 + 1)) with 31;
       change (days_before_month 2) with 31; change (days_before_month (2 + 1)) with 59;
       change (days_before_month 3) with 59; change (days_before_month (3 + 1)) with 90;
       change (days_before_month 4) with 90; change (days_before_month (4 + 1)) with 120;
       change (days_before_month 5) with 120; change (days_before_month (5 + 1)) with 151;
       change (days_before_month 6) with 151; change (days_before_month (6 + 1)) with 181;
       change (days_before_month 7) with 181; change (days_before_month (7 + 1)) with 212;
       change (days_before_month 8) with 212; change (days_before_month (8 + 1)) with 243;
       change (days_before_month 9) with 243; change (days_before_month (9 + 1)) with 273;
       change (days_before_month 10) with 273; change (days_before_month (10 + 1)) with 304;
       change (days_before_month 11) with 304; change (days_before_month (11 + 1)) with 334);
      cbn [Z.eqb Z.ltb Z.compare Z.add Pos.add Pos.succ Pos.eqb Pos.compare Pos.compare_cont andb orb];
      try (destruct ((y mod 4 =? 0) && (negb (y mod 100 =? 0) || (y mod 400 =? 0))); lia).
    + assert (m = 12) by lia. subst m. split. { cbn. lia. }
      unfold day_number, days_in_month. pose proof (leap_step y) as L.
      cbn [Z.eqb Z.ltb Z.compare Pos.eqb Pos.compare Pos.compare_cont andb orb].
      change (days_before_month 1) with 0. change (days_before_month 12) with 334.
      replace (y + 1 - 1) with y by lia.
      destruct ((y mod 4 =? 0) && (negb (y mod 100 =? 0) || (y mod 400 =? 0))); lia.
Qed.

Lemma next_prev d : cal_ok d -> cal_ok (prev_day d) /\ next_day (prev_day d) = d.
Proof.
  destruct d as [y m dd]. unfold cal_ok, prev_day. cbn [da_y da_mo da_d]. intros [Hm Hd].
  destruct (Z.ltb_spec 1 dd); [|destruct (Z.ltb_spec 1 m)]; unfold next_day; cbn [da_y da_mo da_d].
  - split; [lia|]. replace (dd - 1 <? days_in_month y m) with true by lia. f_equal; lia.
  - pose proof (days_in_month_range y (m - 1)). split; [lia|].
    rewrite Z.ltb_irrefl. replace (m - 1 <? 12) with true by lia. f_equal; lia.
  - split; [cbn; lia|]. cbn. f_equal; lia.
Qed.

Lemma prev_day_ok d : cal_ok d -> cal_ok (prev_day d) /\ dnum (prev_day d) = dnum d - 1.
Proof.
  intros H. destruct (next_prev d H) as [H1 H2]. split; [assumption|].
  destruct (next_day_ok _ H1) as [_ H3]. rewrite H2 in H3. lia.
Qed.

Lemma add_days_ok d n : cal_ok d -> cal_ok (add_days d n) /\ dnum (add_days d n) = dnum d + n.
Proof.
  intros H. destruct n as [|p|p]; cbn [add_days].
  - split; [assumption|lia].
  - induction p as [|p [IH1 IH2]] using Pos.peano_ind.
    + cbn [Pos.iter]. destruct (next_day_ok _ H). split; [assumption|lia].
    + rewrite Pos.iter_succ. destruct (next_day_ok _ IH1). split; [assumption|]. lia.
  - induction p as [|p [IH1 IH2]] using Pos.peano_ind.
    + cbn [Pos.iter]. destruct (prev_day_ok _ H). split; [assumption|lia].
    + rewrite Pos.iter_succ. destruct (prev_day_ok _ IH1). split; [assumption|]. lia.
Qed.

(** day_number is strictly increasing in the (year, month, day) order, so it identifies a date. *)
Lemma dbm_vals : days_before_month 1 = 0 /\ days_before_month 2 = 31 /\ days_before_month 3 = 59 /\
  days_before_month 4 = 90 /\ days_before_month 5 = 120 /\ days_before_month 6 = 151 /\
  days_before_month 7 = 181 /\ days_before_month 8 = 212 /\ days_before_month 9 = 243 /\
  days_before_month 10 = 273 /\ days_before_month 11 = 304 /\ days_before_month 12 = 334.
Proof. repeat split. Qed.

Lemma dbm_range y m d : 1 <= m <= 12 -> 1 <= d <= days_in_month y m ->
  1 <= days_before_month m + (if (2 <? m) && leap y then 1 else 0) + d <= 365 + (if leap y then 1 else 0).
Proof.
  pose proof dbm_vals as DV. unfold days_in_month. intros Hm Hd.
  month_cases m Hm; subst m; cbn [Z.eqb Pos.eqb orb] in Hd; revert Hd; destruct (leap y); intros Hd; cbn [Z.ltb Z.compare Pos.compare Pos.compare_cont andb]; lia.
Qed.

Lemma dbm_mono y m m' d d' : 1 <= m -> m < m' -> m' <= 12 -> 1 <= d <= days_in_month y m -> 1 <= d' ->
  days_before_month m + (if (2 <? m) && leap y then 1 else 0) + d <
  days_before_month m' + (if (2 <? m') && leap y then 1 else 0) + d'.
Proof.
  pose proof dbm_vals as DV. intros H1 H2 H3 Hd Hd'.
  assert (Hm' : 1 <= m' <= 12) by lia. assert (Hm : 1 <= m <= 12) by lia.
  unfold days_in_month in Hd.
  month_cases m' Hm'; subst m'; month_cases m Hm; subst m; try lia;
    cbn [Z.eqb Pos.eqb orb] in Hd; revert Hd; destruct (leap y); intros Hd; cbn [Z.ltb Z.compare Pos.compare Pos.compare_cont andb]; lia.
Qed.

Lemma day_number_lead y m d :
  day_number y m d = 365 * (y - 1) + ((y - 1) / 4 - (y - 1) / 100 + (y - 1) / 400) +
    (days_before_month m + (if (2 <? m) && leap y then 1 else 0) + d).
Proof. unfold day_number, leap. rewrite andb_assoc. lia. Qed.

Lemma year_start_step y : 365 * y + (y / 4 - y / 100 + y / 400) =
  365 * (y - 1) + ((y - 1) / 4 - (y - 1) / 100 + (y - 1) / 400) + 365 + (if leap y then 1 else 0).
Proof. unfold leap. pose proof (leap_step y). lia. Qed.

Lemma year_start_mono a b : a <= b ->
  365 * a + (a / 4 - a / 100 + a / 400) <= 365 * b + (b / 4 - b / 100 + b / 400).
Proof. intros H. lia. Qed.

Lemma dnum_lt d d' : cal_ok d -> cal_ok d' -> da_y d < da_y d' -> dnum d < dnum d'.
Proof.
  destruct d as [y m x], d' as [y' m' x']. unfold cal_ok, dnum. cbn [da_y da_mo da_d]. intros [H1 H2] [H3 H4] H.
  rewrite !day_number_lead.
  pose proof (dbm_range y m x H1 H2). pose proof (dbm_range y' m' x' H3 H4).
  pose proof (year_start_step y). pose proof (year_start_mono y (y' - 1)). lia.
Qed.

Lemma dnum_inj d d' : cal_ok d -> cal_ok d' -> dnum d = dnum d' -> d = d'.
Proof.
  intros H H' E. destruct (Z.lt_trichotomy (da_y d) (da_y d')) as [L|[L|L]].
  - pose proof (dnum_lt d d' H H' L). lia.
  - destruct d as [y m x], d' as [y' m' x']. unfold cal_ok, dnum in *. cbn [da_y da_mo da_d] in *. subst y'.
    rewrite !day_number_lead in E. destruct H as [H1 H2], H' as [H3 H4].
    destruct (Z.lt_trichotomy m m') as [M|[M|M]].
    + pose proof (dbm_mono y m m' x x' ltac:(lia) M ltac:(lia) H2 ltac:(lia)). lia.
    + subst m'. f_equal. lia.
    + pose proof (dbm_mono y m' m x' x ltac:(lia) M ltac:(lia) H4 ltac:(lia)). lia.
  - pose proof (dnum_lt d' d H' H L). lia.
Qed.

(** ** datetime + timedelta *)
Lemma valid_dt_ranges t : valid_dt t = true ->
  1 <= dt_y t <= 9999 /\ 1 <= dt_mo t <= 12 /\ 1 <= dt_d t <= days_in_month (dt_y t) (dt_mo t) /\
  0 <= dt_h t < 24 /\ 0 <= dt_mi t < 60 /\ 0 <= dt_s t < 60 /\ 0 <= dt_us t < 1000000.
Proof.
  unfold valid_dt. intros H. apply andb_prop in H as [H1 H2]. apply valid_date_ranges in H1.
  unfold valid_time in H2. rewrite !andb_true_iff in H2. destruct t; cbn in *. lia.
Qed.
Lemma valid_dt_intro t :
  1 <= dt_y t <= 9999 -> 1 <= dt_mo t <= 12 -> 1 <= dt_d t <= days_in_month (dt_y t) (dt_mo t) ->
  0 <= dt_h t < 24 -> 0 <= dt_mi t < 60 -> 0 <= dt_s t < 60 -> 0 <= dt_us t < 1000000 ->
  valid_dt t = true.
Proof.
  intros. unfold valid_dt, valid_date, valid_time. destruct t; cbn in *. lia.
Qed.

Lemma add_minutes_spec t n t' : valid_dt t = true -> add_minutes t n = Ok t' ->
  valid_dt t' = true /\ minute_number t' = minute_number t + n /\ dt_s t' = dt_s t /\ dt_us t' = dt_us t.
Proof.
  intros V H. apply valid_dt_ranges in V. destruct V as (Y & M & D & Hh & Hmi & Hs & Hus).
  unfold add_minutes in H.
  set (m := dt_h t * 60 + dt_mi t + n) in *.
  destruct (add_days_ok (date_of t) (m / 1440)) as [[C1 C2] N].
  { split; cbn; assumption. }
  set (dd := add_days (date_of t) (m / 1440)) in *.
  destruct ((1 <=? da_y dd) && (da_y dd <=? 9999)) eqn:E; [|discriminate].
  injection H as <-. cbn [dt_y dt_mo dt_d dt_h dt_mi dt_s dt_us].
  repeat split.
  - apply valid_dt_intro; cbn [dt_y dt_mo dt_d dt_h dt_mi dt_s dt_us]; try assumption; try lia.
  - unfold minute_number. cbn [dt_y dt_mo dt_d dt_h dt_mi].
    unfold dnum in N. cbn [date_of da_y da_mo da_d] in N. rewrite N.
    set (q := day_number _ _ _). assert (Em : m = dt_h t * 60 + dt_mi t + n) by reflexivity. clearbody q m.
    clear - Em.
    assert (m mod 1440 / 60 * 60 + m mod 60 = m mod 1440) by lia. lia.
Qed.

Lemma add_minutes_total t n y : valid_dt t = true -> 0 <= n -> dt_y t <= y -> y < 9999 ->
  n <= 1440 * 365 -> exists t', add_minutes t n = Ok t'.
Proof.
  intros V Hn Hy Hy9 Hn2. apply valid_dt_ranges in V. destruct V as (Y & M & D & Hh & Hmi & Hs & Hus).
  unfold add_minutes. set (m := dt_h t * 60 + dt_mi t + n).
  destruct (add_days_ok (date_of t) (m / 1440)) as [C N]; [split; cbn; assumption|].
  set (dd := add_days (date_of t) (m / 1440)) in *.
  assert (Hlo : da_y (date_of t) <= da_y dd).
  { destruct (Z.le_gt_cases (da_y (date_of t)) (da_y dd)); [assumption|].
    assert (CT : cal_ok (date_of t)) by (split; cbn; assumption).
    pose proof (dnum_lt dd (date_of t) C CT ltac:(lia)). assert (0 <= m / 1440) by lia. lia. }
  assert (Hhi : da_y dd <= dt_y t + 1).
  { destruct (Z.le_gt_cases (da_y dd) (dt_y t + 1)); [assumption|].
    unfold dnum in N. rewrite !day_number_lead in N. destruct C as [C1 C2].
    pose proof (dbm_range _ _ _ C1 C2).
    pose proof (dbm_range (da_y (date_of t)) (da_mo (date_of t)) (da_d (date_of t)) ltac:(cbn; assumption) ltac:(cbn; assumption)).
    pose proof (year_start_step (dt_y t)). pose proof (year_start_step (dt_y t + 1)).
    pose proof (year_start_mono (dt_y t + 1) (da_y dd - 1)).
    replace (dt_y t + 1 - 1) with (dt_y t) in * by lia.
    cbn [date_of da_y da_mo da_d] in *. assert (m / 1440 <= 365) by lia.
    destruct (leap (dt_y t)), (leap (dt_y t + 1)); lia. }
  cbn [date_of da_y] in Hlo.
  replace ((1 <=? da_y dd) && (da_y dd <=? 9999)) with true by lia. eexists; reflexivity.
Qed.

Lemma add_minutes_complete t n u : valid_dt t = true -> valid_dt u = true -> minute_number u = minute_number t + n ->
  dt_s u = dt_s t -> dt_us u = dt_us t -> add_minutes t n = Ok u.
Proof.
  intros V VU EM ES EU. apply valid_dt_ranges in V. destruct V as (Y & M & D & Hh & Hmi & Hs & Hus).
  apply valid_dt_ranges in VU. destruct VU as (Y' & M' & D' & Hh' & Hmi' & _ & _).
  unfold add_minutes. set (m := dt_h t * 60 + dt_mi t + n).
  destruct (add_days_ok (date_of t) (m / 1440)) as [C N]; [split; cbn; assumption|].
  set (dd := add_days (date_of t) (m / 1440)) in *.
  assert (Em : m = dt_h t * 60 + dt_mi t + n) by reflexivity. clearbody m.
  assert (K : day_number (dt_y u) (dt_mo u) (dt_d u) = day_number (dt_y t) (dt_mo t) (dt_d t) + m / 1440 /\
              m mod 1440 = dt_h u * 60 + dt_mi u).
  { unfold minute_number in EM. generalize dependent (day_number (dt_y u) (dt_mo u) (dt_d u)). intros a.
    generalize dependent (day_number (dt_y t) (dt_mo t) (dt_d t)). intros b. intros.
    clear - EM Em Hh' Hmi'. lia. }
  destruct K as [K1 K2].
  assert (ED : dd = date_of u).
  { apply dnum_inj; [exact C|split; cbn; assumption|]. rewrite N. unfold dnum. cbn [date_of da_y da_mo da_d]. lia. }
  rewrite ED. cbn [date_of da_y da_mo da_d]. replace ((1 <=? dt_y u) && (dt_y u <=? 9999)) with true by lia.
  replace (m mod 60) with (dt_mi u) by (clear - K2 Hmi' Hh'; lia). rewrite K2.
  replace ((dt_h u * 60 + dt_mi u) / 60) with (dt_h u) by (clear - Hmi'; lia). rewrite <- ES, <- EU.
  destruct u; reflexivity.
Qed.

(** ** strptime on well-formed digit strings *)
Definition dwidth (d : directive) : nat := match d with DY => 4 | _ => 2 end%nat.
Definition in_dir (d : directive) (v : Z) : Prop :=
  match d with
  | DY => 0 <= v <= 9999
  | Dy => 0 <= v <= 99
  | Dm => 1 <= v <= 12
  | Dd => 1 <= v <= 31
  | DH => 0 <= v <= 23
  | DM => 0 <= v <= 59
  end.

Ltac enum v k :=
  let E := fresh in
  assert (E : In v (map Z.of_nat (seq 0 k))) by
    (apply in_map_iff; exists (Z.to_nat v); split; [lia|]; apply in_seq; lia);
  cbn in E.

Lemma alts_first d v rest : in_dir d v ->
  exists tl, alts d (fixed (dwidth d) v ++ rest) = (v, rest) :: tl.
Proof.
  destruct d; cbn [in_dir dwidth]; intros H.
  - cbn [fixed app alts]. unfold is_digit.
    match goal with |- context [if ?b then _ else _] => replace b with true by lia end.
    exists []. f_equal. f_equal. lia.
  - cbn [fixed app alts two]. unfold is_digit.
    match goal with |- context [if ?b then _ else _] => replace b with true by lia end.
    exists []. f_equal. f_equal. lia.
  - enum v 13%nat. repeat match goal with H : _ \/ _ |- _ => destruct H as [<-|H] | H : False |- _ => destruct H end;
      try lia; cbn; eexists; reflexivity.
  - enum v 32%nat. repeat match goal with H : _ \/ _ |- _ => destruct H as [<-|H] | H : False |- _ => destruct H end;
      try lia; cbn; eexists; reflexivity.
  - enum v 24%nat. repeat match goal with H : _ \/ _ |- _ => destruct H as [<-|H] | H : False |- _ => destruct H end;
      try lia; cbn; eexists; reflexivity.
  - enum v 60%nat. repeat match goal with H : _ \/ _ |- _ => destruct H as [<-|H] | H : False |- _ => destruct H end;
      try lia; cbn; eexists; reflexivity.
Qed.

Definition pieces (ds : list directive) (vs : list Z) : str :=
  concat (map (fun '(d, v) => fixed (dwidth d) v) (combine ds vs)).

Lemma match_pieces ds vs rest : Forall2 in_dir ds vs ->
  match_fmt ds (pieces ds vs ++ rest) = Some (vs, rest).
Proof.
  intros H. revert rest. induction H as [|d v ds vs Hd H IH]; intros rest; [reflexivity|].
  unfold pieces. cbn [combine map concat match_fmt]. rewrite <- app_assoc.
  destruct (alts_first d v (pieces ds vs ++ rest) Hd) as [tl E]. fold (pieces ds vs). rewrite E.
  cbn [find_map]. rewrite IH. reflexivity.
Qed.

Lemma strptime_pieces ds vs : Forall2 in_dir ds vs ->
  strptime ds (pieces ds vs) =
    let t := fold_left set_field (combine ds vs) (mk_dt 1900 1 1 0 0 0 0) in
    if valid_dt t then Ok t else Err ValueError.
Proof.
  intros H. unfold strptime. rewrite <- (app_nil_r (pieces ds vs)), match_pieces by assumption. reflexivity.
Qed.

(** ** Encodings *)
Ltac p10 := change (10 ^ Z.of_nat 2) with 100 in *; change (10 ^ Z.of_nat 4) with 10000 in *;
            change (10 ^ Z.of_nat 6) with 1000000 in *; change (10 ^ Z.of_nat 8) with 100000000 in *;
            change (10 ^ Z.of_nat 10) with 10000000000 in *.

Lemma enc_ymd t : valid_dt t = true ->
  py_int (strftime fmt_ymd t) = Ok (dt_y t mod 100 * 10000 + dt_mo t * 100 + dt_d t).
Proof.
  intros V. apply valid_dt_ranges in V. pose proof (days_in_month_range (dt_y t) (dt_mo t)).
  unfold strftime, fmt_ymd. cbn [map strf1 concat]. rewrite app_nil_r.
  rewrite !(fmt_d_fixed 2) by (p10; lia). rewrite !fixed_app by (p10; lia).
  rewrite py_int_fixed by lia. p10. rewrite Z.mod_small by (cbn; lia). f_equal. lia.
Qed.

Lemma enc_mdyHM t : valid_dt t = true ->
  py_int (strftime fmt_mdyHM t) =
    Ok (dt_mo t * 100000000 + dt_d t * 1000000 + dt_y t mod 100 * 10000 + dt_h t * 100 + dt_mi t).
Proof.
  intros V. apply valid_dt_ranges in V. pose proof (days_in_month_range (dt_y t) (dt_mo t)).
  unfold strftime, fmt_mdyHM. cbn [map strf1 concat]. rewrite app_nil_r.
  rewrite !(fmt_d_fixed 2) by (p10; lia).
  rewrite (fixed_app 2 2 (dt_h t)) by (p10; lia). p10.
  rewrite (fixed_app 2 (2 + 2)) by (change (10 ^ Z.of_nat (2 + 2)) with 10000; lia).
  change (10 ^ Z.of_nat (2 + 2)) with 10000. change (2 + (2 + 2))%nat with 6%nat.
  rewrite (fixed_app 2 6) by (p10; lia). p10.
  rewrite (fixed_app 2 (2 + 6)) by (change (10 ^ Z.of_nat (2 + 6)) with 100000000; lia).
  change (10 ^ Z.of_nat (2 + 6)) with 100000000. change (2 + (2 + 6))%nat with 10%nat.
  rewrite py_int_fixed by lia. p10. rewrite Z.mod_small by lia. f_equal. lia.
Qed.

Lemma enc_HM t : valid_dt t = true -> py_int (strftime fmt_HM t) = Ok (dt_h t * 100 + dt_mi t).
Proof.
  intros V. apply valid_dt_ranges in V. unfold strftime, fmt_HM. cbn [map strf1 concat]. rewrite app_nil_r.
  apply py_int_fmt_pair; lia.
Qed.

Definition window_year (y : Z) : Z := if y mod 100 <=? 68 then 2000 + y mod 100 else 1900 + y mod 100.
Lemma window_year_id y : in_window y -> window_year y = y.
Proof. unfold in_window, window_year. intros H. destruct (Z.leb_spec (y mod 100) 68); lia. Qed.

(** decoding an analysis date *)
Lemma dattim_analysis y mo d : 1 <= mo <= 12 -> 1 <= d <= 31 ->
  convert_dattim (y mod 100 * 10000 + mo * 100 + d) =
    let t := mk_dt (window_year y) mo d 0 0 0 0 in
    if valid_dt t then Ok (Some t) else Err ValueError.
Proof.
  intros Hm Hd. unfold convert_dattim.
  set (n := y mod 100 * 10000 + mo * 100 + d).
  replace (n =? 0) with false by lia. cbn [negb]. replace (n <? 100000000) with true by lia.
  assert (E : fmt_d 6 n = pieces fmt_ymd [y mod 100; mo; d]).
  { rewrite fmt_d_fixed by (p10; lia). unfold pieces, fmt_ymd. cbn [combine map concat dwidth].
    rewrite app_nil_r. rewrite !fixed_app by (p10; lia). cbn [Nat.add]. p10. f_equal. lia. }
  rewrite E, strptime_pieces.
  - cbn [combine fmt_ymd fold_left set_field]. unfold window_year.
    cbv zeta. match goal with |- context [if valid_dt ?t then _ else _] => destruct (valid_dt t) end; reflexivity.
  - repeat constructor; cbn; lia.
Qed.

Lemma dattim_forecast mo d y h mi : 1 <= mo <= 12 -> 1 <= d <= 31 -> 0 <= h <= 23 -> 0 <= mi <= 59 ->
  convert_dattim (mo * 100000000 + d * 1000000 + y mod 100 * 10000 + h * 100 + mi) =
    let t := mk_dt (window_year y) mo d h mi 0 0 in
    if valid_dt t then Ok (Some t) else Err ValueError.
Proof.
  intros Hm Hd Hh Hmi. unfold convert_dattim.
  set (n := mo * 100000000 + d * 1000000 + y mod 100 * 10000 + h * 100 + mi).
  replace (n =? 0) with false by lia. cbn [negb]. replace (n <? 100000000) with false by lia.
  assert (E : fmt_d 10 n = pieces fmt_mdyHM [mo; d; y mod 100; h; mi]).
  { rewrite fmt_d_fixed by (p10; lia). unfold pieces, fmt_mdyHM. cbn [combine map concat dwidth].
    rewrite app_nil_r.
    rewrite (fixed_app 2 2 h) by (p10; lia). p10.
    rewrite (fixed_app 2 (2 + 2)) by (change (10 ^ Z.of_nat (2 + 2)) with 10000; lia).
    change (10 ^ Z.of_nat (2 + 2)) with 10000. change (2 + (2 + 2))%nat with 6%nat.
    rewrite (fixed_app 2 6) by (p10; lia). p10.
    rewrite (fixed_app 2 (2 + 6)) by (change (10 ^ Z.of_nat (2 + 6)) with 100000000; lia).
    change (10 ^ Z.of_nat (2 + 6)) with 100000000. change (2 + (2 + 6))%nat with 10%nat. f_equal. lia. }
  rewrite E, strptime_pieces.
  - cbn [combine fmt_mdyHM fold_left set_field]. unfold window_year.
    cbv zeta. match goal with |- context [if valid_dt ?t then _ else _] => destruct (valid_dt t) end; reflexivity.
  - repeat constructor; cbn; lia.
Qed.

Lemma dec_time_HM h mi : 0 <= h <= 23 -> 0 <= mi <= 59 -> dec_time (h * 100 + mi) = Ok (mk_time h mi 0 0).
Proof.
  intros Hh Hmi. unfold dec_time.
  assert (E : fmt_d 4 (h * 100 + mi) = pieces fmt_HM [h; mi]).
  { rewrite fmt_d_fixed by (p10; lia). unfold pieces, fmt_HM. cbn [combine map concat dwidth].
    rewrite app_nil_r, fixed_app by (p10; lia). reflexivity. }
  rewrite E, strptime_pieces by (repeat constructor; cbn; lia).
  cbn [combine fmt_HM fold_left set_field]. rewrite valid_dt_intro; cbn; try lia. reflexivity.
Qed.

(** Row dates and times *)
Lemma valid_dt_of_date d : valid_date d = true -> valid_dt (combine_dt d (mk_time 0 0 0 0)) = true.
Proof. intros H. unfold valid_dt. apply andb_true_intro. split; [destruct d; exact H|reflexivity]. Qed.
Lemma valid_dt_of_time t : valid_time t = true -> valid_dt (combine_dt (mk_date 1900 1 1) t) = true.
Proof. intros H. unfold valid_dt. destruct t; cbn in *. exact H. Qed.

Lemma enc_date_val d : valid_date d = true ->
  enc_date d = Ok (da_y d mod 100 * 10000 + da_mo d * 100 + da_d d).
Proof. intros H. unfold enc_date. rewrite enc_ymd by (apply valid_dt_of_date, H). reflexivity. Qed.
Lemma enc_time_val t : valid_time t = true -> enc_time t = Ok (ti_h t * 100 + ti_mi t).
Proof. intros H. unfold enc_time. rewrite enc_HM by (apply valid_dt_of_time, H). reflexivity. Qed.

Lemma row_date_roundtrip d : valid_date d = true -> in_window (da_y d) ->
  (z <- enc_date d ;; dec_date z) = Ok d.
Proof.
  intros V W. rewrite enc_date_val by assumption. cbn [bind]. apply valid_date_ranges in V as V'.
  pose proof (days_in_month_range (da_y d) (da_mo d)).
  unfold dec_date. rewrite dattim_analysis by lia. rewrite window_year_id by assumption. cbv zeta.
  change (mk_dt (da_y d) (da_mo d) (da_d d) 0 0 0 0) with (combine_dt d (mk_time 0 0 0 0)).
  rewrite valid_dt_of_date by assumption. cbn [bind]. destruct d; reflexivity.
Qed.
Lemma row_time_roundtrip t : valid_time t = true ->
  (z <- enc_time t ;; dec_time z) = Ok (mk_time (ti_h t) (ti_mi t) 0 0).
Proof.
  intros V. rewrite enc_time_val by assumption. cbn [bind]. unfold valid_time in V. rewrite !andb_true_iff in V.
  apply dec_time_HM; lia.
Qed.
