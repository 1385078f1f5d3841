(** Facts about the selections. *)
From Coq Require Import Lia ZifyBool ZifyNat QArith Sorted.
From Verif Require Import Base BaseFacts Floats Strings StringsFacts Dates SpecDates DatesFacts Headers Order OrderFacts DmFile DmHookFacts
  Station Text StationRead StationFacts HistoryFacts CallFacts StationCellFacts Grid GridRead GridHistoryFacts Query SpecQuery.
Open Scope Z_scope.
Ltac Zify.zify_post_hook ::= Z.div_mod_to_equations.

(** ** Times *)
Lemma valid_cal t : valid_dt t = true -> cal_ok (date_of t) /\ valid_time (time_of t) = true /\ dnum (date_of t) = day_number (dt_y t) (dt_mo t) (dt_d t).
Proof.
  intros H. unfold valid_dt in H. apply andb_prop in H as [H1 H2]. split; [|split; [exact H2|reflexivity]].
  unfold cal_ok. unfold valid_date in H1. lia.
Qed.
Lemma date_cmp_dnum d d' : cal_ok d -> cal_ok d' -> date_cmp d d' = (dnum d ?= dnum d').
Proof.
  intros H H'. symmetry. unfold date_cmp, then_cmp.
  destruct (Z.compare_spec (da_y d) (da_y d')) as [E|E|E].
  - destruct d as [y m x], d' as [y' m' x']. unfold cal_ok, dnum in *. cbn [da_y da_mo da_d] in *. subst y'.
    rewrite !day_number_lead. destruct H as [H1 H2], H' as [H3 H4].
    destruct (Z.compare_spec m m') as [M|M|M].
    + subst m'. destruct (Z.compare_spec x x') as [X|X|X]; [apply Z.compare_eq_iff|apply Z.compare_lt_iff|apply Z.compare_gt_iff]; lia.
    + pose proof (dbm_mono y m m' x x' ltac:(lia) M ltac:(lia) H2 ltac:(lia)). apply Z.compare_lt_iff. lia.
    + pose proof (dbm_mono y m' m x' x ltac:(lia) M ltac:(lia) H4 ltac:(lia)). apply Z.compare_gt_iff. lia.
  - pose proof (dnum_lt d d' H H' E). apply Z.compare_lt_iff. lia.
  - pose proof (dnum_lt d' d H' H E). apply Z.compare_gt_iff. lia.
Qed.
Lemma dtime_cmp_instant a b : valid_dt a = true -> valid_dt b = true -> dtime_cmp a b = (instant a ?= instant b).
Proof.
  intros Ha Hb. destruct (valid_cal a Ha) as (A1 & A2 & A3), (valid_cal b Hb) as (B1 & B2 & B3).
  unfold dtime_cmp. rewrite (date_cmp_dnum _ _ A1 B1), A3, B3. unfold instant, minute_number.
  generalize (day_number (dt_y a) (dt_mo a) (dt_d a)) (day_number (dt_y b) (dt_mo b) (dt_d b)). intros x y.
  unfold valid_time in *. unfold time_of in *. cbn [ti_h ti_mi ti_s ti_us] in *. unfold time_cmp, then_cmp. cbn [ti_h ti_mi ti_s ti_us].
  clear - A2 B2.
  destruct (Z.compare_spec x y) as [E|E|E]; [|symmetry; apply Z.compare_lt_iff; lia|symmetry; apply Z.compare_gt_iff; lia].
  destruct (Z.compare_spec (dt_h a) (dt_h b)); [|symmetry; apply Z.compare_lt_iff; lia|symmetry; apply Z.compare_gt_iff; lia].
  destruct (Z.compare_spec (dt_mi a) (dt_mi b)); [|symmetry; apply Z.compare_lt_iff; lia|symmetry; apply Z.compare_gt_iff; lia].
  destruct (Z.compare_spec (dt_s a) (dt_s b)); [|symmetry; apply Z.compare_lt_iff; lia|symmetry; apply Z.compare_gt_iff; lia].
  destruct (Z.compare_spec (dt_us a) (dt_us b)); symmetry; [apply Z.compare_eq_iff|apply Z.compare_lt_iff|apply Z.compare_gt_iff]; lia.
Qed.
Lemma dtime_eqb_spec a b : dtime_eqb a b = true <-> a = b.
Proof.
  unfold dtime_eqb. split; [|intros ->].
  - intros H. apply is_eq_true in H. unfold dtime_cmp, date_cmp, time_cmp in H.
    rewrite !then_cmp_eq in H. unfold date_of, time_of in H. cbn [da_y da_mo da_d ti_h ti_mi ti_s ti_us] in H.
    destruct H as ((H1 & H2 & H3) & H4 & H5 & H6 & H7). apply Z.compare_eq_iff in H1, H2, H3, H4, H5, H6, H7.
    destruct a, b; cbn in *; congruence.
  - unfold dtime_cmp. rewrite (gc_refl good_date), (gc_refl good_time). reflexivity.
Qed.
Lemma toordinal_spec y m d : 1 <= m <= 12 -> toordinal y m d = day_number y m d.
Proof.
  intros H. unfold toordinal, days_before_year, day_number. fold (leap y).
  assert (E : month_start y m = days_before_month m + (if (2 <? m) && (y mod 4 =? 0) && (negb (y mod 100 =? 0) || (y mod 400 =? 0)) then 1 else 0)).
  { rewrite <- andb_assoc. change ((y mod 4 =? 0) && (negb (y mod 100 =? 0) || (y mod 400 =? 0))) with (leap y).
    unfold month_start.
    month_cases m H; subst m; match goal with |- context [zrange ?e] => let l := eval vm_compute in (zrange e) in change (zrange e) with l end;
      cbn [map fold_right]; unfold days_in_month; destruct (leap y); vm_compute; reflexivity. }
  rewrite E. lia.
Qed.
Lemma microseconds_spec t : valid_dt t = true -> microseconds t = instant t.
Proof.
  intros H. destruct (valid_cal t H) as ((H1 & _) & _ & _). unfold date_of in H1. cbn [da_mo] in H1.
  unfold microseconds, instant, minute_number. rewrite toordinal_spec by exact H1. lia.
Qed.

(** ** Extreme times *)
Definition all_valid (l : list dtime) : Prop := Forall (fun t => valid_dt t = true) l.
Lemma later_spec x y : valid_dt x = true -> valid_dt y = true ->
  (later x y = x /\ instant y <= instant x) \/ (later x y = y /\ instant x <= instant y).
Proof.
  intros Hx Hy. unfold later. rewrite (dtime_cmp_instant _ _ Hy Hx).
  destruct (Z.compare_spec (instant y) (instant x)); [left|left|right]; (split; [reflexivity|lia]).
Qed.
Lemma earlier_spec x y : valid_dt x = true -> valid_dt y = true ->
  (earlier x y = x /\ instant x <= instant y) \/ (earlier x y = y /\ instant y <= instant x).
Proof.
  intros Hx Hy. unfold earlier. rewrite (dtime_cmp_instant _ _ Hy Hx).
  destruct (Z.compare_spec (instant y) (instant x)); [left|right|left]; (split; [reflexivity|lia]).
Qed.
Lemma max_fold l : forall x, valid_dt x = true -> all_valid l ->
  In (fold_left later l x) (x :: l) /\ forall u, In u (x :: l) -> instant u <= instant (fold_left later l x).
Proof.
  induction l as [|y l IH]; intros x Hx Hl; cbn [fold_left].
  - split; [left; reflexivity|]. intros u [<-|[]]. lia.
  - inversion Hl as [|y' l' Hy Hl']; subst.
    destruct (later_spec x y Hx Hy) as [[-> E]|[-> E]]; [destruct (IH x Hx Hl') as [I1 I2]|destruct (IH y Hy Hl') as [I1 I2]];
      (split; [destruct I1 as [I1|I1]; [rewrite <- I1; auto using in_eq, in_cons|right; right; exact I1]|]).
    + intros u [<-|[<-|H]]; [apply I2; left; reflexivity| |apply I2; right; exact H]. specialize (I2 x (or_introl eq_refl)). lia.
    + intros u [<-|[<-|H]]; [specialize (I2 y (or_introl eq_refl)); lia|apply I2; left; reflexivity|apply I2; right; exact H].
Qed.
Lemma min_fold l : forall x, valid_dt x = true -> all_valid l ->
  In (fold_left earlier l x) (x :: l) /\ forall u, In u (x :: l) -> instant (fold_left earlier l x) <= instant u.
Proof.
  induction l as [|y l IH]; intros x Hx Hl; cbn [fold_left].
  - split; [left; reflexivity|]. intros u [<-|[]]. lia.
  - inversion Hl as [|y' l' Hy Hl']; subst.
    destruct (earlier_spec x y Hx Hy) as [[-> E]|[-> E]]; [destruct (IH x Hx Hl') as [I1 I2]|destruct (IH y Hy Hl') as [I1 I2]];
      (split; [destruct I1 as [I1|I1]; [rewrite <- I1; auto using in_eq, in_cons|right; right; exact I1]|]).
    + intros u [<-|[<-|H]]; [apply I2; left; reflexivity| |apply I2; right; exact H]. specialize (I2 x (or_introl eq_refl)). lia.
    + intros u [<-|[<-|H]]; [specialize (I2 y (or_introl eq_refl)); lia|apply I2; left; reflexivity|apply I2; right; exact H].
Qed.
Lemma instant_inj a b : valid_dt a = true -> valid_dt b = true -> instant a = instant b -> a = b.
Proof.
  intros Ha Hb E. apply dtime_eqb_spec. unfold dtime_eqb. rewrite (dtime_cmp_instant _ _ Ha Hb), E, Z.compare_refl. reflexivity.
Qed.

Lemma existsb_in {A} (eqb : A -> A -> bool) (spec : forall x y, eqb x y = true <-> x = y) x l : existsb (eqb x) l = true <-> In x l.
Proof.
  rewrite existsb_exists. split.
  - intros (y & Hy & E). apply spec in E. subst. exact Hy.
  - intros H. exists x. split; [exact H|]. apply spec. reflexivity.
Qed.
Lemma words_not_times : forall i t, means_first i \/ means_last i -> ~ means i t.
Proof.
  intros i t [[->| ->]|[->| ->]] H; unfold means in H; vm_compute in H; discriminate H.
Qed.
Lemma word_tests s :
  (str_eqb s w_last || str_eqb s w_LAST = true <-> means_last (TStr s)) /\
  (str_eqb s w_first || str_eqb s w_FIRST = true <-> means_first (TStr s)).
Proof.
  unfold means_last, means_first. rewrite !orb_true_iff, !str_eqb_spec.
  split; (split; [intros [->| ->]; auto|intros [[= ->]|[= ->]]; auto]).
Qed.
Lemma last_not_first i : means_last i -> ~ means_first i.
Proof. intros [->| ->] [H|H]; discriminate H. Qed.

(** The times a time argument stands for. *)
Lemma parse_item_spec i t : parse_item i = Ok t <-> means i t.
Proof. unfold parse_item, means. destruct i; [|reflexivity]. split; [intros [= ->]; reflexivity|intros ->; reflexivity]. Qed.
Lemma parse_items_in l ts t : mapM parse_item l = Ok ts -> (In t ts <-> exists i, In i l /\ means i t).
Proof.
  intros H. apply mapM_ok_Forall2 in H. split.
  - intros Ht. induction H as [|i u l ts H1 H2 IH]; [destruct Ht|]. destruct Ht as [->|Ht].
    + exists i. split; [left; reflexivity|]. apply parse_item_spec, H1.
    + destruct (IH Ht) as (j & J1 & J2). exists j. split; [right; exact J1|exact J2].
  - intros (i & Hi & Hm). apply parse_item_spec in Hm. induction H as [|j u l ts H1 H2 IH]; [destruct Hi|].
    destruct Hi as [->|Hi]; [left; congruence|right; exact (IH Hi)].
Qed.
Definition sel_of (s : option (some_of titem)) : res (option tsel) := option_res parse_times s.
Lemma time_filter all arg s ts t : all_valid all -> In t all ->
  option_res parse_times arg = Ok s -> option_res (resolve all) s = Ok ts ->
  (match ts with None => True | Some l => existsb (dtime_eqb t) l = true end <-> time_accepted all arg t).
Proof.
  intros HV HT HP HR. unfold all_valid in HV. rewrite Forall_forall in HV.
  destruct arg as [[i|l]|]; cbn [option_res] in HP.
  2: { cbn [parse_times] in HP. destruct (mapM parse_item l) as [us|] eqn:EM; cbn [bind] in HP; [|discriminate HP].
       apply ok_inj in HP. subst s. cbn [option_res resolve bind] in HR. apply ok_inj in HR. subst ts.
       rewrite (existsb_in _ dtime_eqb_spec). cbn [time_accepted accepts]. apply parse_items_in, EM. }
  2: { apply ok_inj in HP. subst s. apply ok_inj in HR. subst ts. cbn. tauto. }
  assert (EXT : forall m, (max_time all = Ok m ->
            (forall u, In u all -> instant u <= instant m) /\ In m all) /\
           (min_time all = Ok m ->
            (forall u, In u all -> instant m <= instant u) /\ In m all)).
  { intros m. destruct all as [|x r]; [split; discriminate|].
    assert (Vx : valid_dt x = true) by (apply HV; left; reflexivity). assert (Vr : all_valid r) by (apply Forall_forall; intros u Hu; apply HV; right; exact Hu).
    cbn [max_time min_time]. split; intros H; apply ok_inj in H; subst m; [destruct (max_fold r x Vx Vr)|destruct (min_fold r x Vx Vr)]; auto. }
  destruct i as [d|w].
  - cbn [parse_times bind] in HP. apply ok_inj in HP. subst s. cbn [option_res resolve bind] in HR. apply ok_inj in HR. subst ts.
    cbn [existsb]. rewrite orb_false_r, dtime_eqb_spec. cbn [time_accepted means].
    split; [intros ->; auto|]. intros [[[H|H] _]|[[[H|H] _]|H]]; try discriminate H. congruence.
  - cbn [parse_times] in HP. destruct (word_tests w) as [WL WF].
    destruct (str_eqb w w_last || str_eqb w w_LAST).
    + cbn [bind] in HP. apply ok_inj in HP. subst s. cbn [option_res resolve] in HR.
      destruct (max_time all) as [m|] eqn:EM; cbn [bind] in HR; [|discriminate HR].
      apply ok_inj in HR. subst ts. destruct (proj1 (EXT m) eq_refl) as [M1 M2]. cbn [existsb]. rewrite orb_false_r, dtime_eqb_spec.
      pose proof (proj1 WL eq_refl) as ML. split.
      * intros ->. right. left. auto.
      * intros [[F _]|[[_ F]|F]]; [destruct (last_not_first _ ML F)| |destruct (words_not_times _ _ (or_intror ML) F)].
        apply instant_inj; auto. specialize (F m M2). specialize (M1 t HT). lia.
    + destruct (str_eqb w w_first || str_eqb w w_FIRST).
      * cbn [bind] in HP. apply ok_inj in HP. subst s. cbn [option_res resolve] in HR.
        destruct (min_time all) as [m|] eqn:EM; cbn [bind] in HR; [|discriminate HR].
        apply ok_inj in HR. subst ts. destruct (proj2 (EXT m) eq_refl) as [M1 M2]. cbn [existsb]. rewrite orb_false_r, dtime_eqb_spec.
        pose proof (proj1 WF eq_refl) as MF. split.
        -- intros ->. left. auto.
        -- intros [[_ F]|[[F _]|F]]; [|destruct (last_not_first _ F MF)|destruct (words_not_times _ _ (or_introl MF) F)].
           apply instant_inj; auto. specialize (F m M2). specialize (M1 t HT). lia.
      * destruct (strptime fmt_YmdHM w) as [u|] eqn:EU; cbn [bind] in HP; [|discriminate HP].
        apply ok_inj in HP. subst s. cbn [option_res resolve bind] in HR. apply ok_inj in HR. subst ts.
        cbn [existsb]. rewrite orb_false_r, dtime_eqb_spec. cbn [time_accepted means].
        split; [intros ->; auto|]. intros [[F _]|[[F _]|F]]; [apply WF in F; discriminate F|apply WL in F; discriminate F|congruence].
Qed.
(** Usable time arguments resolve, and only those. *)
Lemma parse_items_ok l : (exists ts, mapM parse_item l = Ok ts) <-> forall i, In i l -> exists t, means i t.
Proof.
  induction l as [|i l IH]; [split; [intros _ i []|intros _; exists []; reflexivity]|]. cbn [mapM]. split.
  - intros (ts & H). destruct (parse_item i) as [t|] eqn:E; cbn [bind] in H; [|discriminate H].
    destruct (mapM parse_item l) as [us|]; cbn [bind] in H; [|discriminate H].
    intros j [<-|Hj]; [exists t; apply parse_item_spec, E|]. apply (proj1 IH); [exists us; reflexivity|exact Hj].
  - intros H. destruct (H i (or_introl eq_refl)) as (t & Ht). apply parse_item_spec in Ht. rewrite Ht. cbn [bind].
    destruct (proj2 IH (fun j Hj => H j (or_intror Hj))) as (us & ->). eexists. reflexivity.
Qed.
Lemma time_args all arg :
  (exists s ts, option_res parse_times arg = Ok s /\ option_res (resolve all) s = Ok ts) <-> time_arg_ok all arg.
Proof.
  destruct arg as [[i|l]|]; cbn [option_res time_arg_ok].
  - destruct i as [d|w].
    + cbn [parse_times bind]. split; [|intros _; do 2 eexists; split; reflexivity].
      intros _. right. split; [intros [H|H]; discriminate H|]. split; [intros [H|H]; discriminate H|]. exists d. reflexivity.
    + cbn [parse_times]. destruct (word_tests w) as [WL WF].
      destruct (str_eqb w w_last || str_eqb w w_LAST).
      { cbn [bind option_res resolve]. pose proof (proj1 WL eq_refl) as ML. split.
        - intros (s & ts & H1 & H2). left. split; [right; exact ML|]. intros ->. apply ok_inj in H1. subst s. discriminate H2.
        - intros [[_ H]|(_ & H & _)]; [|destruct (H ML)]. destruct all as [|x r]; [destruct (H eq_refl)|]. do 2 eexists. split; reflexivity. }
      destruct (str_eqb w w_first || str_eqb w w_FIRST).
      { cbn [bind option_res resolve]. pose proof (proj1 WF eq_refl) as MF. split.
        - intros (s & ts & H1 & H2). left. split; [left; exact MF|]. intros ->. apply ok_inj in H1. subst s. discriminate H2.
        - intros [[_ H]|(H & _ & _)]; [|destruct (H MF)]. destruct all as [|x r]; [destruct (H eq_refl)|]. do 2 eexists. split; reflexivity. }
      cbn [means]. split.
      * intros (s & ts & H1 & H2). right. split; [intros H; apply WF in H; discriminate H|]. split; [intros H; apply WL in H; discriminate H|].
        destruct (strptime fmt_YmdHM w) as [t|]; [|discriminate H1]. exists t. reflexivity.
      * intros [[[H|H] _]|(_ & _ & t & H)]; [apply WF in H; discriminate H|apply WL in H; discriminate H|].
        rewrite H. cbn [bind]. do 2 eexists. split; reflexivity.
  - cbn [parse_times]. rewrite <- parse_items_ok. split.
    + intros (s & ts & H & _). destruct (mapM parse_item l) as [us|]; [|discriminate H]. exists us. reflexivity.
    + intros (us & ->). cbn [bind]. do 2 eexists. split; reflexivity.
  - split; [auto|]. intros _. do 2 eexists. split; reflexivity.
Qed.

(** ** The second time *)
Lemma all_some_spec {A} (l : list (option A)) s : all_some l = Some s <-> l = map Some s.
Proof.
  revert s. induction l as [|[x|] l IH]; intros s; cbn [all_some].
  - split; [intros [= <-]; reflexivity|]. destruct s; [reflexivity|discriminate].
  - destruct (all_some l) as [r|] eqn:E.
    + split; [intros [= <-]; cbn [map]; f_equal; apply IH; reflexivity|]. destruct s as [|y s]; [discriminate|]. cbn [map]. intros [= -> ->].
      f_equal. f_equal. assert (Some r = Some s) by (apply IH; reflexivity). congruence.
    + split; [discriminate|]. destruct s as [|y s]; [discriminate|]. cbn [map]. intros [= -> ->]. assert (None = Some s) by (apply IH; reflexivity). discriminate.
  - split; [discriminate|]. destruct s; discriminate.
Qed.
Lemma all_some_none {A} (l : list (option A)) : all_some l = None -> In None l.
Proof.
  induction l as [|[x|] l IH]; cbn [all_some]; [discriminate| |left; reflexivity].
  destruct (all_some l); [discriminate|]. right. auto.
Qed.
Lemma odt_eqb_spec a b : odt_eqb a b = true <-> a = b.
Proof.
  destruct a, b; cbn [odt_eqb]; try (split; [discriminate|congruence]); [|tauto]. rewrite dtime_eqb_spec. split; congruence.
Qed.
Lemma in_map_some {A} (x : A) l : In (Some x) (map Some l) <-> In x l.
Proof. rewrite in_map_iff. split; [intros (y & [= ->] & H); exact H|intros H; exists x; auto]. Qed.

(** An extreme of second times, all present. *)
Lemma resolve_all_some all s ts2 : all_some all = Some ts2 -> (s = SelFirst \/ s = SelLast) ->
  resolve2 all s = (ts <- resolve ts2 s ;; Ok (map Some ts)).
Proof.
  intros H Hs.
  destruct Hs as [-> | ->]; unfold resolve2; rewrite H; reflexivity.
Qed.
Lemma extreme_cases (all : list (option dtime)) :
  (all = [None]) \/ (exists ts, all = map Some ts) \/ (all <> [None] /\ all_some all = None).
Proof.
  destruct (all_some all) as [ts|] eqn:E; [right; left; exists ts; apply all_some_spec, E|].
  destruct all as [|[x|] [|y r]]; try discriminate E; [right; right|left; reflexivity|right; right]; (split; [discriminate|reflexivity || exact E]).
Qed.
Lemma time2_filter all arg s ts t : Forall (fun o => match o with Some x => valid_dt x = true | None => True end) all -> In t all ->
  option_res parse_times arg = Ok s -> option_res (resolve2 all) s = Ok ts ->
  (match ts with None => True | Some l => existsb (odt_eqb t) l = true end <-> time2_accepted all arg t).
Proof.
  intros HV HT HP HR. destruct arg as [a|]; cbn [option_res] in HP.
  2: { apply ok_inj in HP. subst s. apply ok_inj in HR. subst ts. cbn. tauto. }
  destruct (parse_times a) as [s'|] eqn:EP; cbn [bind] in HP; [|discriminate HP]. apply ok_inj in HP. subst s. cbn [option_res] in HR.
  destruct (resolve2 all s') as [l|] eqn:EL; cbn [bind] in HR; [|discriminate HR]. apply ok_inj in HR. subst ts.
  rewrite (existsb_in _ odt_eqb_spec).
  assert (NT : forall l', s' = SelTimes l' -> l = map Some l') by (intros l' ->; cbn [resolve2] in EL; congruence).
  destruct a as [i|li].
  2: { cbn [parse_times] in EP. destruct (mapM parse_item li) as [us|] eqn:EM; cbn [bind] in EP; [|discriminate EP]. apply ok_inj in EP.
       rewrite (NT us (eq_sym EP)). cbn [time2_accepted]. destruct t as [t|].
       - rewrite in_map_some, (parse_items_in _ _ t EM). split; [intros (i & H1 & H2); exists t, i; auto|intros (a & i & [= <-] & H1 & H2); exists i; auto].
       - split; [rewrite in_map_iff; intros (x & H & _); discriminate H|intros (a & i & H & _); discriminate H]. }
  assert (PLAIN : forall u, s' = SelTimes [u] -> means i u -> (In t l <-> exists a, t = Some a /\ means i a)).
  { intros u E M. rewrite (NT _ E). cbn [map In]. split; [intros [<-|[]]; exists u; auto|].
    intros (a & -> & H). left. f_equal. unfold means in *. destruct i; congruence. }
  (* the extremes *)
  assert (EXTR : forall first, s' = (if first : bool then SelFirst else SelLast) -> 
     (In t l <-> forall u, In u all -> match t, u with Some a, Some b => if first then instant a <= instant b else instant b <= instant a | None, None => True | _, _ => False end)).
  { intros first E. destruct (extreme_cases all) as [EA|[(ts & EA)|[EA EB]]].
    - subst all. assert (l = [None]) as -> by (destruct first; subst s'; cbn [resolve2 all_some] in EL; congruence).
      destruct HT as [<-|[]]. cbn [In]. split; [intros _ u [<-|[]]; exact I|auto].
    - pose proof (proj2 (all_some_spec all ts) EA) as ES.
      rewrite (resolve_all_some all s' ts ES) in EL by (destruct first; auto).
      destruct (resolve ts s') as [es|] eqn:ER; cbn [bind] in EL; [|discriminate EL]. apply ok_inj in EL. subst l.
      subst all. destruct t as [t|]; [|apply in_map_iff in HT as (x & HX & _); discriminate HX]. apply (proj1 (in_map_some _ _)) in HT.
      assert (HV2 : all_valid ts). { apply Forall_forall. intros x Hx. rewrite Forall_forall in HV. exact (HV (Some x) (proj2 (in_map_some x ts) Hx)). }
      rewrite in_map_some, <- (existsb_in _ dtime_eqb_spec).
      assert (TF := time_filter ts (Some (One (TStr (if first then w_first else w_last)))) (Some s') (Some es) t HV2 HT).
      cbv iota in TF. rewrite TF; [|destruct first; subst s'; reflexivity|cbn [option_res]; rewrite ER; reflexivity].
      cbn [time_accepted]. split.
      + intros [[M F]|[[M F]|M]].
        * intros u Hu. apply in_map_iff in Hu as (x & <- & Hx). destruct first; [apply F, Hx|destruct M as [M|M]; discriminate M].
        * intros u Hu. apply in_map_iff in Hu as (x & <- & Hx). destruct first; [destruct M as [M|M]; discriminate M|apply F, Hx].
        * exfalso. destruct first; vm_compute in M; discriminate M.
      + intros F. destruct first; [left|right; left]; (split; [left; reflexivity|]); intros u Hu; exact (F (Some u) (proj2 (in_map_some u ts) Hu)).
    - exfalso. destruct first; subst s'; unfold resolve2 in EL; rewrite EB in EL; destruct all as [|[x|] [|? ?]]; try discriminate EL; apply EA; reflexivity. }
  destruct i as [d|w].
  - cbn [parse_times] in EP. apply ok_inj in EP. rewrite (PLAIN d (eq_sym EP) eq_refl). cbn [time2_accepted].
    split; [auto|]. intros [[[H|H] _]|[[[H|H] _]|H]]; try discriminate H. exact H.
  - cbn [parse_times] in EP. destruct (word_tests w) as [WL WF].
    destruct (str_eqb w w_last || str_eqb w w_LAST).
    + apply ok_inj in EP. pose proof (proj1 WL eq_refl) as ML. rewrite (EXTR false (eq_sym EP)). cbn [time2_accepted]. split.
      * intros H. right. left. auto.
      * intros [[F _]|[[_ F]|(a & _ & F)]]; [destruct (last_not_first _ ML F)|exact F|destruct (words_not_times _ _ (or_intror ML) F)].
    + destruct (str_eqb w w_first || str_eqb w w_FIRST).
      * apply ok_inj in EP. pose proof (proj1 WF eq_refl) as MF. rewrite (EXTR true (eq_sym EP)). cbn [time2_accepted]. split.
        -- intros H. left. auto.
        -- intros [[_ F]|[[F _]|(a & _ & F)]]; [exact F|destruct (last_not_first _ F MF)|destruct (words_not_times _ _ (or_introl MF) F)].
      * destruct (strptime fmt_YmdHM w) as [u|] eqn:EU; cbn [bind] in EP; [|discriminate EP]. apply ok_inj in EP.
        rewrite (PLAIN u (eq_sym EP) EU). cbn [time2_accepted].
        split; [auto|]. intros [[F _]|[[F _]|F]]; [apply WF in F; discriminate F|apply WL in F; discriminate F|exact F].
Qed.
Lemma time2_args all arg :
  (exists s ts, option_res parse_times arg = Ok s /\ option_res (resolve2 all) s = Ok ts) <-> time2_arg_ok all arg.
Proof.
  destruct arg as [[i|l]|]; cbn [option_res time2_arg_ok].
  - assert (EXT : forall s', s' = SelFirst \/ s' = SelLast ->
        ((exists ts, option_res (resolve2 all) (Some s') = Ok ts) <-> all <> [] /\ (all = [None] \/ forall u, In u all -> u <> None))).
    { intros s' Hs. cbn [option_res]. destruct (extreme_cases all) as [EA|[(ts & EA)|[EA EB]]].
      - subst all. split; [intros _; split; [discriminate|auto]|]. intros _. destruct Hs as [-> | ->]; eexists; reflexivity.
      - rewrite (resolve_all_some all s' ts (proj2 (all_some_spec all ts) EA) Hs). subst all. destruct ts as [|x r].
        + split; [intros (ts & H); destruct Hs as [-> | ->]; discriminate H|intros [H _]; destruct (H eq_refl)].
        + split; [|intros _; destruct Hs as [-> | ->]; eexists; reflexivity]. intros _. split; [discriminate|]. right.
          intros u Hu. apply in_map_iff in Hu as (y & <- & _). discriminate.
      - split.
        + intros (ts & H). exfalso. destruct Hs as [-> | ->]; unfold resolve2 in H; rewrite EB in H; (destruct all as [|[x|] [|? ?]]; try discriminate H; apply EA; reflexivity).
        + intros [_ [H|H]]; [destruct (EA H)|]. exfalso. apply (H None); [apply all_some_none, EB|reflexivity]. }
    destruct i as [d|w].
    + cbn [parse_times bind]. split; [|intros _; do 2 eexists; split; reflexivity].
      intros _. right. split; [intros [H|H]; discriminate H|]. split; [intros [H|H]; discriminate H|]. exists d. reflexivity.
    + cbn [parse_times]. destruct (word_tests w) as [WL WF].
      destruct (str_eqb w w_last || str_eqb w w_LAST).
      { cbn [bind]. pose proof (proj1 WL eq_refl) as ML. split.
        - intros (s & ts & H1 & H2). left. split; [right; exact ML|]. apply ok_inj in H1. subst s. apply (EXT SelLast (or_intror eq_refl)). exists ts. exact H2.
        - intros [[_ H]|(_ & H & _)]; [|destruct (H ML)]. apply (EXT SelLast (or_intror eq_refl)) in H as (ts & H). exists (Some SelLast), ts. auto. }
      destruct (str_eqb w w_first || str_eqb w w_FIRST).
      { cbn [bind]. pose proof (proj1 WF eq_refl) as MF. split.
        - intros (s & ts & H1 & H2). left. split; [left; exact MF|]. apply ok_inj in H1. subst s. apply (EXT SelFirst (or_introl eq_refl)). exists ts. exact H2.
        - intros [[_ H]|(H & _ & _)]; [|destruct (H MF)]. apply (EXT SelFirst (or_introl eq_refl)) in H as (ts & H). exists (Some SelFirst), ts. auto. }
      cbn [means]. split.
      * intros (s & ts & H1 & H2). right. split; [intros H; apply WF in H; discriminate H|]. split; [intros H; apply WL in H; discriminate H|].
        destruct (strptime fmt_YmdHM w) as [t|]; [|discriminate H1]. exists t. reflexivity.
      * intros [[[H|H] _]|(_ & _ & t & H)]; [apply WF in H; discriminate H|apply WL in H; discriminate H|].
        rewrite H. cbn [bind]. do 2 eexists. split; reflexivity.
  - cbn [parse_times]. rewrite <- parse_items_ok. split.
    + intros (s & ts & H & _). destruct (mapM parse_item l) as [us|]; [|discriminate H]. exists us. reflexivity.
    + intros (us & ->). cbn [bind]. do 2 eexists. split; reflexivity.
  - split; [auto|]. intros _. do 2 eexists. split; reflexivity.
Qed.

(** ** Filters *)
Lemma narrow_in {A B} (arg : option B) (p : B -> A -> bool) l x :
  In x (narrow arg p l) <-> In x l /\ match arg with None => True | Some b => p b x = true end.
Proof. destruct arg; cbn [narrow]; [apply filter_In|tauto]. Qed.
Lemma filter_sorted {A} (R : A -> A -> Prop) (p : A -> bool) l : StronglySorted R l -> StronglySorted R (filter p l).
Proof.
  induction 1 as [|x l S IH F]; [constructor|]. cbn [filter]. destruct (p x); [|exact IH]. constructor; [exact IH|].
  rewrite Forall_forall in *. intros y Hy. apply filter_In in Hy as [Hy _]. auto.
Qed.
Lemma narrow_sorted {A B} (R : A -> A -> Prop) (arg : option B) p (l : list A) : StronglySorted R l -> StronglySorted R (narrow arg p l).
Proof. destruct arg; cbn [narrow]; [apply filter_sorted|auto]. Qed.
Lemma accepts_names n arg : (match arg with None => True | Some s => existsb (str_eqb n) (uppers s) = true end) <-> accepts (name_matches n) arg.
Proof.
  destruct arg as [[x|l]|]; cbn [accepts]; [| |tauto]; unfold uppers; cbn [listed map]; rewrite (existsb_in _ str_eqb_spec).
  - cbn [In]. unfold name_matches. split; [intros [H|[]]; congruence|auto].
  - rewrite in_map_iff. unfold name_matches. split; intros (x & H1 & H2); exists x; auto.
Qed.
Lemma level_eqb_spec l n : level_eqb l n = true <-> level_matches l n.
Proof.
  destruct l as [z|], n as [w|f]; cbn [level_eqb level_matches]; try (split; [discriminate|intros []]).
  - apply Z.eqb_eq.
  - rewrite andb_true_iff, Qeq_bool_iff. reflexivity.
Qed.
Lemma accepts_some_of {A} (p : A -> bool) (P : A -> Prop) arg : (forall x, p x = true <-> P x) ->
  (match arg with None => True | Some s => existsb p (listed s) = true end) <-> accepts P arg.
Proof.
  intros H. destruct arg as [[x|l]|]; cbn [accepts listed existsb]; [rewrite orb_false_r; apply H| |tauto].
  rewrite existsb_exists. split; intros (y & H1 & H2); exists y; (split; [exact H1|apply H, H2]).
Qed.
Lemma iff_and (A B A' B' : Prop) : (A <-> A') -> (B <-> B') -> (A /\ B <-> A' /\ B').
Proof. tauto. Qed.
Lemma key_or {A} (m : list A) l : match m with [] => Err KeyError | _ => Ok m end = Ok l -> m = l /\ l <> [].
Proof. destruct m; [discriminate|]. intros [= <-]. split; [reflexivity|discriminate]. Qed.

(** ** Grids *)
Definition gtimes_valid (l : list glisting) : Prop :=
  forall g, In g l -> valid_dt (gl_time1 g) = true /\ match gl_time2 g with Some t => valid_dt t = true | None => True end.
Lemma strptime_err fs s x : strptime fs s = Err x -> x = ValueError.
Proof.
  unfold strptime. destruct (match_fmt fs s) as [[vs [|? ?]]|]; try congruence. cbv zeta. destruct (valid_dt _); congruence.
Qed.
Lemma parse_times_err a x : parse_times a = Err x -> x = ValueError.
Proof.
  destruct a as [[d|w]|l]; cbn [parse_times]; [discriminate| |].
  - repeat match goal with |- context [if ?b then _ else _] => destruct b end; try discriminate.
    destruct (strptime fmt_YmdHM w) eqn:E; cbn [bind]; [discriminate|]. intros [= <-]. exact (strptime_err _ _ _ E).
  - destruct (mapM parse_item l) as [ts|y] eqn:E; cbn [bind]; [discriminate|]. intros [= <-].
    revert E. induction l as [|i l IH]; cbn [mapM]; [discriminate|].
    destruct (parse_item i) as [t|z] eqn:EI; cbn [bind].
    + destruct (mapM parse_item l); cbn [bind]; [discriminate|]. exact IH.
    + intros [= <-]. destruct i; [discriminate EI|]. exact (strptime_err _ _ _ EI).
Qed.
Lemma resolve_err all s x : resolve all s = Err x -> x = ValueError.
Proof. destruct s, all; cbn; congruence. Qed.
Lemma resolve2_err all s x : resolve2 all s = Err x -> x <> KeyError.
Proof.
  assert (H : forall s', (match all_some all with Some l => ts <- resolve l s' ;; Ok (map Some ts) | None => match all with [None] => Ok [None] | _ => Err TypeError end end) = Err x -> x <> KeyError).
  { intros s'. destruct (all_some all) as [l|]; [|destruct all as [|[y|] [|? ?]]; congruence].
    destruct (resolve l s') as [ts|y] eqn:E; cbn [bind]; [discriminate|]. intros [= <-]. apply resolve_err in E. subst. discriminate. }
  destruct s; cbn [resolve2]; [apply (H SelFirst)|apply (H SelLast)|discriminate].
Qed.
Lemma option_res_err {A B} (f : A -> res B) (P : exn -> Prop) o x : (forall a x, f a = Err x -> P x) -> option_res f o = Err x -> P x.
Proof. intros H. destruct o as [a|]; cbn [option_res]; [|discriminate]. destruct (f a) eqn:E; cbn [bind]; [discriminate|]. intros [= <-]. eauto. Qed.
Lemma parse_times_nokey a x : parse_times a = Err x -> x <> KeyError.
Proof. intros H. apply parse_times_err in H. subst. discriminate. Qed.
Lemma resolve_nokey all s x : resolve all s = Err x -> x <> KeyError.
Proof. intros H. apply resolve_err in H. subst. discriminate. Qed.
Lemma gd_select_spec info a : gtimes_valid info ->
  (forall l, gd_select info a = Ok l ->
     l <> [] /\ (forall g, In g l <-> In g info /\ wanted_grid info a g) /\
     (forall R, StronglySorted R info -> StronglySorted R l)) /\
  (gd_select info a = Err KeyError <->
     time_arg_ok (map gl_time1 info) (a_time a) /\ time2_arg_ok (map gl_time2 info) (a_time2 a) /\
     forall g, In g info -> ~ wanted_grid info a g) /\
  ((exists l, gd_select info a = Ok l) -> 
     time_arg_ok (map gl_time1 info) (a_time a) /\ time2_arg_ok (map gl_time2 info) (a_time2 a)).
Proof.
  intros HV.
  assert (V1 : all_valid (map gl_time1 info)). { apply Forall_forall. intros t Ht. apply in_map_iff in Ht as (g & <- & Hg). apply HV, Hg. }
  assert (V2 : Forall (fun o => match o with Some x => valid_dt x = true | None => True end) (map gl_time2 info)).
  { apply Forall_forall. intros t Ht. apply in_map_iff in Ht as (g & <- & Hg). apply HV, Hg. }
  set (T1 := map gl_time1 info) in *. set (T2 := map gl_time2 info) in *.
  destruct (option_res parse_times (a_time a)) as [s1|x1] eqn:P1.
  2: { assert (x1 <> KeyError) by (apply (option_res_err _ (fun x => x <> KeyError) _ _ parse_times_nokey P1)).
       assert (NA : ~ time_arg_ok T1 (a_time a)) by (intros HA; apply time_args in HA as (s & ts & HA & _); congruence).
       unfold gd_select. rewrite P1. cbn [bind]. split; [discriminate|]. split; [|intros (l & Hl); discriminate Hl]. split; [congruence|tauto]. }
  destruct (option_res parse_times (a_time2 a)) as [s2|x1] eqn:P2.
  2: { assert (x1 <> KeyError) by (apply (option_res_err _ (fun x => x <> KeyError) _ _ parse_times_nokey P2)).
       assert (NA : ~ time2_arg_ok T2 (a_time2 a)) by (intros HA; apply time2_args in HA as (s & ts & HA & _); congruence).
       unfold gd_select. rewrite P1, P2. cbn [bind]. split; [discriminate|]. split; [|intros (l & Hl); discriminate Hl]. split; [congruence|tauto]. }
  destruct (option_res (resolve T1) s1) as [t1|x1] eqn:R1.
  2: { assert (x1 <> KeyError) by (apply (option_res_err _ (fun x => x <> KeyError) _ _ (resolve_nokey _) R1)).
       assert (NA : ~ time_arg_ok T1 (a_time a)) by (intros HA; apply time_args in HA as (s & ts & HA & HB); congruence).
       unfold gd_select. rewrite P1, P2. cbn [bind]. fold T1. rewrite R1. cbn [bind].
       split; [discriminate|]. split; [|intros (l & Hl); discriminate Hl]. split; [congruence|tauto]. }
  destruct (option_res (resolve2 T2) s2) as [t2|x1] eqn:R2.
  2: { assert (x1 <> KeyError) by (apply (option_res_err _ (fun x => x <> KeyError) _ _ (resolve2_err _) R2)).
       assert (NA : ~ time2_arg_ok T2 (a_time2 a)) by (intros HA; apply time2_args in HA as (s & ts & HA & HB); congruence).
       unfold gd_select. rewrite P1, P2. cbn [bind]. fold T1. rewrite R1. cbn [bind]. fold T2. rewrite R2. cbn [bind].
       split; [discriminate|]. split; [|intros (l & Hl); discriminate Hl]. split; [congruence|tauto]. }
  assert (A1 : time_arg_ok T1 (a_time a)) by (apply time_args; exists s1, t1; auto).
  assert (A2 : time2_arg_ok T2 (a_time2 a)) by (apply time2_args; exists s2, t2; auto).
  unfold gd_select. rewrite P1, P2. cbn [bind]. fold T1. rewrite R1. cbn [bind]. fold T2. rewrite R2. cbn [bind]. cbv zeta.
  match goal with |- context [match ?e with [] => Err KeyError | _ => _ end] => set (m := e) end.
  assert (HM : forall g, In g m <-> In g info /\ wanted_grid info a g).
  { intros g. unfold m. rewrite !narrow_in. unfold wanted_grid.
    rewrite (accepts_names (gl_parm g)), (accepts_names (gl_coord g)).
    rewrite (accepts_some_of _ _ _ (level_eqb_spec (gl_level1 g))), (accepts_some_of _ _ _ (level_eqb_spec (gl_level2 g))).
    split.
    - intros ((((((H0 & H1) & H2) & H3) & H4) & H5) & H6).
      apply (time_filter T1 _ _ _ _ V1 (in_map gl_time1 _ _ H0) P1 R1) in H2.
      apply (time2_filter T2 _ _ _ _ V2 (in_map gl_time2 _ _ H0) P2 R2) in H5. tauto.
    - intros (H0 & H1 & H2 & H3 & H4 & H5 & H6).
      apply (time_filter T1 _ _ _ _ V1 (in_map gl_time1 _ _ H0) P1 R1) in H2.
      apply (time2_filter T2 _ _ _ _ V2 (in_map gl_time2 _ _ H0) P2 R2) in H5. tauto. }
  assert (HS : forall R, StronglySorted R info -> StronglySorted R m).
  { intros R HR. unfold m. repeat apply narrow_sorted. exact HR. }
  clearbody m. split; [|split].
  - intros l Hl. apply key_or in Hl as [<- Hl]. auto.
  - split.
    + intros H. split; [exact A1|]. split; [exact A2|]. destruct m as [|x m]; [|discriminate H]. intros g Hg HW. destruct (proj2 (HM g) (conj Hg HW)).
    + intros (_ & _ & H). destruct m as [|x m]; [reflexivity|]. exfalso. destruct (proj1 (HM x) (or_introl eq_refl)) as [K1 K2]. exact (H x K1 K2).
  - auto.
Qed.

(** ** Stations *)
(** A list of state or country names as it is compared. *)
Definition area_accepts (k : kind) (stored : str) (arg : option (some_of str)) : Prop :=
  match k, arg with
  | KSounding, Some (Many l) => In stored l
  | _, _ => accepts (name_matches stored) arg
  end.
Lemma area_spec k n arg : (match arg with None => True | Some s => existsb (str_eqb n) (area_names k s) = true end) <-> area_accepts k n arg.
Proof.
  destruct k; [|exact (accepts_names n arg)]. destruct arg as [[x|l]|]; cbn [area_accepts area_names]; [exact (accepts_names n (Some (One x)))| |reflexivity].
  apply (existsb_in _ str_eqb_spec).
Qed.
Lemma bbox_spec b x : bbox_filter b (ls_lat x) (ls_lon x) = true <-> inside b x.
Proof.
  destruct b as [[[w e] s] n]. unfold bbox_filter, inside. rewrite !andb_true_iff, !Qle_bool_iff. tauto.
Qed.
Definition stimes_valid (l : list listing) : Prop := forall x, In x l -> valid_dt (ls_time x) = true.
Lemma st_select_spec k info a : stimes_valid info ->
  let good x := wanted_place_time info a x /\ area_accepts k (ls_state x) (a_state a) /\ area_accepts k (ls_country x) (a_country a) in
  (forall l, st_select k info a = Ok l ->
     l <> [] /\ (forall x, In x l <-> In x info /\ good x) /\ (forall R, StronglySorted R info -> StronglySorted R l)) /\
  (st_select k info a = Err KeyError <-> time_arg_ok (map ls_time info) (a_when a) /\ forall x, In x info -> ~ good x).
Proof.
  intros HV good.
  assert (V1 : all_valid (map ls_time info)). { apply Forall_forall. intros t Ht. apply in_map_iff in Ht as (g & <- & Hg). apply HV, Hg. }
  set (T1 := map ls_time info) in *.
  destruct (option_res parse_times (a_when a)) as [s1|x1] eqn:P1.
  2: { assert (x1 <> KeyError) by (apply (option_res_err _ (fun x => x <> KeyError) _ _ parse_times_nokey P1)).
       assert (NA : ~ time_arg_ok T1 (a_when a)) by (intros HA; apply time_args in HA as (s & ts & HA & _); congruence).
       unfold st_select. rewrite P1. cbn [bind]. split; [discriminate|]. split; [congruence|tauto]. }
  destruct (option_res (resolve T1) s1) as [t1|x1] eqn:R1.
  2: { assert (x1 <> KeyError) by (apply (option_res_err _ (fun x => x <> KeyError) _ _ (resolve_nokey _) R1)).
       assert (NA : ~ time_arg_ok T1 (a_when a)) by (intros HA; apply time_args in HA as (s & ts & HA & HB); congruence).
       unfold st_select. rewrite P1. cbn [bind]. fold T1. rewrite R1. cbn [bind]. split; [discriminate|]. split; [congruence|tauto]. }
  assert (A1 : time_arg_ok T1 (a_when a)) by (apply time_args; exists s1, t1; auto).
  unfold st_select. rewrite P1. cbn [bind]. fold T1. rewrite R1. cbn [bind]. cbv zeta.
  match goal with |- context [match ?e with [] => Err KeyError | _ => _ end] => set (m := e) end.
  assert (BB : forall x, (match a_bbox a with None => True | Some b => bbox_filter b (ls_lat x) (ls_lon x) = true end) <-> forall b, a_bbox a = Some b -> inside b x).
  { intros x. destruct (a_bbox a) as [b|]; [|split; [discriminate|auto]]. rewrite bbox_spec. split; [intros H b' [= <-]; exact H|intros H; apply H; reflexivity]. }
  assert (HM : forall x, In x m <-> In x info /\ good x).
  { intros x. unfold m. rewrite !narrow_in. unfold good, wanted_place_time.
    rewrite (area_spec k (ls_country x)), (area_spec k (ls_state x)), (BB x), (accepts_names (ls_id x)).
    rewrite (accepts_some_of _ (fun n => ls_number x = n) _ (fun n => Z.eqb_eq (ls_number x) n)).
    split.
    - intros ((((((H0 & H1) & H2) & H3) & H4) & H5) & H6).
      apply (time_filter T1 _ _ _ _ V1 (in_map ls_time _ _ H0) P1 R1) in H4. tauto.
    - intros (H0 & (H1 & H2 & H3 & H4) & H5 & H6).
      apply (time_filter T1 _ _ _ _ V1 (in_map ls_time _ _ H0) P1 R1) in H3. tauto. }
  assert (HS : forall R, StronglySorted R info -> StronglySorted R m).
  { intros R HR. unfold m. repeat apply narrow_sorted. exact HR. }
  clearbody m. split.
  - intros l Hl. apply key_or in Hl as [<- Hl]. auto.
  - split.
    + intros H. split; [exact A1|]. destruct m as [|x m]; [|discriminate H]. intros g Hg HW. destruct (proj2 (HM g) (conj Hg HW)).
    + intros (_ & H). destruct m as [|x m]; [reflexivity|]. exfalso. destruct (proj1 (HM x) (or_introl eq_refl)) as [K1 K2]. exact (H x K1 K2).
Qed.

(** ** The listings of opened files *)
Lemma dattim_valid z t : convert_dattim z = Ok (Some t) -> valid_dt t = true.
Proof.
  unfold convert_dattim. destruct (_ =? 0); [discriminate|].
  destruct (_ <? _); (destruct (strptime _ _) eqn:E; cbn [bind]; [|discriminate]; intros [= <-]; exact (strptime_valid _ _ _ E)).
Qed.
Lemma gattr_in h k v : gattr h k = Ok v -> exists k', In (k', v) h.
Proof.
  induction h as [|[k' v'] h IH]; cbn [gattr]; [discriminate|]. destruct (str_eqb k k'); [intros [= <-]; exists k'; left; reflexivity|].
  intros H. destruct (IH H) as (k2 & H2). exists k2. right. exact H2.
Qed.
Definition gdates_valid (h : gheader) : Prop := forall k t, In (k, GDate (Some t)) h -> valid_dt t = true.
Lemma read_gheader_valid e keys d pos h : read_gheader e keys d pos = Ok h -> gdates_valid h.
Proof.
  unfold read_gheader. destruct (rd_struct e _ d pos) as [vs|]; cbn [bind]; [|discriminate]. intros H k t HI.
  apply mapM_ok_Forall2 in H. induction H as [|[k1 v1] y l l' H1 H2 IH]; [destruct HI|]. destruct HI as [->|HI]; [|exact (IH HI)].
  destruct (gkey_conv e k1 v1) as [hv|] eqn:E; cbn [bind] in H1; [|discriminate H1]. apply ok_inj in H1. inversion H1; subst.
  unfold gkey_conv in E. destruct v1 as [z| | | |]; try discriminate E; try (destruct (decode_strip _) in E; discriminate E).
  repeat match type of E with (if ?b then _ else _) = _ => destruct b end; try discriminate E.
  - destruct (convert_vertical_coord e z); discriminate E.
  - destruct (convert_dattim z) as [o|] eqn:EC; cbn [bind] in E; [|discriminate E]. injection E as ->. exact (dattim_valid _ _ EC).
  - destruct (convert_ftime z); discriminate E.
Qed.
Lemma read_headers_all {H} (P : H -> Prop) e rd size d n : forall pos l,
  (forall p h, rd p = Ok h -> P h) -> read_headers e rd size d n pos = Ok l -> Forall P l.
Proof.
  induction n as [|n IH]; intros pos l HP; cbn [read_headers]; [intros [= <-]; constructor|].
  destruct (_ =? _); [|apply IH, HP]. destruct (rd (pos + 4)) as [h|] eqn:E; cbn [bind]; [|discriminate].
  destruct (read_headers e rd size d n _) as [r|] eqn:ER; cbn [bind]; [|discriminate]. intros [= <-]. constructor; [exact (HP _ _ E)|exact (IH _ _ HP ER)].
Qed.
Lemma glisting_valid n h g : gdates_valid h -> glisting_of n h = Ok g ->
  gl_no g = n /\ valid_dt (gl_time1 g) = true /\ match gl_time2 g with Some t => valid_dt t = true | None => True end.
Proof.
  intros HV H. unfold glisting_of in H.
  destruct (gattr_ftime h k_GTM1) as [tm1|]; cbn [bind] in H; [|discriminate H].
  destruct tm1 as [[ty delta]|]; cbn [need bind] in H; [|discriminate H].
  destruct (gattr_date h k_GDT1) as [dt1|] eqn:D1; cbn [bind] in H; [|discriminate H].
  destruct dt1 as [d1|]; cbn [need bind] in H; [|discriminate H].
  destruct (add_minutes d1 delta) as [t1|] eqn:A1; cbn [bind] in H; [|discriminate H].
  destruct (gattr_date h k_GDT2) as [dt2|] eqn:D2; cbn [bind] in H; [|discriminate H].
  destruct (gattr_ftime h k_GTM2) as [tm2|]; cbn [bind] in H; [|discriminate H].
  assert (DV : forall k t, gattr_date h k = Ok (Some t) -> valid_dt t = true).
  { intros k t E. unfold gattr_date in E. destruct (gattr h k) as [v|] eqn:EV; cbn [bind] in E; [|discriminate E].
    apply gattr_in in EV as (k' & EV). destruct v; try discriminate E. injection E as ->. exact (HV _ _ EV). }
  destruct (match dt2, tm2 with Some d, Some (_, delta2) => t <- add_minutes d delta2 ;; Ok (Some t) | _, _ => Ok None end) as [t2|] eqn:E2;
    cbn [bind] in H; [|discriminate H].
  repeat match type of H with bind ?a _ = _ => destruct a; cbn [bind] in H; [|discriminate H] end.
  apply ok_inj in H. subst g. cbn [gl_no gl_time1 gl_time2]. split; [reflexivity|].
  split; [exact (proj1 (add_minutes_spec _ _ _ (DV _ _ D1) A1))|].
  destruct t2 as [t2|]; [|exact I]. destruct dt2 as [d2|]; [|discriminate E2]. destruct tm2 as [[? delta2]|]; [|discriminate E2].
  destruct (add_minutes d2 delta2) as [u|] eqn:A2; cbn [bind] in E2; [|discriminate E2]. injection E2 as <-.
  exact (proj1 (add_minutes_spec _ _ _ (DV _ _ D2) A2)).
Qed.
Lemma sorted_map_inv {A B} (f : A -> B) (R : B -> B -> Prop) l : StronglySorted R (map f l) -> StronglySorted (fun a b => R (f a) (f b)) l.
Proof.
  induction l as [|x l IH]; cbn [map]; intros H; [constructor|]. inversion H as [|y l' H1 H2]; subst. constructor; [exact (IH H1)|].
  rewrite Forall_forall in *. intros y Hy. apply H2, in_map, Hy.
Qed.
Lemma zrange_sorted n : StronglySorted Z.lt (zrange n).
Proof.
  unfold zrange. generalize 0%nat. induction (Z.to_nat n) as [|k IH]; intros s; cbn [seq map]; [constructor|]. constructor; [apply IH|].
  apply Forall_forall. intros y Hy. apply in_map_iff in Hy as (x & <- & Hx). apply in_seq in Hx. lia.
Qed.
Lemma indexed_sorted {A} (l : list A) : StronglySorted (fun a b : Z * A => fst a < fst b) (indexed l).
Proof. apply (sorted_map_inv fst). rewrite indexed_fst. apply zrange_sorted. Qed.
Lemma sorted_Forall2 {A B} (P : A -> B -> Prop) (R : A -> A -> Prop) (R' : B -> B -> Prop) l l' :
  Forall2 P l l' -> (forall a b a' b', P a a' -> P b b' -> R a b -> R' a' b') -> StronglySorted R l -> StronglySorted R' l'.
Proof.
  intros F H S. induction F as [|x y l l' P1 F IH]; [constructor|]. inversion S as [|x' l2 S1 S2]; subst. constructor; [exact (IH S1)|].
  clear IH S S1. induction F as [|x2 y2 l l' P2 F IH]; [constructor|]. inversion S2; subst. constructor; [eauto|apply IH; assumption].
Qed.
Lemma Forall2_in_r {A B} (P : A -> B -> Prop) l l' y : Forall2 P l l' -> In y l' -> exists x, In x l /\ P x y.
Proof.
  induction 1 as [|x z l l' H1 H2 IH]; intros HY; [destruct HY|]. destruct HY as [->|HY]; [exists x; split; [left; reflexivity|exact H1]|].
  destruct (IH HY) as (w & W1 & W2). exists w. split; [right; exact W1|exact W2].
Qed.
(** Grids are listed by number, with valid times. *)
Lemma open_grid_info d f : open_grid d = Ok f -> gtimes_valid (rg_info f) /\ StronglySorted (fun a b => gl_no a < gl_no b) (rg_info f).
Proof.
  unfold open_grid. destruct (open_gempak d) as [g|]; cbn [bind]; [|discriminate]. cbv zeta.
  destruct (read_headers (gf_endian g) (read_grow _ _ _) _ _ _ _) as [rows|]; cbn [bind]; [|discriminate].
  destruct (read_headers (gf_endian g) (read_gheader _ _ _) _ _ _ _) as [cols|] eqn:EC; cbn [bind]; [|discriminate].
  destruct (mapM _ (indexed cols)) as [inf|] eqn:EI; cbn [bind]; [|discriminate]. intros H.
  assert (E : rg_info f = inf). { match type of H with bind ?a _ = _ => destruct a; cbn [bind] in H; [|discriminate H] end. apply ok_inj in H. subst f. reflexivity. }
  rewrite E. clear H E f.
  apply (read_headers_all gdates_valid) in EC; [|intros p h; apply read_gheader_valid].
  apply mapM_ok_Forall2 in EI.
  assert (F : Forall2 (fun (nh : Z * gheader) gl => gl_no gl = fst nh /\ valid_dt (gl_time1 gl) = true /\ match gl_time2 gl with Some t => valid_dt t = true | None => True end) (indexed cols) inf).
  { assert (IN : forall n h, In (n, h) (indexed cols) -> gdates_valid h).
    { intros n h Hn. apply indexed_in in Hn as [_ Hn]. apply nth_error_In in Hn. rewrite Forall_forall in EC. auto. }
    clear EC. induction EI as [|[n h] y l l' H1 H2 IH]; [constructor|]. constructor; [|apply IH; intros; eapply IN; right; eassumption].
    cbn [fst]. eapply glisting_valid; [|exact H1]. eapply IN. left. reflexivity. }
  split.
  - intros x Hx. apply (Forall2_in_r _ _ _ _ F) in Hx as (nh & _ & _ & Hx). exact Hx.
  - eapply (sorted_Forall2 _ _ _ _ _ F); [|apply indexed_sorted]. cbv beta. intros a b a' b' (-> & _) (-> & _) L. exact L.
Qed.

(** Dates and times in the headers of stations *)
Definition hval_valid (v : hval) : Prop :=
  match v with HDate d => valid_date d = true | HTime t => valid_time t = true | _ => True end.
Definition header_valid (h : header) : Prop := forall k v, In (k, v) h -> hval_valid v.
Lemma valid_parts t : valid_dt t = true -> valid_date (date_of t) = true /\ valid_time (time_of t) = true.
Proof. unfold valid_dt. apply andb_prop. Qed.
Lemma dec_date_valid z d : dec_date z = Ok d -> valid_date d = true.
Proof.
  unfold dec_date. destruct (convert_dattim z) as [[t|]|] eqn:E; cbn [bind]; try discriminate. intros [= <-].
  exact (proj1 (valid_parts _ (dattim_valid _ _ E))).
Qed.
Lemma dec_time_valid z d : dec_time z = Ok d -> valid_time d = true.
Proof.
  unfold dec_time. destruct (strptime _ _) as [t|] eqn:E; cbn [bind]; [|discriminate]. intros [= <-].
  exact (proj2 (valid_parts _ (strptime_valid _ _ _ E))).
Qed.
Lemma key_conv_valid hk k v h : key_conv hk k v = Ok h -> hval_valid h.
Proof.
  intros E. unfold key_conv in E. destruct hk, v; try discriminate E; try (destruct (decode_strip _) in E; cbn [bind] in E; [|discriminate E]; injection E as <-; exact I);
    repeat match type of E with (if ?b then _ else _) = _ => destruct b end; try (injection E as <-; exact I);
    first [destruct (dec_date _) eqn:D in E; cbn [bind] in E; [|discriminate E]; injection E as <-; exact (dec_date_valid _ _ D)
          |destruct (dec_time _) eqn:D in E; cbn [bind] in E; [|discriminate E]; injection E as <-; exact (dec_time_valid _ _ D)].
Qed.
Lemma read_header_valid e hk keys d pos h : read_header e hk keys d pos = Ok h -> header_valid h.
Proof.
  unfold read_header. destruct (rd_struct e _ d pos) as [vs|]; cbn [bind]; [|discriminate].
  destruct (mapM _ _) as [hs|] eqn:EM; cbn [bind]; [|discriminate]. intros H k v HI. injection H as ->.
  apply mapM_ok_Forall2 in EM. apply (Forall2_in_r _ _ _ _ EM) in HI as ([k1 v1] & _ & H1).
  destruct (key_conv hk k1 v1) as [hv|] eqn:E; cbn [bind] in H1; [|discriminate H1]. injection H1 as <- <-. exact (key_conv_valid _ _ _ _ E).
Qed.
Definition headers_valid (f : rfile) : Prop := Forall header_valid (rf_rows f) /\ Forall header_valid (rf_cols f).
Lemma open_station_headers k d f : open_station k d = Ok f -> headers_valid f.
Proof.
  unfold open_station. destruct (open_gempak d) as [g|]; cbn [bind]; [|discriminate]. cbv zeta. unfold read_header_block.
  destruct (read_headers _ _ _ _ (Z.to_nat (lb_rows _)) _) as [rows|] eqn:ER; cbn [bind]; [|discriminate].
  destruct (read_headers _ _ _ _ (Z.to_nat (lb_columns _)) _) as [cols|] eqn:EC; cbn [bind]; [|discriminate].
  match goal with |- context [match k with KSounding => Ok Sounding | _ => _ end] => destruct (match k with KSounding => Ok Sounding | _ => surface_type g rows end); cbn [bind]; [|discriminate] end.
  intros [= <-]. split; cbn [rf_rows rf_cols];
    [apply (read_headers_all header_valid) in ER|apply (read_headers_all header_valid) in EC]; try assumption; intros p h; apply read_header_valid.
Qed.
Lemma attr_in h k v : attr h k = Ok v -> exists k', In (k', v) h.
Proof.
  induction h as [|[k' v'] h IH]; cbn [attr]; [discriminate|]. destruct (str_eqb k k'); [intros [= <-]; exists k'; left; reflexivity|].
  intros H. destruct (IH H) as (k2 & H2). exists k2. right. exact H2.
Qed.
Lemma attr_valid h k v : header_valid h -> attr h k = Ok v -> hval_valid v.
Proof. intros H E. apply attr_in in E as (k' & E). exact (H _ _ E). Qed.
Lemma py_index_forall {A} (P : A -> Prop) l i x : Forall P l -> py_index l i = Ok x -> P x.
Proof.
  intros H E. rewrite Forall_forall in H. apply H. unfold py_index in E.
  repeat match type of E with (if ?b then _ else _) = _ => destruct b end; try discriminate E;
    destruct (nth_error l _) eqn:N in E; try discriminate E; injection E as <-; exact (nth_error_In _ _ N).
Qed.
Lemma time_head_valid f i j h : headers_valid f -> time_head f i j = Ok h -> header_valid h.
Proof. intros [H1 H2]. unfold time_head. destruct (rf_type f); apply py_index_forall; assumption. Qed.
Lemma station_head_valid f i j h : headers_valid f -> station_head f i j = Ok h -> header_valid h.
Proof. intros [H1 H2]. unfold station_head. destruct (rf_type f); apply py_index_forall; assumption. Qed.
Lemma listing_of_valid f i j x : headers_valid f -> listing_of f i j = Ok x -> valid_dt (ls_time x) = true /\ ls_row x = i /\ ls_col x = j.
Proof.
  intros HV. unfold listing_of. destruct (time_head f i j) as [th|] eqn:ET; cbn [bind]; [|discriminate].
  destruct (station_head f i j) as [sh|]; cbn [bind]; [|discriminate].
  destruct (attr_date th k_DATE) as [d|] eqn:ED; cbn [bind]; [|discriminate].
  destruct (attr_time th k_TIME) as [t|] eqn:EI; cbn [bind]; [|discriminate]. intros H.
  repeat match type of H with bind ?a _ = _ => destruct a; cbn [bind] in H; [|discriminate H] end.
  apply ok_inj in H. subst x. cbn [ls_time ls_row ls_col]. split; [|auto].
  apply (time_head_valid _ _ _ _ HV) in ET.
  unfold attr_date in ED. destruct (attr th k_DATE) as [v|] eqn:E1; cbn [bind] in ED; [|discriminate ED]. destruct v; try discriminate ED. injection ED as ->.
  unfold attr_time in EI. destruct (attr th k_TIME) as [v|] eqn:E2; cbn [bind] in EI; [|discriminate EI]. destruct v; try discriminate EI. injection EI as ->.
  apply (attr_valid _ _ _ ET) in E1. apply (attr_valid _ _ _ ET) in E2. cbn [hval_valid] in E1, E2.
  unfold valid_dt, combine_dt, date_of, time_of. cbn [dt_y dt_mo dt_d dt_h dt_mi dt_s dt_us]. destruct d as [y0 m0 d0], t as [h0 n0 s0 u0]; cbn [da_y da_mo da_d ti_h ti_mi ti_s ti_us]. rewrite E1, E2. reflexivity.
Qed.
Lemma sorted_app {A} (R : A -> A -> Prop) l l' : StronglySorted R l -> StronglySorted R l' ->
  (forall a b, In a l -> In b l' -> R a b) -> StronglySorted R (l ++ l').
Proof.
  intros S S' H. induction S as [|x l S IH F]; [exact S'|]. cbn [app]. constructor; [apply IH; intros; apply H; [right|]; assumption|].
  apply Forall_app. split; [exact F|]. apply Forall_forall. intros y Hy. apply H; [left; reflexivity|exact Hy].
Qed.
Definition cell_before (a b : Z * Z) : Prop := fst a < fst b \/ (fst a = fst b /\ snd a < snd b).
Lemma row_sorted x l' : StronglySorted Z.lt l' -> StronglySorted cell_before (map (fun y => (x, y)) l').
Proof.
  intros S'. induction S' as [|y l' S IH F]; cbn [map]; constructor; [exact IH|]. rewrite Forall_forall in *. intros z Hz.
  apply in_map_iff in Hz as (w & <- & Hw). right. cbn [fst snd]. auto.
Qed.
Lemma prod_sorted (l l' : list Z) : StronglySorted Z.lt l -> StronglySorted Z.lt l' -> StronglySorted cell_before (list_prod l l').
Proof.
  intros S S'. induction S as [|x l S IH F]; cbn [list_prod]; [constructor|]. apply sorted_app; [apply row_sorted, S'|exact IH|].
  intros a b Ha Hb. apply in_map_iff in Ha as (w & <- & Hw). destruct b as [b1 b2]. apply in_prod_iff in Hb as [Hb _].
  rewrite Forall_forall in F. left. cbn [fst]. auto.
Qed.
Lemma cells_sorted f : StronglySorted cell_before (cells f).
Proof. unfold cells. destruct (rf_type f); try (apply prod_sorted; apply zrange_sorted). apply row_sorted, zrange_sorted. Qed.
(** Entries are listed by row and column, with valid times. *)
Lemma info_spec f l : headers_valid f -> info f = Ok l -> stimes_valid l /\ StronglySorted entry_before l.
Proof.
  intros HV H. unfold info in H. apply mapM_ok_Forall2 in H.
  assert (F : Forall2 (fun ij x => valid_dt (ls_time x) = true /\ ls_row x = fst ij /\ ls_col x = snd ij) (filter (fun '(i, j) => present f i j) (cells f)) l).
  { induction H as [|[i j] y m m' H1 H2 IH]; [constructor|]. constructor; [exact (listing_of_valid _ _ _ _ HV H1)|exact IH]. }
  split.
  - intros x Hx. apply (Forall2_in_r _ _ _ _ F) in Hx as (ij & _ & Hx & _). exact Hx.
  - eapply (sorted_Forall2 _ _ _ _ _ F); [|apply filter_sorted, cells_sorted]. intros a b a' b' (_ & A1 & A2) (_ & B1 & B2) L.
    unfold entry_before. rewrite A1, A2, B1, B2. exact L.
Qed.

(** ** Records *)
Definition rec_valid (r : record) : Prop := forall k v, In (k, DHead v) r -> hval_valid v.
Lemma put_in k v r k' v' : In (k', v') (put k v r) -> (k' = k /\ v' = v) \/ In (k', v') r \/ v' = v.
Proof.
  unfold put. induction r as [|[k2 v2] r IH]; cbn [dict_set].
  - intros [[= <- <-]|[]]. auto.
  - destruct (is_eq _) eqn:E; intros [[= <- <-]|H].
    + auto.
    + right. left. right. exact H.
    + right. left. left. reflexivity.
    + destruct (IH H) as [X|[X|X]]; [auto|right; left; right; exact X|auto].
Qed.
Lemma put_valid k v r : rec_valid r -> (forall h, v = DHead h -> hval_valid h) -> rec_valid (put k v r).
Proof. intros HR HV k' h H. apply put_in in H as [[_ H]|[H|H]]; [apply HV; congruence|exact (HR _ _ H)|apply HV; congruence]. Qed.
Lemma foldM_valid {A} (g : record -> A -> res record) l : (forall r a r', rec_valid r -> g r a = Ok r' -> rec_valid r') ->
  forall r r', rec_valid r -> foldM g l r = Ok r' -> rec_valid r'.
Proof.
  intros HG. induction l as [|a l IH]; intros r r' HR; cbn [foldM]; [intros [= <-]; exact HR|].
  destruct (g r a) as [r1|] eqn:E; cbn [bind]; [|discriminate]. apply IH. exact (HG _ _ _ HR E).
Qed.
Lemma add_values_valid ty names b r r' : rec_valid r -> add_values ty names b r = Ok r' -> rec_valid r'.
Proof.
  intros HR. unfold add_values. apply foldM_valid; [|exact HR]. intros r0 [i nm] r1 H0.
  match goal with |- bind ?a _ = _ -> _ => destruct a as [v|] eqn:E; cbn [bind]; [|discriminate] end. intros [= <-].
  apply put_valid; [exact H0|]. intros h ->. exfalso.
  destruct ty, b; try discriminate E;
    first [destruct (py_index _ _) in E; cbn [bind] in E; [|discriminate E]; try discriminate E; destruct (decode_strip _) in E; discriminate E].
Qed.
Lemma add_parts_valid f i j r r' : rec_valid r -> add_parts f i j r = Ok r' -> rec_valid r'.
Proof.
  intros HR. unfold add_parts. apply foldM_valid; [|exact HR]. intros r0 [n [part q]] r1 H0. unfold add_part. cbv zeta.
  destruct (_ =? 0); [intros [= <-]; exact H0|]. destruct (read_block _ _ _ _) as [b|]; cbn [bind]; [|discriminate]. apply add_values_valid, H0.
Qed.
Lemma head_record_valid f i j r : headers_valid f -> head_record f i j = Ok r -> rec_valid r.
Proof.
  intros HV. unfold head_record. destruct (time_head f i j) as [th|] eqn:ET; cbn [bind]; [|discriminate].
  destruct (station_head f i j) as [sh|] eqn:ES; cbn [bind]; [|discriminate].
  apply (time_head_valid _ _ _ _ HV) in ET. apply (station_head_valid _ _ _ _ HV) in ES.
  assert (G : forall h (H : header_valid h) r0 k r1, rec_valid r0 -> (v <- attr h k ;; Ok (put k (DHead v) r0)) = Ok r1 -> rec_valid r1).
  { intros h H r0 k r1 H0. destruct (attr h k) as [v|] eqn:E; cbn [bind]; [|discriminate]. intros [= <-]. apply put_valid; [exact H0|].
    intros v' [= <-]. exact (attr_valid _ _ _ H E). }
  match goal with |- bind ?a _ = _ -> _ => destruct a as [r1|] eqn:E1; cbn [bind]; [|discriminate] end.
  assert (V1 : rec_valid r1). { eapply (foldM_valid _ _ (fun r0 k r1 => G sh ES r0 k r1)); [|exact E1]. intros k v []. }
  apply (foldM_valid _ _ (fun r0 k r1 => G th ET r0 k r1)). exact V1.
Qed.
Lemma update_valid vals : forall r, rec_valid r -> rec_valid vals -> rec_valid (update r vals).
Proof.
  unfold update. induction vals as [|[k v] vals IH]; intros r HR HV; cbn [fold_left]; [exact HR|].
  apply IH; [|intros k' v' H; apply (HV k' v'); right; exact H]. apply put_valid; [exact HR|]. intros h ->. apply (HV k h). left. reflexivity.
Qed.
Lemma del_valid k r : rec_valid r -> rec_valid (del k r).
Proof. intros H k' v Hv. unfold del in Hv. apply filter_In in Hv as [Hv _]. exact (H _ _ Hv). Qed.
Lemma get_in k r v : get k r = Some v -> exists k', In (k', v) r.
Proof.
  unfold get. induction r as [|[k2 v2] r IH]; cbn [dict_get]; [discriminate|]. destruct (is_eq _); [intros [= <-]; exists k2; left; reflexivity|].
  intros H. destruct (IH H) as (k' & K). exists k'. right. exact K.
Qed.
Lemma make_dt_valid y mo d h mi t : make_dt y mo d h mi = Ok t -> valid_dt t = true.
Proof. unfold make_dt. cbv zeta. destruct (valid_dt _) eqn:E; [|discriminate]. intros [= <-]. exact E. Qed.
Lemma special_time_valid d t s x : special_time d t s = Ok x -> valid_dt x = true.
Proof.
  unfold special_time. cbv zeta. destruct (time_re s) as [[[dd hh] mm]|]; [|apply make_dt_valid].
  destruct (make_dt _ _ dd hh mm) eqn:E; [|apply make_dt_valid]. intros [= <-]. exact (make_dt_valid _ _ _ _ _ _ E).
Qed.
Lemma process_valid report values rs : rec_valid report -> rec_valid values -> process_report_text report values = Ok rs -> Forall rec_valid rs.
Proof.
  intros HR HV. unfold process_report_text. destruct (get k_DATE report) as [[[d| | | |]| | | | |]|]; try discriminate.
  destruct (get k_TIME report) as [[[|t| | |]| | | | |]|]; try discriminate. cbv zeta.
  destruct (text_of (get k_TEXT values)) as [text|]; cbn [bind]; [|discriminate].
  set (vals := del k_SPCL (del k_TEXT values)). assert (HVV : rec_valid vals) by (apply del_valid, del_valid, HV). clearbody vals.
  match goal with |- bind ?a _ = _ -> _ => destruct a as [r1|] eqn:E1; cbn [bind]; [|discriminate] end.
  destruct (text_of (get k_SPCL values)) as [spcl|]; cbn [bind]; [|discriminate].
  match goal with |- bind ?a _ = _ -> _ => destruct a as [r2|] eqn:E2; cbn [bind]; [|discriminate] end.
  intros [= <-]. apply Forall_app. split.
  - destruct (str_eqb text []); [injection E1 as <-; constructor|]. apply mapM_ok_Forall2 in E1. apply Forall_forall. intros r Hr.
    apply (Forall2_in_r _ _ _ _ E1) in Hr as (x & _ & Hr). injection Hr as <-. apply put_valid; [apply update_valid; assumption|discriminate].
  - destruct (str_eqb spcl []); [injection E2 as <-; constructor|]. apply mapM_ok_Forall2 in E2. apply Forall_forall. intros r Hr.
    apply (Forall2_in_r _ _ _ _ E2) in Hr as (x & _ & Hr). destruct (special_time d t x) as [dt|] eqn:ES; cbn [bind] in Hr; [|discriminate Hr].
    apply special_time_valid in ES. destruct (valid_parts _ ES) as [V1 V2]. cbv zeta in Hr. injection Hr as <-.
    assert (B : rec_valid (put k_TIME (DHead (HTime (time_of dt))) (put k_DATE (DHead (HDate (date_of dt))) report))).
    { apply put_valid; [apply put_valid; [exact HR|]|]; intros h [= <-]; assumption. }
    apply put_valid; [|discriminate]. destruct (str_eqb text []); [apply update_valid; assumption|exact B].
Qed.
Lemma unpack_cell_valid f i j rs : headers_valid f -> unpack_cell f i j = Ok rs -> Forall rec_valid rs.
Proof.
  intros HV. unfold unpack_cell. destruct (head_record f i j) as [r|] eqn:EH; cbn [bind]; [|discriminate].
  apply (head_record_valid _ _ _ _ HV) in EH.
  assert (P : (r0 <- add_parts f i j r ;; Ok [r0]) = Ok rs -> Forall rec_valid rs).
  { destruct (add_parts f i j r) as [r1|] eqn:E; cbn [bind]; [|discriminate]. intros [= <-]. constructor; [exact (add_parts_valid _ _ _ _ _ EH E)|constructor]. }
  destruct (rf_type f); try exact P. clear P.
  destruct (add_parts f i j []) as [values|] eqn:E; cbn [bind]; [|discriminate].
  apply add_parts_valid in E; [|intros k v []].
  assert (P : process_report_text r values = Ok rs -> Forall rec_valid rs) by (apply process_valid; assumption).
  destruct (get k_TEXT values); [exact P|]. destruct (get k_SPCL values); [exact P|]. intros [= <-]. constructor; [apply update_valid; assumption|constructor].
Qed.
Lemma unpack_valid f cs rs : headers_valid f -> unpack f cs = Ok rs -> Forall rec_valid rs.
Proof.
  intros HV. unfold unpack. destruct (mapM _ cs) as [rss|] eqn:E; cbn [bind]; [|discriminate]. intros [= <-]. apply mapM_ok_Forall2 in E.
  apply Forall_concat. apply Forall_forall. intros r Hr. apply (Forall2_in_r _ _ _ _ E) in Hr as ([i j] & _ & Hr). exact (unpack_cell_valid _ _ _ _ HV Hr).
Qed.
Lemma json_valid r o : rec_valid r -> json_of r = Ok o -> valid_dt (ob_time o) = true.
Proof.
  intros HR H. unfold json_of, need_key in H.
  destruct (get k_DATE r) as [dv|] eqn:GD; cbn [bind] in H; [|discriminate H].
  destruct (get k_TIME r) as [tv|] eqn:GT; cbn [bind] in H; [|discriminate H].
  destruct dv as [[d| | | |]| | | | |]; try discriminate H. destruct tv as [[|t| | |]| | | | |]; try discriminate H.
  apply get_in in GD as (k1 & GD). apply get_in in GT as (k2 & GT). apply HR in GD, GT. cbn [hval_valid bind] in GD, GT, H.
  repeat match type of H with bind ?a _ = _ => destruct a; cbn [bind] in H; [|discriminate H] end.
  apply ok_inj in H. subst o. cbn [ob_time].
  unfold valid_dt, combine_dt, date_of, time_of. cbn [dt_y dt_mo dt_d dt_h dt_mi dt_s dt_us]. destruct d as [y0 m0 d0], t as [h0 n0 s0 u0]; cbn [da_y da_mo da_d ti_h ti_mi ti_s ti_us]. rewrite GD, GT. reflexivity.
Qed.
