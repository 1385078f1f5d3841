(** What one successful call contributes, in the words of SpecStation.v. *)
From Coq Require Import Lia ZifyBool ZifyNat.
From Verif Require Import Base BaseFacts Floats Strings StringsFacts Dates SpecDates DatesFacts Headers Order OrderFacts
  DmFile DmHookFacts DmReadFacts Station StationFacts StationRead StationCellFacts SpecStation CoordEq.
Open Scope Z_scope.

Lemma upper_data_get n d : dict_get str_cmp n (upper_data d) =
  match find (fun '(k, _) => str_eqb (upper k) n) (rev d) with
  | Some (_, v) => Some (map fill_nan v)
  | None => None
  end.
Proof.
  unfold upper_data. induction d as [|[k v] d IH] using rev_ind; [reflexivity|].
  rewrite fold_left_app, rev_app_distr. cbn [fold_left rev app find].
  rewrite (dict_set_get _ good_str), IH. destruct (str_eqb (upper k) n) eqn:E.
  - apply str_eqb_spec in E. subst n. rewrite (gc_refl good_str). reflexivity.
  - destruct (str_cmp n (upper k)) eqn:E2; cbn [is_eq]; try reflexivity. apply str_cmp_eq in E2. subst n.
    rewrite (proj2 (str_eqb_spec _ _) eq_refl) in E. discriminate E.
Qed.
Lemma upper_data_len P d : Forall (fun '(_, v) => P (length v)) d -> forall n (v : list flt),
  dict_get str_cmp n (upper_data d) = Some v -> P (length v).
Proof.
  intros H n v HD. rewrite upper_data_get in HD. destruct (find _ (rev d)) as [[k w]|] eqn:E; [|discriminate HD].
  injection HD as <-. rewrite map_length. apply find_some in E as [E _]. apply in_rev in E. rewrite Forall_forall in H. exact (H _ E).
Qed.

Lemma param_args_spec names c cols : param_args names (upper_data (c_data c)) = Ok cols ->
  cols = map (fun n => map fill_nan (given n c)) names /\
  (forall n, In n names -> dict_get str_cmp n (upper_data (c_data c)) = Some (map fill_nan (given n c))).
Proof.
  unfold param_args. destruct (forallb _ _); [|discriminate]. intros H.
  assert (X : forall l cs, mapM (fun n => match dict_get str_cmp n (upper_data (c_data c)) with Some v => Ok v | None => Err TypeError end) l = Ok cs ->
    cs = map (fun n => map fill_nan (given n c)) l /\
    (forall n, In n l -> dict_get str_cmp n (upper_data (c_data c)) = Some (map fill_nan (given n c)))).
  { clear. induction l as [|n l IH]; intros cs H; cbn [mapM] in H.
    - apply ok_inj in H. subst. split; [reflexivity|intros n []].
    - destruct (dict_get _ _ _) as [v|] eqn:E; cbn [bind] in H; [|discriminate H].
      destruct (mapM _ l) as [vs|]; cbn [bind] in H; [|discriminate H]. apply ok_inj in H. subst cs.
      destruct (IH vs eq_refl) as [-> I2].
      assert (G : v = map fill_nan (given n c)).
      { rewrite upper_data_get in E. unfold given. destruct (find _ (rev (c_data c))) as [[k w]|]; [|discriminate E]. injection E as <-. reflexivity. }
      subst v. split; [reflexivity|]. intros m [->|Hm]; [exact E|apply I2; exact Hm]. }
  exact (X names cols H).
Qed.

Lemma split_stid_eq (s : str) : split_stid s = (firstn 4 (upper s), firstn 4 (skipn 4 (upper s))).
Proof.
  unfold split_stid. destruct (Z.ltb_spec 4 (Zlen (upper s))) as [H|H]; [reflexivity|]. unfold Zlen in H.
  rewrite firstn_all2 by lia. rewrite skipn_all2 by lia. reflexivity.
Qed.

Definition station_arg (k : kind) (c : call) : station :=
  mk_stn (firstn 4 (text_arg si_id c)) (int_arg si_number c) (num_arg (c_lat c)) (num_arg (c_lon c))
    (int_arg si_elev c) (firstn 4 (text_arg si_state c)) (firstn 4 (text_arg si_country c))
    (firstn 4 (skipn 4 (text_arg si_id c))) (pri_arg k c).
Definition row_arg (c : call) : row := (date_of (time_arg c), time_of (time_arg c)).
Definition cols_arg (names : list str) (c : call) : list (list flt) := map (fun n => map fill_nan (given n c)) names.

Lemma station_of_spec k c lat lon st : c_lat c = Some lat -> c_lon c = Some lon ->
  station_of k lat lon (c_info c) = Ok st -> st = station_arg k c.
Proof.
  intros HA HO H. unfold station_arg, int_arg, text_arg, pri_arg. rewrite HA, HO. unfold station_of in H.
  destruct (c_info c) as [i|].
  - destruct (int_of_arg (si_number i)) as [nm|]; cbn [bind] in H; [|discriminate H].
    destruct (int_of_arg (si_elev i)) as [el|]; cbn [bind] in H; [|discriminate H].
    rewrite split_stid_eq in H. apply ok_inj in H. subst st. unfold opt_str. destruct k; [reflexivity|].
    destruct (si_priority i); reflexivity.
  - apply ok_inj in H. subst st. destruct k; reflexivity.
Qed.

Lemma check_call_spec k names c x : check_call k names c = Ok x ->
  x = ((row_arg c, station_arg k c), cols_arg names c) /\
  (exists t, sounding_time (c_time c) = Ok t) /\ validate_length k (upper_data (c_data c)) = Ok tt /\
  (forall n, In n names -> dict_get str_cmp n (upper_data (c_data c)) = Some (map fill_nan (given n c))).
Proof.
  unfold check_call. intros H.
  destruct (param_args names (upper_data (c_data c))) as [cols|] eqn:EP; cbn [bind] in H; [|discriminate H].
  apply param_args_spec in EP as [-> EG].
  destruct (validate_length k _) as [[]|]; cbn [bind] in H; [|discriminate H].
  destruct (c_lat c) as [lat|] eqn:EA; cbn [need_num bind] in H; [|discriminate H].
  destruct (c_lon c) as [lon|] eqn:EO; cbn [need_num bind] in H; [|discriminate H].
  destruct k.
  - destruct (sounding_time (c_time c)) as [t|] eqn:ET; cbn [bind] in H; [|discriminate H].
    destruct (station_of KSounding lat lon (c_info c)) as [st|] eqn:ES; cbn [bind] in H; [|discriminate H].
    apply ok_inj in H. subst x. apply station_of_spec in ES; try assumption. subst st.
    unfold row_arg, time_arg, cols_arg. rewrite ET. eauto.
  - destruct (surface_time (c_time c)) as [ot|] eqn:ET; cbn [bind] in H; [|discriminate H].
    destruct (station_of KSurface lat lon (c_info c)) as [st|] eqn:ES; cbn [bind] in H; [|discriminate H].
    destruct ot as [t|]; [|discriminate H].
    apply ok_inj in H. subst x. apply station_of_spec in ES; try assumption. subst st.
    assert (E : c_time c = ADDt t).
    { unfold surface_time in ET. destruct (c_time c); [|congruence|discriminate ET].
      destruct (strptime _ _); discriminate ET. }
    unfold row_arg, time_arg, cols_arg. rewrite E. cbn [sounding_time]. eauto.
Qed.

Lemma strptime_valid fs s t : strptime fs s = Ok t -> valid_dt t = true.
Proof.
  unfold strptime. intros H. destruct (match_fmt fs s) as [[vs [|? ?]]|]; try discriminate H.
  destruct (valid_dt _) eqn:E in H; [|discriminate H]. apply ok_inj in H. subst. exact E.
Qed.
Lemma time_arg_valid k c t : call_ok k c -> sounding_time (c_time c) = Ok t -> valid_dt t = true.
Proof.
  intros [H _] E. unfold sounding_time in E. destruct (c_time c) as [s|t'|]; [|congruence|discriminate E].
  destruct (existsb _ _).
  - destruct (split_on _ _) as [[|i [|f [|? ?]]] ?]; try discriminate E.
    destruct (strptime _ _) as [t0|] eqn:E0; cbn [bind] in E; [|discriminate E].
    destruct (py_int f) as [h|]; cbn [bind] in E; [|discriminate E].
    apply strptime_valid in E0. exact (proj1 (add_minutes_spec _ _ _ E0 E)).
  - exact (strptime_valid _ _ _ E).
Qed.
Lemma row_arg_ok k c t : call_ok k c -> sounding_time (c_time c) = Ok t -> row_ok (row_arg c).
Proof.
  intros H E. pose proof (time_arg_valid _ _ _ H E) as V. destruct H as (_ & W & _).
  unfold row_ok, row_arg. cbn [fst snd]. replace (time_arg c) with t in * by (unfold time_arg; rewrite E; reflexivity).
  unfold valid_dt in V. apply andb_prop in V as [V1 V2]. split; [exact V1|]. split; [exact V2|exact W].
Qed.

Lemma cols_arg_shaped k names c : call_ok k c -> validate_length k (upper_data (c_data c)) = Ok tt ->
  (forall n, In n names -> dict_get str_cmp n (upper_data (c_data c)) = Some (map fill_nan (given n c))) ->
  shaped k names (cols_arg names c).
Proof.
  intros (_ & _ & _ & _ & HV & _) HL HD. split; [unfold cols_arg; apply map_length|]. destruct k.
  - unfold validate_length in HL. remember (upper_data (c_data c)) as d. destruct d as [|[k0 v0] d]; [discriminate HL|].
    destruct (forallb _ _ && _) eqn:E; [|discriminate HL]. apply andb_prop in E as [E _]. rewrite forallb_forall in E.
    exists (length v0). apply Forall_forall. intros x Hx. apply in_map_iff in Hx as (n & <- & Hn).
    specialize (HD n Hn). apply (dict_get_in str_cmp) in HD as (k' & _ & HI). apply E in HI. cbn in HI. apply Nat.eqb_eq in HI. exact HI.
  - apply Forall_forall. intros x Hx. apply in_map_iff in Hx as (n & <- & Hn).
    exact (upper_data_len (fun l => l = 1%nat) _ HV n _ (HD n Hn)).
Qed.

(** ** Keys *)
Lemma firstn8 {A} (u v : list A) : firstn 8 u = firstn 8 v <-> firstn 4 u = firstn 4 v /\ firstn 4 (skipn 4 u) = firstn 4 (skipn 4 v).
Proof.
  assert (S : forall w : list A, firstn 8 w = firstn 4 w ++ firstn 4 (skipn 4 w)).
  { intros w. do 4 (destruct w as [|? w]; [reflexivity|]). reflexivity. }
  assert (F4 : forall w : list A, firstn 4 (firstn 8 w) = firstn 4 w) by (intros; rewrite firstn_firstn; reflexivity).
  assert (S4 : forall w : list A, skipn 4 (firstn 8 w) = firstn 4 (skipn 4 w)) by (intros; rewrite skipn_firstn_comm; reflexivity).
  split.
  - intros H. split; [rewrite <- (F4 u), <- (F4 v), H|rewrite <- (S4 u), <- (S4 v), H]; reflexivity.
  - intros [H1 H2]. rewrite (S u), (S v), H1, H2. reflexivity.
Qed.
Lemma same_time_spec a b : same_time a b = true <-> a = b.
Proof.
  unfold same_time. rewrite !andb_true_iff, !Z.eqb_eq. destruct a, b; cbn. split.
  - intros ((((((-> & ->) & ->) & ->) & ->) & ->) & ->). reflexivity.
  - intros [= -> -> -> -> -> -> ->]. auto 10.
Qed.
Lemma row_arg_eq a b : row_cmp (row_arg a) (row_arg b) = Eq <-> time_arg a = time_arg b.
Proof.
  unfold row_cmp, row_arg. cbn [fst snd]. rewrite then_cmp_eq, date_cmp_eq, time_cmp_eq.
  unfold date_of, time_of. destruct (time_arg a), (time_arg b); cbn. split.
  - intros [[= -> -> ->] [= -> -> -> ->]]. reflexivity.
  - intros [= -> -> -> -> -> -> ->]. auto.
Qed.
Lemma same_entry_key k a b : same_entry k a b = is_eq (key_cmp (row_arg a, station_arg k a) (row_arg b, station_arg k b)).
Proof.
  apply eq_true_iff_eq. rewrite is_eq_true. unfold key_cmp, station_cmp. cbn [fst snd]. rewrite !then_cmp_eq, row_arg_eq.
  cbn [station_arg s_id s_nm s_lat s_lon s_elv s_stat s_coun s_id2 s_pri].
  rewrite !str_cmp_eq, !Z.compare_eq_iff. unfold same_entry, same_num.
  rewrite !andb_true_iff, !str_eqb_spec, !is_eq_true, !Z.eqb_eq, same_time_spec.
  assert (F : @eq str (firstn 8 (text_arg si_id a)) (firstn 8 (text_arg si_id b)) <->
    @eq str (firstn 4 (text_arg si_id a)) (firstn 4 (text_arg si_id b)) /\
    @eq str (firstn 4 (skipn 4 (text_arg si_id a))) (firstn 4 (skipn 4 (text_arg si_id b)))) by apply firstn8.
  rewrite F. tauto.
Qed.

(** ** Names *)
Lemma existsb_str x l : existsb (str_eqb x) l = true <-> In x l.
Proof.
  rewrite existsb_exists. split; [intros (y & H1 & H2); apply str_eqb_spec in H2; subst; exact H1|].
  intros H. exists x. split; [exact H|]. apply str_eqb_spec. reflexivity.
Qed.
Lemma existsb_str_false x l : existsb (str_eqb x) l = false <-> ~ In x l.
Proof. rewrite <- existsb_str. destruct (existsb _ _); intuition congruence. Qed.
Lemma nodupb_spec l : nodupb l = true <-> NoDup l.
Proof.
  induction l as [|x l IH]; cbn; [intuition constructor|]. rewrite andb_true_iff, IH, negb_true_iff, existsb_str_false. split.
  - intros [H1 H2]. constructor; assumption.
  - intros H. inversion H; auto.
Qed.
Lemma uniq_in l x : In x (uniq l) <-> In x l.
Proof.
  revert x; induction l as [|y l IH]; intros x; [reflexivity|]. cbn. rewrite filter_In, IH. split.
  - intros [H|[H _]]; auto.
  - intros [H|H]; [auto|]. destruct (str_eqb y x) eqn:E; [left; apply str_eqb_spec; exact E|right; auto].
Qed.
Lemma uniq_nodup l : NoDup (uniq l).
Proof.
  induction l as [|y l IH]; cbn; constructor.
  - rewrite filter_In. intros [_ H]. rewrite (proj2 (str_eqb_spec y y) eq_refl) in H. discriminate H.
  - apply NoDup_filter. exact IH.
Qed.
Lemma filter_all {A} (p : A -> bool) l : (forall x, In x l -> p x = true) -> filter p l = l.
Proof. induction l as [|x l IH]; intros H; [reflexivity|]. cbn. rewrite (H x) by (left; reflexivity). rewrite IH; [reflexivity|]. intros; apply H; right; assumption. Qed.
Lemma uniq_id l : NoDup l -> uniq l = l.
Proof.
  induction 1 as [|x l H1 H2 IH]; [reflexivity|]. cbn. rewrite IH. f_equal. apply filter_all. intros y Hy.
  destruct (str_eqb x y) eqn:E; [|reflexivity]. apply str_eqb_spec in E. subst. contradiction.
Qed.
Lemma uniq_app l m : uniq (l ++ m) = uniq l ++ filter (fun y => negb (existsb (str_eqb y) l)) (uniq m).
Proof.
  induction l as [|x l IH]; cbn.
  - symmetry. apply filter_all. reflexivity.
  - rewrite IH, filter_app. f_equal. f_equal.
    clear IH. induction (uniq m) as [|y u IHu]; [reflexivity|]. cbn [filter].
    assert (SY : str_eqb y x = str_eqb x y) by (apply eq_true_iff_eq; rewrite !str_eqb_spec; intuition congruence).
    cbn [existsb]. rewrite SY.
    destruct (existsb (str_eqb y) l) eqn:E; cbn [negb filter orb]; rewrite ?orb_true_r, ?orb_false_r; cbn [negb]; [exact IHu|].
    destruct (str_eqb x y); cbn [negb]; [exact IHu|rewrite IHu; reflexivity].
Qed.
Lemma add_parameters_uniq params : NoDup (add_parameters params) -> add_parameters params = param_names params.
Proof.
  unfold add_parameters, param_names. induction params as [|p params IH] using rev_ind; [reflexivity|].
  rewrite fold_left_app, map_app, uniq_app. cbn [fold_left map].
  set (names := fold_left _ params []) in *.
  destruct (existsb (str_eqb p) names) eqn:E; intros ND.
  - rewrite (IH ND) in *. clearbody names. apply existsb_str in E. rewrite uniq_in in E.
    assert (EU : upper p = p).
    { apply in_map_iff in E as (q & <- & _). clear. unfold upper. rewrite map_map. apply map_ext. intros c. unfold upper_c.
      destruct ((97 <=? c) && (c <=? 122)) eqn:H; [|rewrite H; reflexivity]. replace ((97 <=? c - 32) && (c - 32 <=? 122)) with false by lia. reflexivity. }
    rewrite EU. cbn [uniq filter]. rewrite (proj2 (existsb_str p _) E). cbn. rewrite app_nil_r. reflexivity.
  - assert (ND' : NoDup names) by (apply NoDup_remove_1 in ND; rewrite app_nil_r in ND; exact ND).
    assert (NI : ~ In (upper p) names) by (apply NoDup_remove_2 in ND; rewrite app_nil_r in ND; exact ND).
    rewrite (IH ND') in *. rewrite uniq_in in NI. cbn [uniq filter].
    rewrite (proj2 (existsb_str_false _ _) NI). reflexivity.
Qed.
Lemma new_file_names k params pd o : new_file k params pd = Ok o ->
  sf_names o = param_names params /\ NoDup (sf_names o) /\ forallb field_ok (sf_names o) = true.
Proof.
  unfold new_file. intros H. destruct (_ >? _); [discriminate H|]. destruct (negb _) eqn:E; [discriminate H|].
  destruct pd; [discriminate H|]. apply ok_inj in H. subst o. cbn [sf_names].
  apply negb_false_iff in E. apply andb_prop in E as [E1 E2]. apply nodupb_spec in E2. split; [apply add_parameters_uniq|]; auto.
Qed.
Lemma field_ok_clean n : field_ok n = true -> clean n = firstn 4 n.
Proof.
  intros H. unfold clean.
  assert (NS : forall c, In c n -> is_space c = false).
  { destruct n as [|c r]; [intros ? []|]. cbn in H. apply andb_prop in H as [H1 H2]. rewrite forallb_forall in H2.
    intros x [<-|Hx]; [unfold is_alpha, is_space in *; lia|]. apply H2 in Hx. unfold is_alpha, is_digit, is_space in *. lia. }
  assert (SUB : forall c, In c (firstn 4 n) -> In c n).
  { intros c Hc. rewrite <- (firstn_skipn 4 n). apply in_or_app. left. exact Hc. }
  apply strip_id; intros c r E; apply NS, SUB; rewrite E; [left; reflexivity|apply in_or_app; right; left; reflexivity].
Qed.
Lemma clean_names names : forallb field_ok names = true -> map clean names = map (firstn 4) names.
Proof. intros H. rewrite forallb_forall in H. apply map_ext_in. intros n Hn. apply field_ok_clean. apply H. exact Hn. Qed.
