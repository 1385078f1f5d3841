(** Properties C03-C05, C07, C08, C34, C35, C63, C64 (sounding and surface files). *)
From Coq Require Import Lia ZifyBool ZifyNat Permutation QArith.
From Verif Require Import Base BaseFacts Floats Strings StringsFacts Dates SpecDates DatesFacts Headers HeadersFacts Order OrderFacts
  Structs DmFile DmHookFacts DmReadFacts Layout Station StationFacts StationRead StationCellFacts SpecStation CoordEq HistoryFacts CallFacts
  RoundTripFacts ObjectFacts LimitFacts.
Open Scope Z_scope.

(** ** Sample data *)
Definition bytes_of_result (r : res bytes) : bytes := match r with Ok b => b | Err _ => [] end.
Definition file_or_new (r : res sfile) : sfile := match r with Ok o => o | Err _ => mk_sf KSounding [] [] [] [] 0 0 [] [] None end.
(* 'pres', 'TMPC' *)
Definition ex_params : list str := [[112;114;101;115]; [84;77;80;67]].
Definition ex_info (id : str) (n : Z) : option sinfo :=
  Some (mk_si (Some id) (Some (NNum (PInt n))) (Some (NNum (PInt 300))) (Some [111;107]) (Some [85;83]) None).
Definition ex_t (h : Z) : dtarg := ADDt (mk_dt 2024 2 29 h 30 0 0).
(* two columns of two levels, under names in either letter case and either order *)
Definition ex_call (h : Z) (id : str) (n v : Z) : call :=
  mk_call [([116;109;112;99], [of_Z v; S754_nan]); ([80;82;69;83], [of_Z 1000; of_Z 850])]
    (Some (PFloat (S754_finite false 5348024557502464 (-47)))) (Some (PInt (-97))) (ex_t h) (ex_info id n).
(* 'koun', 'KOKCX5'; the third call replaces the first; one table cell stays empty *)
Definition ex_calls : list call :=
  [ex_call 0 [107;111;117;110] 1 20; ex_call 12 [75;79;75;67;88;53] 2 21; ex_call 0 [75;79;85;78] 1 22].
Definition ex_file (k : kind) (calls : list call) : sfile :=
  file_or_new (match new_file k ex_params false with Ok o => add_all o calls | Err x => Err x end).
Definition ex_one (c : call) : call :=
  with_data c (map (fun '(n, v) => (n, firstn 1 v)) (c_data c)).

(** ** C04 / C05: round trips *)
Theorem C04_sounding_round_trip : forall e params calls o0 o o' b,
  new_file KSounding params false = Ok o0 -> add_all o0 calls = Ok o -> save e o = (o', Ok b) ->
  Forall (call_ok KSounding) calls -> names_ok KSounding (param_names params) ->
  exists f ls recs,
    open_station KSounding b = Ok f /\ info f = Ok ls /\
    unpack f (map (fun l => (ls_row l, ls_col l)) ls) = Ok recs /\ length recs = length ls /\
    Permutation (map (reported KSounding (param_names params)) (combine ls recs))
      (map (expected KSounding (param_names params)) (keep_last (same_entry KSounding) calls)).
Proof. intros. eapply round_trip; eassumption. Qed.
Print Assumptions C04_sounding_round_trip.

Theorem C05_surface_round_trip : forall e params calls o0 o o' b,
  new_file KSurface params false = Ok o0 -> add_all o0 calls = Ok o -> save e o = (o', Ok b) ->
  Forall (call_ok KSurface) calls -> names_ok KSurface (param_names params) ->
  exists f ls recs,
    open_station KSurface b = Ok f /\ info f = Ok ls /\
    unpack f (map (fun l => (ls_row l, ls_col l)) ls) = Ok recs /\ length recs = length ls /\
    Permutation (map (reported KSurface (param_names params)) (combine ls recs))
      (map (expected KSurface (param_names params)) (keep_last (same_entry KSurface) calls)).
Proof. intros. eapply round_trip; eassumption. Qed.
Print Assumptions C05_surface_round_trip.

Lemma ex_call_ok h id n v : 0 <= h <= 23 -> call_ok KSounding (ex_call h id n v) /\ call_ok KSurface (ex_one (ex_call h id n v)) .
Proof.
  intros H. assert (V : valid_dt (mk_dt 2024 2 29 h 30 0 0) = true).
  { unfold valid_dt, valid_time. cbn. lia. }
  split; (split; [exact V|]; split; [unfold time_arg, in_window; cbn; lia|]; split; [split; [reflexivity|]; split; reflexivity|];
    split; [cbn; lia|]; split; [try exact I; repeat constructor|exact I]).
Qed.
Example C04_example : exists o0 o o' b,
  new_file KSounding ex_params false = Ok o0 /\ add_all o0 ex_calls = Ok o /\ save LE o = (o', Ok b) /\
  Forall (call_ok KSounding) ex_calls /\ names_ok KSounding (param_names ex_params) /\
  length (keep_last (same_entry KSounding) ex_calls) = 2%nat.
Proof.
  exists (file_or_new (new_file KSounding ex_params false)), (ex_file KSounding ex_calls),
    (fst (save LE (ex_file KSounding ex_calls))), (bytes_of_result (snd (save LE (ex_file KSounding ex_calls)))).
  split; [reflexivity|]. split; [vm_compute; reflexivity|]. split; [vm_compute; reflexivity|].
  split; [repeat (constructor; [apply ex_call_ok; lia|]); constructor|].
  split; [split; [|exact I]|vm_compute; reflexivity].
  vm_compute. repeat constructor; cbn; intuition discriminate.
Qed.
Example C05_example : exists o0 o o' b,
  new_file KSurface ex_params false = Ok o0 /\ add_all o0 (map ex_one ex_calls) = Ok o /\ save LE o = (o', Ok b) /\
  Forall (call_ok KSurface) (map ex_one ex_calls) /\ names_ok KSurface (param_names ex_params) /\
  length (keep_last (same_entry KSurface) (map ex_one ex_calls)) = 2%nat.
Proof.
  exists (file_or_new (new_file KSurface ex_params false)), (ex_file KSurface (map ex_one ex_calls)),
    (fst (save LE (ex_file KSurface (map ex_one ex_calls)))), (bytes_of_result (snd (save LE (ex_file KSurface (map ex_one ex_calls))))).
  split; [reflexivity|]. split; [vm_compute; reflexivity|]. split; [vm_compute; reflexivity|].
  split; [repeat (constructor; [apply ex_call_ok; lia|]); constructor|].
  split; [split|vm_compute; reflexivity].
  - vm_compute. repeat constructor; cbn; intuition discriminate.
  - split; vm_compute; intuition discriminate.
Qed.

(** ** C03: writing never changes what a later write produces *)
(** In any history of additions (accepted or rejected) and writes, the writes can be left out: the
    next write gives the same bytes (or the same exception), and every field but the pointers is
    the same. *)
Theorem C03_write_repeatable : forall e acts o,
  snd (save e (fold_left act acts o)) = snd (save e (fold_left act (filter is_add acts) o)) /\
  forget (fold_left act acts o) = forget (fold_left act (filter is_add acts) o).
Proof.
  intros e acts o. pose proof (run_forget acts o o eq_refl) as H. split; [|exact H].
  rewrite save_forget, H, <- save_forget. reflexivity.
Qed.
Print Assumptions C03_write_repeatable.
(** In particular n writes in a row all give the same bytes. *)
Theorem C03_n_writes : forall e n o, snd (save e (Nat.iter n (fun o => fst (save e o)) o)) = snd (save e o).
Proof.
  intros e n. induction n as [|n IH]; intros o; [reflexivity|]. cbn [Nat.iter nat_rect].
  rewrite save_forget, save_keeps, <- save_forget. apply IH.
Qed.
Print Assumptions C03_n_writes.
Example C03_example : exists b, snd (save LE (fold_left act [Write LE; Add (ex_call 0 [75] 3 4); Write LE; Write LE]
  (ex_file KSounding ex_calls))) = Ok b /\ Zlen b = 3144.
Proof. eexists. split; vm_compute; reflexivity. Qed.

(** ** C07: an equal entry is replaced, everything else is kept *)
(** What the object holds for the time and station of a call. *)
Definition stored (o : sfile) (c : call) : option (list (list flt)) :=
  match check_call (sf_kind o) (sf_names o) c with
  | Ok (r, st, _) => dict_get key_cmp (r, st) (sf_data o)
  | Err _ => None
  end.
Lemma stored_arg k names o c x : sf_kind o = k -> sf_names o = names -> check_call k names c = Ok x ->
  stored o c = dict_get key_cmp (row_arg c, station_arg k c) (sf_data o).
Proof.
  intros H1 H2 H. unfold stored. rewrite H1, H2, H. apply check_call_spec in H as (-> & _). reflexivity.
Qed.
Theorem C07_duplicate_replaces : forall k params calls c o0 o o',
  new_file k params false = Ok o0 -> add_all o0 calls = Ok o -> add_entry o c = (o', Ok tt) ->
  (* the new values are stored, in the file's parameter order *)
  stored o' c = Some (map (fun n => map fill_nan (given n c)) (param_names params)) /\
  (* nothing else changes *)
  (forall d, same_entry k d c = false -> stored o' d = stored o d) /\
  (* a repeated entry adds no row and no column *)
  (existsb (same_entry k c) calls = true ->
   sf_rows o' = sf_rows o /\ sf_cols o' = sf_cols o /\
   sf_row_headers o' = sf_row_headers o /\ sf_col_headers o' = sf_col_headers o).
Proof.
  intros k params calls c o0 o o' H0 HA HC.
  destruct (new_file_names _ _ _ _ H0) as (HN & _ & _). pose proof (after_new _ _ _ _ H0) as A0. rewrite HN in A0.
  destruct (after_all _ _ _ _ _ _ A0 HA) as (ops & F & A). cbn [app] in A.
  destruct (after_add _ _ _ _ _ _ A HC) as (x & EX & A').
  destruct (check_call_spec _ _ _ _ EX) as (-> & _).
  assert (D' : sf_data o' = dict_set key_cmp (row_arg c, station_arg k c) (cols_arg (param_names params) c) (sf_data o)).
  { rewrite (af_data _ _ _ _ A'), (af_data _ _ _ _ A). unfold dict_of. rewrite fold_left_app. reflexivity. }
  split; [|split].
  - rewrite (stored_arg _ _ _ _ _ (af_kind _ _ _ _ A') (af_names _ _ _ _ A') EX), D'.
    rewrite (dict_set_get _ good_key), (gc_refl good_key). reflexivity.
  - intros d HD. destruct (check_call k (param_names params) d) as [y|] eqn:ED.
    + rewrite (stored_arg _ _ _ _ _ (af_kind _ _ _ _ A') (af_names _ _ _ _ A') ED).
      rewrite (stored_arg _ _ _ _ _ (af_kind _ _ _ _ A) (af_names _ _ _ _ A) ED). rewrite D', (dict_set_get _ good_key).
      rewrite <- same_entry_key, HD. reflexivity.
    + unfold stored. rewrite (af_kind _ _ _ _ A'), (af_names _ _ _ _ A'), (af_kind _ _ _ _ A), (af_names _ _ _ _ A), ED. reflexivity.
  - intros HE. apply existsb_exists in HE as (d & HI & HS). rewrite same_entry_key in HS. apply is_eq_true in HS.
    unfold key_cmp in HS. cbn [fst snd] in HS. apply then_cmp_eq in HS as [HR HT].
    assert (HO : In ((row_arg d, station_arg k d), cols_arg (param_names params) d) ops).
    { clear - F HI. induction F as [|c0 x calls ops H1 F IH]; [destruct HI|]. destruct HI as [->|HI]; [left|right; exact (IH HI)].
      apply check_call_spec in H1 as (-> & _). reflexivity. }
    assert (MR : mem row_cmp (row_arg c) (sf_row_set o) = true).
    { rewrite (af_row_set _ _ _ _ A), (mem_same _ good_row _ _ _ HR).
      apply set_of_has; [exact good_row|]. apply in_map_iff. eexists. split; [|exact HO]. reflexivity. }
    assert (MS : mem station_cmp (station_arg k c) (sf_col_set o) = true).
    { rewrite (af_col_set _ _ _ _ A), (mem_same _ good_station _ _ _ HT).
      apply set_of_has; [exact good_station|]. apply in_map_iff. eexists. split; [|exact HO]. reflexivity. }
    assert (ER : sf_row_set o' = sf_row_set o).
    { transitivity (set_add row_cmp (row_arg c) (sf_row_set o)); [|unfold set_add; rewrite MR; reflexivity].
      rewrite (af_row_set _ _ _ _ A'), (af_row_set _ _ _ _ A), map_app. unfold set_of. rewrite fold_left_app. reflexivity. }
    assert (ES : sf_col_set o' = sf_col_set o).
    { transitivity (set_add station_cmp (station_arg k c) (sf_col_set o)); [|unfold set_add; rewrite MS; reflexivity].
      rewrite (af_col_set _ _ _ _ A'), (af_col_set _ _ _ _ A), map_app. unfold set_of. rewrite fold_left_app. reflexivity. }
    rewrite (af_rows _ _ _ _ A'), (af_rows _ _ _ _ A), (af_cols _ _ _ _ A'), (af_cols _ _ _ _ A),
      (af_row_headers _ _ _ _ A'), (af_row_headers _ _ _ _ A), (af_col_headers _ _ _ _ A'), (af_col_headers _ _ _ _ A), ER, ES. auto.
Qed.
Print Assumptions C07_duplicate_replaces.
Example C07_example : exists o0 o o' c, new_file KSounding ex_params false = Ok o0 /\ add_all o0 ex_calls = Ok o /\
  add_entry o c = (o', Ok tt) /\ existsb (same_entry KSounding c) ex_calls = true /\ o' <> o.
Proof.
  exists (file_or_new (new_file KSounding ex_params false)), (ex_file KSounding ex_calls),
    (fst (add_entry (ex_file KSounding ex_calls) (ex_call 12 [75;79;75;67;88;53] 2 99))), (ex_call 12 [75;79;75;67;88;53] 2 99).
  split; [reflexivity|]. split; [vm_compute; reflexivity|]. split; [vm_compute; reflexivity|]. split; [vm_compute; reflexivity|].
  intros H. apply (f_equal sf_data) in H. vm_compute in H. discriminate H.
Qed.

(** ** C08: rejected additions *)
(** The last addition of a full file raises although the object has changed. *)
Theorem C08_rejected_unchanged_refuted : exists k params calls c o0 o o',
  new_file k params false = Ok o0 /\ add_all o0 calls = Ok o /\ add_entry o c = (o', Err ValueError) /\
  sf_cols o' = sf_cols o + 1.
Proof.
  destruct (many_all 31999) as (o & HA & A); [lia|lia|]. destruct (many_step 31999 o A) as (o' & HE & HC & _); [lia|].
  exists KSounding, [[80;82;69;83]], (map many_call (zrange 31999)), (many_call 31999), many_new, o, o'.
  split; [reflexivity|]. split; [exact HA|]. split; [exact HE|]. rewrite HC.
  rewrite (af_cols _ _ _ _ A). destruct (many_sizes _ _ A) as [_ ->]; [lia|].
  rewrite Zlen_map. unfold Zlen. rewrite zrange_length. reflexivity.
Qed.
Print Assumptions C08_rejected_unchanged_refuted.
(** Every other rejection leaves the object as it was.  Missing for the full claim: the header
    limit, where it is false. *)
Theorem C08_rejected_unchanged_partial : forall o c o' x, add_entry o c = (o', Err x) ->
  o' = o \/ (x = ValueError /\ sf_rows o' + sf_cols o' > 32000).
Proof.
  intros o c o' x. unfold add_entry. destruct (check_call _ _ c) as [[[r st] cols]|y].
  - cbv zeta. destruct (Z.gtb_spec (Zlen (set_add row_cmp r (sf_row_set o)) + Zlen (set_add station_cmp st (sf_col_set o))) MMHDRS) as [H|H].
    + intros [= <- <-]. right. cbn [sf_rows sf_cols]. unfold MMHDRS in H. split; [reflexivity|lia].
    + discriminate.
  - intros [= <- <-]. auto.
Qed.
Print Assumptions C08_rejected_unchanged_partial.
(* unknown parameter, bad station number, unequal columns *)
Example C08_example : forall c, In c [with_data (ex_call 0 [75] 1 2) [([84;77;80;67], [of_Z 1])];
    mk_call (c_data (ex_call 0 [75] 1 2)) (Some (PInt 0)) (Some (PInt 0)) (ex_t 0)
      (Some (mk_si None (Some (NStr [120])) None None None None));
    with_data (ex_call 0 [75] 1 2) [([84;77;80;67], [of_Z 1]); ([80;82;69;83], [of_Z 1000; of_Z 850])]] ->
  exists x, add_entry (ex_file KSounding ex_calls) c = (ex_file KSounding ex_calls, Err x).
Proof. intros c [<-|[<-|[<-|[]]]]; eexists; vm_compute; reflexivity. Qed.

(** ** C34: parameter lists *)
(** 'PRES' then 'pres': two spellings of one name, but ValueError. *)
Theorem C34_parameter_list_refuted : exists params, Zlen params <= 44 /\ Forall (fun p => field_ok (upper p) = true) params /\
  forall k, new_file k params false = Err ValueError.
Proof.
  exists [[80;82;69;83]; [112;114;101;115]]. split; [cbv; discriminate|]. split; [repeat constructor|]. reflexivity.
Qed.
Print Assumptions C34_parameter_list_refuted.
(** Which lists of identifiers are accepted, and what is stored.  Missing for the full claim:
    lists that repeat a name in a spelling other than upper case. *)
Theorem C34_parameter_list_partial : forall k params,
  ((exists o, new_file k params false = Ok o) <->
   Zlen params <= 44 /\ Forall (fun p => field_ok (upper p) = true) params /\
   (forall l p m q r, params = l ++ p :: m ++ q :: r -> upper p = upper q -> q = upper q)) /\
  (forall o, new_file k params false = Ok o -> sf_names o = param_names params /\ NoDup (sf_names o)).
Proof.
  intros k params. split.
  - rewrite new_file_iff. unfold repeats_ok.
    assert (X : forall params : list str, ForallOrdPairs (fun p q => upper p = upper q -> q = upper q) params <->
      forall l p m q r, params = l ++ p :: m ++ q :: r -> upper p = upper q -> q = upper q).
    { clear. induction params as [|a ps IH].
      - split; [|constructor]. intros _ l p m q r H. destruct l; discriminate H.
      - split.
        + intros H l p m q r E EU. inversion H as [|? ? H1 H2]; subst. destruct l as [|b l]; cbn in E; injection E as -> E.
          * rewrite Forall_forall in H1. apply H1; [subst ps; apply in_or_app; right; left; reflexivity|exact EU].
          * exact (proj1 IH H2 _ _ _ _ _ E EU).
        + intros H. constructor.
          * apply Forall_forall. intros q Hq. apply in_split in Hq as (m & r & ->). apply (H [] a m q r). reflexivity.
          * apply IH. intros l p m q r E. apply (H (a :: l) p m q r). cbn. rewrite E. reflexivity. }
    rewrite X. reflexivity.
  - intros o H. destruct (new_file_names _ _ _ _ H) as (H1 & H2 & _). auto.
Qed.
Print Assumptions C34_parameter_list_partial.
Example C34_example : exists o, new_file KSurface [[112;114;101;115]; [84;77;80;67]; [80;82;69;83]; [84;77;80;67]] false = Ok o /\
  sf_names o = [[80;82;69;83]; [84;77;80;67]].
Proof. eexists. split; reflexivity. Qed.

(** ** C35: data goes by name *)
Theorem C35_stored_by_name : forall params calls o0 o c,
  new_file KSounding params false = Ok o0 -> add_all o0 calls = Ok o ->
  (* the order of the dict does not matter *)
  (forall data, NoDup (map (fun kv => upper (fst kv)) (c_data c)) -> Permutation (c_data c) data ->
     add_entry o (with_data c data) = add_entry o c) /\
  (* an accepted dict has exactly the file's parameters, equally long and below 500 levels, and is
     stored in parameter order *)
  (forall o', add_entry o c = (o', Ok tt) ->
     (forall n, In n (map (fun kv => upper (fst kv)) (c_data c)) <-> In n (param_names params)) /\
     (exists levels, levels < 500 /\ forall n, In n (param_names params) -> Zlen (given n c) = levels) /\
     stored o' c = Some (map (fun n => map fill_nan (given n c)) (param_names params))).
Proof.
  intros params calls o0 o c H0 HA. split; [intros data ND P; apply add_entry_perm; assumption|].
  intros o' HC. split; [|split; [|exact (proj1 (C07_duplicate_replaces _ _ _ _ _ _ _ H0 HA HC))]].
  - destruct (new_file_names _ _ _ _ H0) as (HN & _ & _). pose proof (after_new _ _ _ _ H0) as A0. rewrite HN in A0.
    destruct (after_all _ _ _ _ _ _ A0 HA) as (ops & F & A). cbn [app] in A.
    destruct (after_add _ _ _ _ _ _ A HC) as (x & EX & _).
    assert (UK : forall n, In n (map fst (upper_data (c_data c))) <-> In n (map (fun kv => upper (fst kv)) (c_data c))).
    { intros n. unfold upper_data. induction (c_data c) as [|[a v] d IH] using rev_ind; [reflexivity|].
      rewrite fold_left_app, map_app. cbn [fold_left map fst]. rewrite dict_set_keys. rewrite in_app_iff. cbn [In].
      rewrite <- IH. unfold set_add. destruct (mem str_cmp (upper a) _) eqn:EM.
      - split; [auto|]. intros [H|[H|[]]]; [exact H|]. subst n. apply (mem_spec str_cmp) in EM as (y & Hy & E). apply str_cmp_eq in E. subst y. exact Hy.
      - rewrite in_app_iff. cbn [In]. intuition. }
    intros n. rewrite <- UK. split.
    + intros HI. unfold check_call in EX. unfold param_args in EX. destruct (forallb _ (upper_data (c_data c))) eqn:E; [|discriminate EX].
      rewrite forallb_forall in E. apply in_map_iff in HI as ([a v] & <- & HI). apply E in HI. apply existsb_str in HI. exact HI.
    + intros HI. destruct (check_call_spec _ _ _ _ EX) as (_ & _ & _ & HD). apply HD in HI.
      apply dict_get_in in HI as (k' & EK & HI). apply str_cmp_eq in EK. subst k'. apply in_map_iff. eexists. split; [|exact HI]. reflexivity.
  - destruct (new_file_names _ _ _ _ H0) as (HN & _ & _). pose proof (after_new _ _ _ _ H0) as A0. rewrite HN in A0.
    destruct (after_all _ _ _ _ _ _ A0 HA) as (ops & F & A). cbn [app] in A.
    destruct (after_add _ _ _ _ _ _ A HC) as (x & EX & _).
    destruct (check_call_spec _ _ _ _ EX) as (_ & _ & HL & HD). unfold validate_length in HL.
    remember (upper_data (c_data c)) as d eqn:Ed. destruct d as [|[a v] d]; [discriminate HL|].
    destruct (forallb _ _ && _) eqn:E; [|discriminate HL]. apply andb_prop in E as [E1 E2]. rewrite forallb_forall in E1.
    exists (Zlen v). split; [unfold MAX_LEVELS in E2; lia|]. intros n HI. apply HD in HI.
    apply dict_get_in in HI as (k' & _ & HI). apply E1 in HI. cbn in HI. apply Nat.eqb_eq in HI. rewrite map_length in HI. unfold Zlen. lia.
Qed.
Print Assumptions C35_stored_by_name.
Example C35_example : exists o0 o o' c, new_file KSounding ex_params false = Ok o0 /\ add_all o0 ex_calls = Ok o /\
  add_entry o c = (o', Ok tt) /\ NoDup (map (fun kv => upper (fst kv)) (c_data c)) /\
  stored o' c = Some [[of_Z 1000; of_Z 850]; [of_Z 5; missing_float]].
Proof.
  exists (file_or_new (new_file KSounding ex_params false)), (ex_file KSounding ex_calls),
    (fst (add_entry (ex_file KSounding ex_calls) (ex_call 12 [75] 2 5))), (ex_call 12 [75] 2 5).
  split; [reflexivity|]. split; [vm_compute; reflexivity|]. split; [vm_compute; reflexivity|]. split; [|vm_compute; reflexivity].
  vm_compute. repeat constructor; cbn; intuition discriminate.
Qed.

(** ** C63: times given as strings *)
(** A sounding may be given its time as 'YYYYmmddHHMM' or with a forecast hour 'YYYYmmddHHMMFhhh'
    ('F' or 'f', any number of digits): the same as passing the datetime it stands for. *)
Theorem C63_sounding_time_string : forall o c t, sf_kind o = KSounding -> valid_dt t = true ->
  add_entry o (with_time c (ADStr (strftime fmt_YmdHM t))) = add_entry o (with_time c (ADDt (to_minute t))) /\
  (forall digits h f u, f = 70 \/ f = 102 -> (1 <= digits)%nat -> 0 <= h < 10 ^ Z.of_nat digits ->
     valid_dt u = true -> minute_number u = minute_number t + 60 * h -> dt_s u = 0 -> dt_us u = 0 ->
     add_entry o (with_time c (ADStr (strftime fmt_YmdHM t ++ f :: fixed digits h))) = add_entry o (with_time c (ADDt u))).
Proof.
  intros o c t HK V. unfold add_entry, check_call, with_time. rewrite HK. cbn [c_data c_lat c_lon c_time c_info].
  rewrite (sounding_plain t V). split; [reflexivity|].
  intros digits h f u Hf Hd Hh VU EM ES EU. rewrite (sounding_forecast t digits h f V Hf Hd Hh).
  assert (E : add_minutes (to_minute t) (60 * h) = Ok u); [|rewrite E; reflexivity].
  apply add_minutes_complete; [apply valid_to_minute; exact V|exact VU|exact EM|exact ES|exact EU].
Qed.
Print Assumptions C63_sounding_time_string.
(* '202402292330f006' *)
Example C63_example : exists o0 c o' t u, new_file KSounding ex_params false = Ok o0 /\ valid_dt t = true /\ valid_dt u = true /\
  minute_number u = minute_number t + 60 * 6 /\ dt_mo u = 3 /\
  add_entry o0 (with_time c (ADStr (strftime fmt_YmdHM t ++ 102 :: fixed 3 6))) = (o', Ok tt).
Proof.
  exists (file_or_new (new_file KSounding ex_params false)), (ex_call 0 [75] 1 2),
    (fst (add_entry (file_or_new (new_file KSounding ex_params false))
       (with_time (ex_call 0 [75] 1 2) (ADStr (strftime fmt_YmdHM (mk_dt 2024 2 29 23 30 0 0) ++ 102 :: fixed 3 6))))),
    (mk_dt 2024 2 29 23 30 0 0), (mk_dt 2024 3 1 5 30 0 0).
  repeat split; vm_compute; reflexivity.
Qed.
(** A surface report cannot be given its time as a string: every such call raises. *)
Theorem C63_surface_time_string_refuted : forall o c s, sf_kind o = KSurface -> c_time c = ADStr s ->
  exists x, add_entry o c = (o, Err x).
Proof.
  intros o c s HK HT. unfold add_entry. destruct (check_call _ _ c) as [x|x] eqn:E; [exfalso|eauto].
  unfold check_call in E. rewrite HK, HT in E. unfold surface_time in E.
  destruct (param_args _ _); [|discriminate E]. destruct (validate_length _ _); [|discriminate E].
  destruct (need_num (c_lat c)); [|discriminate E]. destruct (need_num (c_lon c)); [|discriminate E]. cbn [bind] in E.
  destruct (strptime _ _); [|discriminate E]. cbn [bind] in E. destruct (station_of _ _ _ _); discriminate E.
Qed.
Print Assumptions C63_surface_time_string_refuted.
Example C63_surface_example : exists o0, new_file KSurface ex_params false = Ok o0 /\ sf_kind o0 = KSurface /\
  add_entry o0 (with_time (ex_one (ex_call 0 [75] 1 2)) (ADStr (strftime fmt_YmdHM (mk_dt 2024 2 29 23 30 0 0)))) =
    (o0, Err AttributeError) /\
  exists o1, add_entry o0 (with_time (ex_one (ex_call 0 [75] 1 2)) (ADDt (mk_dt 2024 2 29 23 30 0 0))) = (o1, Ok tt).
Proof.
  exists (file_or_new (new_file KSurface ex_params false)). repeat split.
  eexists. vm_compute. reflexivity.
Qed.

(** ** C64: every stored parameter can be read back *)
(* 'TEMPA', 'TEMPB': both stored, but a name has four characters in the file *)
Definition ex_long : list str := [[84;69;77;80;65]; [84;69;77;80;66]].
Definition ex_long_call : call := with_data (ex_call 0 [75] 1 2) [([84;69;77;80;65], [of_Z 1]); ([84;69;77;80;66], [of_Z 2])].
Definition ex_long_file : sfile := fst (add_entry (file_or_new (new_file KSounding ex_long false)) ex_long_call).
Definition ex_long_bytes : bytes := bytes_of_result (snd (save LE ex_long_file)).
Definition or_else {A} (d : A) (r : res A) : A := match r with Ok x => x | Err _ => d end.
Definition no_file : rfile := mk_rf (mk_gfile [] LE
  (mk_label 0 0 0 0 0 0 0 0 0 0 0 0 0 0 0 0 0 0 0 S754_nan 0) None [] [] [] [] []) Sounding [] [].
Definition ex_long_record : record := nth 0 (or_else [] (unpack (or_else no_file (open_station KSounding ex_long_bytes)) [(0, 0)])) [].
Definition is_one (v : dval) : bool :=
  match v with DArr [f] => Qeq_bool (q_of f) 1 | _ => false end.
Lemma no_one (r : record) key : existsb is_one (map snd r) = false -> get key r <> Some (DArr [np32 (of_Z 1)]).
Proof.
  intros EX H. apply dict_get_in in H as (k' & _ & H).
  assert (HX : existsb is_one (map snd r) = true); [|rewrite EX in HX; discriminate HX].
  apply existsb_exists. exists (DArr [np32 (of_Z 1)]). split; [|reflexivity]. exact (in_map snd _ _ H).
Qed.
Theorem C64_parameter_readable_refuted : exists params c o0 o o' b f rec,
  new_file KSounding params false = Ok o0 /\ add_entry o0 c = (o, Ok tt) /\ save LE o = (o', Ok b) /\
  open_station KSounding b = Ok f /\ unpack f [(0, 0)] = Ok [rec] /\
  exists n, In n (param_names params) /\ forall key, get key rec <> Some (stored_values KSounding (given n c)).
Proof.
  exists ex_long, ex_long_call, (file_or_new (new_file KSounding ex_long false)), ex_long_file,
    (fst (save LE ex_long_file)), ex_long_bytes,
    (or_else no_file (open_station KSounding ex_long_bytes)),
    ex_long_record.
  split; [vm_compute; reflexivity|]. split; [vm_compute; reflexivity|]. split; [vm_compute; reflexivity|].
  split; [vm_compute; reflexivity|]. split; [vm_compute; reflexivity|].
  exists [84;69;77;80;65]. split; [left; reflexivity|].
  set (v := stored_values KSounding _). assert (EV : v = DArr [np32 (of_Z 1)]) by (vm_compute; reflexivity). rewrite EV.
  intros key. apply no_one. vm_compute. reflexivity.
Qed.
Print Assumptions C64_parameter_readable_refuted.
(** Parameters whose names differ in the first four characters are all readable under those.
    Missing for the full claim: names that share them, where it is false. *)
Theorem C64_parameter_readable_partial : forall k params calls o0 o o' b,
  new_file k params false = Ok o0 -> add_all o0 calls = Ok o -> save LE o = (o', Ok b) ->
  Forall (call_ok k) calls -> names_ok k (param_names params) ->
  exists f ls recs, open_station k b = Ok f /\ info f = Ok ls /\
    unpack f (map (fun l => (ls_row l, ls_col l)) ls) = Ok recs /\
    forall c, In c (keep_last (same_entry k) calls) -> exists rec, In rec recs /\
      forall n, In n (param_names params) -> get (firstn 4 n) rec = Some (stored_values k (given n c)).
Proof.
  intros k params calls o0 o o' b H1 H2 H3 H4 H5.
  destruct (round_trip k LE params calls o0 o o' b H1 H2 H3 H4 H5) as (f & ls & recs & E1 & E2 & E3 & E4 & P).
  exists f, ls, recs. split; [exact E1|]. split; [exact E2|]. split; [exact E3|].
  intros c HC. apply (in_map (expected k (param_names params))) in HC. apply (Permutation_in _ (Permutation_sym P)) in HC.
  apply in_map_iff in HC as ([l r] & E & HI). exists r. split; [exact (in_combine_r _ _ _ _ HI)|].
  apply (f_equal en_values) in E. unfold reported, expected in E. cbn [en_values] in E.
  intros n Hn. revert E Hn. generalize (param_names params) as names. induction names as [|m names IH]; intros E []; injection E as E0 E.
  - subst. exact E0.
  - apply IH; assumption.
Qed.
Print Assumptions C64_parameter_readable_partial.
Example C64_example : exists o0 o o' b,
  new_file KSounding ex_params false = Ok o0 /\ add_all o0 ex_calls = Ok o /\ save LE o = (o', Ok b) /\
  Forall (call_ok KSounding) ex_calls /\ names_ok KSounding (param_names ex_params).
Proof.
  destruct C04_example as (o0 & o & o' & b & H1 & H2 & H3 & H4 & H5 & _). exists o0, o, o', b. auto.
Qed.
