(** Properties C61, C68: surface report text. *)
From Coq Require Import Lia ZifyBool ZifyNat.
From Verif Require Import Base BaseFacts Floats Strings StringsFacts Dates SpecDates DatesFacts Headers Order OrderFacts DmFile DmHookFacts
  Station Text SpecText StationRead StationCellFacts Query SpecQuery QueryFacts.
From Verif Require Props_Station Props_Query.
Open Scope Z_scope.

(** ** Time groups *)
Lemma time_here_spec s d h m : time_here s = Some (d, h, m) <-> group_at_start s d h m.
Proof.
  split.
  - destruct s as [|a [|b [|c [|e [|f [|g [|z rest]]]]]]]; try discriminate. cbn [time_here].
    destruct (forallb is_digit [a; b; c; e; f; g] && (z =? 90)) eqn:E; [|discriminate]. intros [= <- <- <-].
    cbn [forallb] in E. unfold is_digit in E. assert (z = 90) by lia. subst z.
    exists a, b, c, e, f, g, rest. split; [reflexivity|]. unfold digits2, num2. repeat split; lia.
  - intros (a & b & c & e & f & g & rest & -> & (A1 & A2 & ->) & (B1 & B2 & ->) & (C1 & C2 & ->)). cbn [app time_here forallb].
    unfold is_digit. replace (_ && (90 =? 90)) with true by lia. reflexivity.
Qed.
Lemma time_re_spec s : match time_re s with Some (d, h, m) => first_group s d h m | None => no_group s end.
Proof.
  induction s as [|c s IH].
  - cbn. intros before after d h m E (a & b & c' & e & f & g & rest & -> & _). destruct before; discriminate E.
  - cbn [time_re]. destruct (time_here (c :: s)) as [[[d h] m]|] eqn:E.
    + apply (proj1 (time_here_spec _ _ _ _)) in E. exists [], (c :: s). split; [reflexivity|]. split; [exact E|]. intros. cbn. lia.
    + assert (N : forall d h m, ~ group_at_start (c :: s) d h m) by (intros d h m H; apply (proj2 (time_here_spec _ _ _ _)) in H; congruence).
      destruct (time_re s) as [[[d h] m]|].
      * destruct IH as (b & a & -> & HG & HF). exists (c :: b), a. split; [reflexivity|]. split; [exact HG|].
        intros [|x b'] a' d' h' m' HE HG'; [cbn in HE; subst a'; destruct (N _ _ _ HG')|]. cbn in HE. injection HE as -> HE.
        specialize (HF _ _ _ _ _ HE HG'). cbn. lia.
      * intros [|x b'] a' d' h' m' HE HG'; [cbn in HE; subst a'; exact (N _ _ _ HG')|]. cbn in HE. injection HE as -> HE.
        exact (IH _ _ _ _ _ HE HG').
Qed.
(** The first group is unique. *)
Lemma group_det s d h m d' h' m' : group_at_start s d h m -> group_at_start s d' h' m' -> d = d' /\ h = h' /\ m = m'.
Proof. intros A B. apply (proj2 (time_here_spec _ _ _ _)) in A, B. rewrite A in B. injection B as -> -> ->. auto. Qed.
Lemma first_group_det s d h m d' h' m' : first_group s d h m -> first_group s d' h' m' -> d = d' /\ h = h' /\ m = m'.
Proof.
  intros (b & a & E & G & F) (b' & a' & E' & G' & F'). assert (L : length b = length b').
  { pose proof (F _ _ _ _ _ E' G'). pose proof (F' _ _ _ _ _ E G). lia. }
  assert (HB : a = a').
  { rewrite E in E'. clear - E' L. revert b' E' L. induction b as [|x b IH]; intros [|y b'] E' L; try discriminate L; [exact E'|].
    cbn in E'. injection E' as _ E'. apply (IH b' E'). cbn in L. lia. }
  subst a'. exact (group_det _ _ _ _ _ _ _ G G').
Qed.

(** ** Pieces *)
Lemma strip_prefix_spec p : forall s r, strip_prefix p s = Some r <-> s = p ++ r.
Proof.
  induction p as [|a p IH]; intros s r; cbn [strip_prefix app]; [split; [intros [= ->]; reflexivity|intros ->; reflexivity]|].
  destruct s as [|b s]; [split; discriminate|]. destruct (Z.eqb_spec a b) as [->|N].
  - rewrite IH. split; [intros ->; reflexivity|intros [= ->]; reflexivity].
  - split; [discriminate|]. intros [= -> _]. destruct (N eq_refl).
Qed.
Lemma split_fuel_spec sub n : sub <> [] -> forall s, (length s < n)%nat -> pieces sub s (split_fuel n sub s).
Proof.
  intros HN. induction n as [|n IH]; intros s HL; [lia|]. cbn [split_fuel].
  destruct (strip_prefix sub s) as [r|] eqn:E.
  - apply strip_prefix_spec in E. subst s. apply (pieces_more sub [] r); [intros; cbn; lia|].
    apply IH. destruct sub; [congruence|]. rewrite app_length in HL. cbn in HL. lia.
  - assert (NP : forall r, s <> sub ++ r) by (intros r H; apply strip_prefix_spec in H; congruence).
    destruct s as [|c s].
    + apply pieces_last. intros a b H. destruct a; [exact (NP b H)|discriminate H].
    + assert (P : pieces sub s (split_fuel n sub s)) by (apply IH; cbn in HL; lia).
      destruct P as [s H|p r l H P].
      * apply pieces_last. intros [|x a] b HE; [exact (NP b HE)|]. cbn in HE. injection HE as -> HE. exact (H a b HE).
      * apply (pieces_more sub (c :: p) r); [|exact P]. intros [|x a] b HE; [destruct (NP b HE)|].
        cbn in HE. injection HE as -> HE. specialize (H a b HE). cbn. lia.
Qed.
Lemma split_sub_spec sub s : sub <> [] -> pieces sub s (split_sub sub s).
Proof. intros H. apply split_fuel_spec; [exact H|lia]. Qed.
Lemma pieces_join sub s l : pieces sub s l -> exists p r, l = p :: r /\ s = p ++ concat (map (fun q => sub ++ q) r).
Proof.
  induction 1 as [s H|p r l H P (q & t & -> & ->)].
  - exists s, []. split; [reflexivity|]. cbn. rewrite app_nil_r. reflexivity.
  - exists p, (q :: t). split; [reflexivity|]. cbn [map concat]. rewrite <- app_assoc. reflexivity.
Qed.
Lemma station_re_spec s : match station_re s with Some stn => station_of s stn | None => forall stn, ~ station_of s stn end.
Proof.
  assert (U : forall c, is_upper c = true <-> capital c) by (intros c; unfold is_upper, capital; lia).
  assert (A : forall c, is_upper c || is_digit c = true <-> alnum c) by (intros c; unfold is_upper, is_digit, alnum, capital; lia).
  destruct s as [|a [|b [|c [|d [|w rest]]]]]; cbn [station_re];
    try (intros stn (x1 & x2 & x3 & x4 & x5 & x6 & -> & E & _); discriminate E).
  destruct (_ && _) eqn:E.
  - apply andb_true_iff in E as [E E5]. apply andb_true_iff in E as [E E4]. apply andb_true_iff in E as [E E3]. apply andb_true_iff in E as [E1 E2].
    exists a, b, c, d, w, rest. split; [reflexivity|]. split; [reflexivity|]. rewrite <- (U a), <- (A b), <- (A c), <- (A d). auto.
  - intros stn (x1 & x2 & x3 & x4 & x5 & x6 & -> & HE & H1 & H2 & H3 & H4 & H5). injection HE as -> -> -> -> -> ->.
    apply U in H1. apply A in H2, H3, H4. rewrite H1, H2, H3, H4, H5 in E. discriminate E.
Qed.

(** ** C61 *)
(** A text that names its station several times holds several reports: each is the station
    followed by what comes up to its next occurrence. *)
Theorem C61_split : forall txt stn, station_of txt stn ->
  exists ps, pieces stn txt ([] :: ps) /\ txt = concat (map (fun p => stn ++ p) ps) /\
    text_reports txt = match ps with
                       | _ :: _ :: _ => map (fun p => strip (stn ++ p)) (filter (fun p => negb (str_eqb p [])) ps)
                       | _ => [strip txt]
                       end.
Proof.
  intros txt stn HS. pose proof (station_re_spec txt) as R. destruct (station_re txt) as [stn'|] eqn:ER; [|destruct (R _ HS)].
  assert (stn' = stn).
  { destruct HS as (a & b & c & d & w & rest & -> & -> & _). destruct R as (a' & b' & c' & d' & w' & rest' & -> & E & _). injection E as -> -> -> -> _ _. reflexivity. }
  subst stn'. clear R. assert (NE : stn <> []) by (destruct HS as (a & b & c & d & w & rest & -> & _); discriminate).
  pose proof (split_sub_spec stn txt NE) as P. unfold text_reports. rewrite ER. unfold count_sub.
  assert (Q : exists ps, split_sub stn txt = [] :: ps).
  { destruct P as [s H|p r l H P].
    - exfalso. destruct HS as (a & b & c & d & w & rest & -> & E & _). apply (H [] (w :: rest)). exact E.
    - destruct HS as (a & b & c & d & w & rest & E1 & E2 & _). specialize (H [] (w :: rest) E2). destruct p; [|cbn in H; lia]. exists l. reflexivity. }
  destruct Q as (ps & EQ). rewrite EQ in *. exists ps. split; [exact P|].
  split; [destruct (pieces_join _ _ _ P) as (p & r & [= <- <-] & E); exact E|].
  destruct ps as [|p1 [|p2 ps]]; [reflexivity|reflexivity|].
  match goal with |- (if ?c then _ else _) = _ => assert (HC : c = true); [|rewrite HC; reflexivity] end. unfold Zlen. cbn [length]. lia.
Qed.
Print Assumptions C61_split.
(** A text without a station is one report unless it has dashes twice. *)
Theorem C61_no_station : forall txt, (forall stn, ~ station_of txt stn) ->
  (forall a b c, txt <> a ++ [45;45;45;45] ++ b ++ [45;45;45;45] ++ c) -> text_reports txt = [strip txt].
Proof.
  intros txt HS HD. unfold text_reports. pose proof (station_re_spec txt) as R. destruct (station_re txt); [destruct (HS _ R)|]. clear R.
  assert (NE : no_station <> []) by discriminate.
  pose proof (split_sub_spec no_station txt NE) as P. unfold count_sub. destruct (pieces_join _ _ _ P) as (p & r & -> & E).
  destruct r as [|p1 [|p2 r]]; [reflexivity|reflexivity|]. exfalso. cbn [map concat] in E.
  apply (HD p p1 (p2 ++ concat (map (fun q => no_station ++ q) r))). rewrite E. unfold no_station. rewrite <- !app_assoc. reflexivity.
Qed.
Print Assumptions C61_no_station.
(** The time of a special report. *)
Lemma special_time_spec d t rpt : valid_date d = true -> valid_time t = true ->
  exists x, special_time d t rpt = Ok x /\ special_at d t rpt x.
Proof.
  intros VD VT. assert (VG : valid_dt (mk_dt (da_y d) (da_mo d) (da_d d) (ti_h t) (ti_mi t) 0 0) = true).
  { unfold valid_dt, valid_date, valid_time in *. cbn [dt_y dt_mo dt_d dt_h dt_mi dt_s dt_us date_of time_of da_y da_mo da_d ti_h ti_mi ti_s ti_us] in *. lia. }
  assert (HG : make_dt (da_y d) (da_mo d) (da_d d) (ti_h t) (ti_mi t) = Ok (mk_dt (da_y d) (da_mo d) (da_d d) (ti_h t) (ti_mi t) 0 0)).
  { unfold make_dt. cbv zeta. rewrite VG. reflexivity. }
  unfold special_time. cbv zeta. rewrite HG. pose proof (time_re_spec rpt) as R. destruct (time_re rpt) as [[[dd hh] mm]|].
  - unfold make_dt. cbv zeta. destruct (valid_dt (mk_dt (da_y d) (da_mo d) dd hh mm 0 0)) eqn:E; (eexists; split; [reflexivity|]).
    + left. exists dd, hh, mm. auto.
    + right. split; [right; exists dd, hh, mm; auto|reflexivity].
  - eexists. split; [reflexivity|]. right. auto.
Qed.
(** What a report gets for a key: the decoded value, else the header entry. *)
Definition merged (report values : record) (k : str) : option dval :=
  match get k values with Some v => Some v | None => get k report end.
Lemma get_del k m r : get m (del k r) = if str_eqb k m then None else get m r.
Proof.
  unfold get, del. induction r as [|[k' v] r IH]; cbn [filter dict_get]; [destruct (str_eqb k m); reflexivity|].
  destruct (str_eqb k k') eqn:E1; cbn [negb].
  - apply str_eqb_spec in E1. subst k'. rewrite IH. destruct (str_eqb k m) eqn:E2; [reflexivity|].
    destruct (str_cmp m k) eqn:E3; cbn [is_eq]; try reflexivity. apply str_cmp_eq in E3. subst m. rewrite (proj2 (str_eqb_spec k k) eq_refl) in E2. discriminate E2.
  - cbn [dict_get]. destruct (str_cmp m k') eqn:E3; cbn [is_eq]; try exact IH. apply str_cmp_eq in E3. subst m. rewrite E1. reflexivity.
Qed.
Lemma get_some_in k r v : get k r = Some v -> In (k, v) r.
Proof.
  unfold get. induction r as [|[k' v'] r IH]; cbn [dict_get]; [discriminate|]. destruct (str_cmp k k') eqn:E; cbn [is_eq]; try (intros H; right; apply IH, H).
  apply str_cmp_eq in E. subst k'. intros [= ->]. left. reflexivity.
Qed.
Lemma get_none_in k r : get k r = None -> ~ In k (map fst r).
Proof.
  unfold get. induction r as [|[k' v'] r IH]; cbn [dict_get map fst]; [intros _ []|]. destruct (str_cmp k k') eqn:E; cbn [is_eq]; try discriminate;
    intros H [HI|HI]; try (exact (IH H HI)); subst k'; rewrite (proj2 (str_cmp_eq k k) eq_refl) in E; discriminate E.
Qed.
Lemma get_update_merged report vals k : NoDup (map fst vals) -> get k (update report vals) = merged report vals k.
Proof.
  intros ND. unfold merged. destruct (get k vals) as [v|] eqn:E; [apply get_update; [exact ND|apply get_some_in, E]|].
  apply get_update_other. apply get_none_in, E.
Qed.
Lemma NoDup_del k r : NoDup (map fst r) -> NoDup (map fst (del k r)).
Proof.
  unfold del. induction r as [|[k' v] r IH]; intros H; [exact H|]. cbn [map fst] in H. inversion H as [|? ? N1 N2]; subst. cbn [filter].
  destruct (negb _); [|exact (IH N2)]. cbn [map fst]. constructor; [|exact (IH N2)]. intros HI. apply N1. apply in_map_iff in HI as (x & <- & Hx).
  apply filter_In in Hx as [Hx _]. apply in_map, Hx.
Qed.
Lemma add_parts_nodup f i j r r' : NoDup (map fst r) -> add_parts f i j r = Ok r' -> NoDup (map fst r').
Proof.
  assert (F : forall {A} (g : record -> A -> res record) l, (forall r a r', NoDup (map fst r) -> g r a = Ok r' -> NoDup (map fst r')) ->
     forall r r', NoDup (map fst r) -> foldM g l r = Ok r' -> NoDup (map fst r')).
  { intros A g l HG. induction l as [|a l IH]; intros r0 r1 HR; cbn [foldM]; [intros [= <-]; exact HR|].
    destruct (g r0 a) as [r2|] eqn:E; cbn [bind]; [|discriminate]. apply IH. exact (HG _ _ _ HR E). }
  intros HR. unfold add_parts. apply F; [|exact HR]. intros r0 [n [part q]] r1 H0. unfold add_part. cbv zeta.
  destruct (_ =? 0); [intros [= <-]; exact H0|]. destruct (read_block _ _ _ _) as [b|]; cbn [bind]; [|discriminate].
  unfold add_values. apply F; [|exact H0]. intros r2 [m nm] r3 H2.
  match goal with |- bind ?a _ = _ -> _ => destruct a as [v|]; cbn [bind]; [|discriminate] end. intros [= <-].
  unfold put. rewrite dict_set_keys. apply (distinct_NoDup _ good_str). apply (set_add_distinct _ good_str).
  clear - H2. unfold distinct. induction (map fst r2) as [|x l IH]; [constructor|]. inversion H2 as [|? ? N1 N2]; subst. constructor; [|exact (IH N2)].
  apply Forall_forall. intros y Hy E. apply str_cmp_eq in E. subst y. contradiction.
Qed.

Definition is_text_key (k : str) : bool := str_eqb k k_TEXT || str_eqb k k_SPCL.
(** The records of one cell: one for every report in the regular text, one for every report in
    the special text. *)
Theorem C61_records : forall f i j report values d t text spcl recs,
  rf_type f = Standard -> head_record f i j = Ok report -> add_parts f i j [] = Ok values ->
  get k_DATE report = Some (DHead (HDate d)) -> get k_TIME report = Some (DHead (HTime t)) ->
  valid_date d = true -> valid_time t = true ->
  get k_DATE values = None -> get k_TIME values = None ->
  (get k_TEXT values = Some (DStr text) \/ (get k_TEXT values = None /\ text = [])) ->
  (get k_SPCL values = Some (DStr spcl) \/ (get k_SPCL values = None /\ spcl = [])) ->
  (get k_TEXT values <> None \/ get k_SPCL values <> None) ->
  unpack_cell f i j = Ok recs ->
  exists regular special, recs = regular ++ special /\
    (* regular reports keep the file's time and carry the decoded values *)
    Forall2 (fun rpt r => get k_TEXT r = Some (DStr rpt) /\ get k_DATE r = Some (DHead (HDate d)) /\ get k_TIME r = Some (DHead (HTime t)) /\
        forall k, is_text_key k = false -> get k r = merged report values k)
      (match text with [] => [] | _ => text_reports text end) regular /\
    (* special reports have their own time, and the values only when there is no regular text *)
    Forall2 (fun rpt r => get k_SPCL r = Some (DStr rpt) /\
        (exists x, special_at d t rpt x /\ get k_DATE r = Some (DHead (HDate (date_of x))) /\ get k_TIME r = Some (DHead (HTime (time_of x)))) /\
        forall k, is_text_key k = false -> k <> k_DATE -> k <> k_TIME ->
          get k r = match text with [] => merged report values k | _ => get k report end)
      (match spcl with [] => [] | _ => text_reports spcl end) special.
Proof.
  intros f i j report values d t text spcl recs HTY HH HA HD HT VD VT VND VNT HTX HSP HNE HU.
  assert (ND : NoDup (map fst values)) by (apply (add_parts_nodup f i j [] values); [constructor|exact HA]).
  assert (HP : process_report_text report values = Ok recs).
  { unfold unpack_cell in HU. rewrite HH, HTY, HA in HU. cbn [bind] in HU.
    destruct (get k_TEXT values); [exact HU|]. destruct (get k_SPCL values); [exact HU|]. destruct HNE as [H|H]; destruct (H eq_refl). }
  unfold process_report_text in HP. rewrite HD, HT in HP. cbv zeta in HP.
  assert (T1 : text_of (get k_TEXT values) = Ok text) by (destruct HTX as [->|[-> ->]]; reflexivity).
  assert (T2 : text_of (get k_SPCL values) = Ok spcl) by (destruct HSP as [->|[-> ->]]; reflexivity).
  rewrite T1, T2 in HP. cbn [bind] in HP.
  set (vals := del k_SPCL (del k_TEXT values)) in *.
  assert (NV : NoDup (map fst vals)) by (apply NoDup_del, NoDup_del, ND).
  assert (GV : forall k, get k vals = if is_text_key k then None else get k values).
  { intros k. unfold vals. rewrite !get_del. unfold is_text_key.
    assert (S : forall a b, str_eqb a b = str_eqb b a). { intros a b. apply eq_true_iff_eq. rewrite !str_eqb_spec. split; auto. }
    rewrite (S k_TEXT k), (S k_SPCL k). destruct (str_eqb k k_TEXT), (str_eqb k k_SPCL); reflexivity. }
  clearbody vals.
  assert (GU : forall r k, is_text_key k = false -> get k (update r vals) = match get k values with Some v => Some v | None => get k r end).
  { intros r k H. rewrite get_update_merged by exact NV. unfold merged. rewrite GV, H. reflexivity. }
  assert (PO : forall k k' v r, k <> k' -> get k (put k' v r) = get k r).
  { intros k k' v r N. rewrite get_put. destruct (str_cmp k k') eqn:E; cbn [is_eq]; try reflexivity. apply str_cmp_eq in E. congruence. }
  assert (PS : forall k v r, get k (put k v r) = Some v).
  { intros k v r. rewrite get_put, (proj2 (str_cmp_eq k k) eq_refl). reflexivity. }
  assert (TK : forall k, is_text_key k = false -> k <> k_TEXT /\ k <> k_SPCL).
  { intros k H. unfold is_text_key in H. apply orb_false_iff in H as [H1 H2]. split; intros ->; rewrite (proj2 (str_eqb_spec _ _) eq_refl) in *; discriminate. }
  match type of HP with bind ?a _ = _ => destruct a as [r1|] eqn:E1; cbn [bind] in HP; [|discriminate HP] end.
  match type of HP with bind ?a _ = _ => destruct a as [r2|] eqn:E2; cbn [bind] in HP; [|discriminate HP] end.
  apply ok_inj in HP. subst recs. exists r1, r2. split; [reflexivity|]. split.
  - destruct text as [|c text]; [injection E1 as <-; constructor|]. cbn [str_eqb] in E1.
    apply mapM_ok_Forall2 in E1. clear - E1 HD HT VND VNT GU PO PS TK. induction E1 as [|x y l l' H F IH]; constructor; [|exact IH].
    injection H as <-. split; [apply PS|].
    split; [rewrite PO by discriminate; rewrite GU by reflexivity; rewrite VND; exact HD|].
    split; [rewrite PO by discriminate; rewrite GU by reflexivity; rewrite VNT; exact HT|].
    intros k H. rewrite PO by (apply TK, H). rewrite GU by exact H. reflexivity.
  - destruct spcl as [|c spcl]; [injection E2 as <-; constructor|]. cbn [str_eqb] in E2.
    apply mapM_ok_Forall2 in E2. clear - E2 HD HT VD VT VND VNT GU PO PS TK. induction E2 as [|x y l l' H F IH]; constructor; [|exact IH].
    destruct (special_time_spec d t x VD VT) as (dt & ED & HS). rewrite ED in H. cbn [bind] in H. cbv zeta in H. injection H as <-.
    split; [apply PS|]. split.
    + exists dt. split; [exact HS|]. rewrite !(PO _ k_SPCL) by discriminate. destruct text as [|c' text]; cbn [str_eqb].
      * rewrite !GU by reflexivity. rewrite VND, VNT. rewrite PO by discriminate. rewrite !PS. auto.
      * rewrite PO by discriminate. rewrite !PS. auto.
    + intros k H N1 N2. rewrite PO by (apply TK, H). destruct text as [|c' text]; cbn [str_eqb].
      * rewrite GU by exact H. rewrite !PO by assumption. reflexivity.
      * rewrite !PO by assumption. reflexivity.
Qed.
Print Assumptions C61_records.

(** ** A file with report text *)
(** Written with one cell on 2024-01-01 00:00 and then patched: the part becomes a character part
    with the single parameter SPCL, the data become two reports. *)
Definition splice (at_ : nat) (new l : bytes) : bytes := firstn at_ l ++ new ++ skipn (at_ + length new) l.
Definition ex_jan1 : call :=
  mk_call [([116;109;112;99], [of_Z 20]); ([80;82;69;83], [of_Z 1000])]
    (Some (PInt 35)) (Some (PInt (-97))) (ADDt (mk_dt 2024 1 1 0 0 0 0))
    (Some (mk_si (Some [75;79;85;78]) (Some (NNum (PInt 1))) (Some (NNum (PInt 300))) (Some [79;75]) (Some [85;83]) None)).
(* 'KOUN 312358Z AUTO KOUN 010005Z X' *)
Definition ex_special : str := [75;79;85;78;32;51;49;50;51;53;56;90;32;65;85;84;79;32;75;79;85;78;32;48;49;48;48;48;53;90;32;88].
Definition ex_written : bytes := Props_Station.bytes_of_result (snd (save LE (Props_Station.ex_file KSurface [ex_jan1]))).
Definition ex_text_bytes : bytes :=
  splice 3080 ex_special (splice 3072 [9] (splice 2064 [83;80;67;76] (splice 2060 [1] (splice 2056 [3] ex_written)))).
Definition ex_cell (r : res rfile) : list record := match r with Ok f => match unpack_cell f 0 0 with Ok l => l | Err _ => [] end | Err _ => [] end.
Definition ex_values (r : res rfile) : record := match r with Ok f => match add_parts f 0 0 [] with Ok l => l | Err _ => [] end | Err _ => [] end.
Definition ex_type (r : res rfile) : option stype := match r with Ok f => Some (rf_type f) | Err _ => None end.
(** The hypotheses of C61_records hold for it. *)
Example C61_example :
  ex_type (open_station KSurface ex_text_bytes) = Some Standard /\
  ex_values (open_station KSurface ex_text_bytes) = [(k_SPCL, DStr ex_special)] /\
  map (get k_SPCL) (ex_cell (open_station KSurface ex_text_bytes)) = [Some (DStr [75;79;85;78;32;51;49;50;51;53;56;90;32;65;85;84;79]); Some (DStr [75;79;85;78;32;48;49;48;48;48;53;90;32;88])] /\
  map (get k_DATE) (ex_cell (open_station KSurface ex_text_bytes)) = [Some (DHead (HDate (mk_date 2024 1 31))); Some (DHead (HDate (mk_date 2024 1 1)))] /\
  map (get k_TIME) (ex_cell (open_station KSurface ex_text_bytes)) = [Some (DHead (HTime (mk_time 23 58 0 0))); Some (DHead (HTime (mk_time 0 5 0 0)))].
Proof. split; [vm_compute; reflexivity|]. split; [vm_compute; reflexivity|]. split; [vm_compute; reflexivity|]. split; vm_compute; reflexivity. Qed.

(** ** C68: a report is at most a day from the time it is filed under *)
(** Refuted: the day of a special report is placed in the month of the file's time, so one observed
    just before the turn of the month ends up a month late. *)
Definition time_in (r : record) : option dtime :=
  match get k_DATE r with
  | Some (DHead (HDate d)) => match get k_TIME r with Some (DHead (HTime t)) => Some (combine_dt d t) | _ => None end
  | _ => None
  end.
Lemma cell_gen b x r rest : Props_Query.listings (open_station KSurface b) = [x] -> ex_cell (open_station KSurface b) = r :: rest ->
  exists f, open_station KSurface b = Ok f /\ info f = Ok [x] /\ exists recs, unpack_cell f 0 0 = Ok recs /\ In r recs.
Proof.
  destruct (open_station KSurface b) as [f|]; [|discriminate]. cbn [Props_Query.listings ex_cell]. intros H1 H2. exists f. split; [reflexivity|].
  destruct (info f) as [l|]; [|discriminate H1]. subst l. split; [reflexivity|]. destruct (unpack_cell f 0 0) as [l|]; [|discriminate H2]. exists l.
  split; [reflexivity|]. subst l. left. reflexivity.
Qed.
Theorem C68_special_day_refuted : exists d f x recs r t,
  open_station KSurface d = Ok f /\ info f = Ok [x] /\ unpack_cell f (ls_row x) (ls_col x) = Ok recs /\ In r recs /\
  time_in r = Some t /\ instant t - instant (ls_time x) > 30 * 24 * 60 * 60000000.
Proof.
  assert (H1 : exists x, Props_Query.listings (open_station KSurface ex_text_bytes) = [x] /\ ls_row x = 0 /\ ls_col x = 0 /\ ls_time x = mk_dt 2024 1 1 0 0 0 0).
  { vm_compute. eexists. split; [reflexivity|]. split; [reflexivity|]. split; reflexivity. }
  assert (H2 : exists r rest, ex_cell (open_station KSurface ex_text_bytes) = r :: rest /\ time_in r = Some (mk_dt 2024 1 31 23 58 0 0)).
  { vm_compute. eexists. eexists. split; reflexivity. }
  destruct H1 as (x & H1 & X1 & X2 & X3). destruct H2 as (r & rest & H2 & H3).
  destruct (cell_gen _ _ _ _ H1 H2) as (f & A & B & recs & C & D).
  exists ex_text_bytes, f, x, recs, r, (mk_dt 2024 1 31 23 58 0 0). rewrite X1, X2, X3.
  split; [exact A|]. split; [exact B|]. split; [exact C|]. split; [exact D|]. split; [exact H3|]. vm_compute. reflexivity.
Qed.
Print Assumptions C68_special_day_refuted.
(** What holds: a special report stays in the year and month it is filed under, to the minute. *)
Theorem C68_special_day_partial : forall d t rpt x, valid_date d = true -> valid_time t = true ->
  special_time d t rpt = Ok x -> valid_dt x = true /\ dt_y x = da_y d /\ dt_mo x = da_mo d /\ dt_s x = 0 /\ dt_us x = 0 /\
  (forall dd h m, first_group rpt dd h m -> valid_dt (mk_dt (da_y d) (da_mo d) dd h m 0 0) = true -> dt_d x = dd /\ dt_h x = h /\ dt_mi x = m).
Proof.
  intros d t rpt x VD VT H. split; [exact (special_time_valid _ _ _ _ H)|].
  destruct (special_time_spec d t rpt VD VT) as (x' & E & HS). rewrite E in H. apply ok_inj in H. subst x'.
  destruct HS as [(dd & h & m & HG & -> & HV)|[HN ->]]; cbn [dt_y dt_mo dt_d dt_h dt_mi dt_s dt_us]; repeat (split; [reflexivity|]).
  - intros d' h' m' HG' _. destruct (first_group_det _ _ _ _ _ _ _ HG HG') as (-> & -> & ->). auto.
  - intros d' h' m' HG' HV. exfalso. destruct HN as [HN|(d2 & h2 & m2 & HG & HF)].
    + destruct HG' as (b & a & E2 & G & _). exact (HN _ _ _ _ _ E2 G).
    + destruct (first_group_det _ _ _ _ _ _ _ HG HG') as (-> & -> & ->). congruence.
Qed.
Print Assumptions C68_special_day_partial.
Example C68_example : special_time (mk_date 2024 2 29) (mk_time 12 0 0 0) [75;79;85;78;32;50;57;49;49;52;55;90] = Ok (mk_dt 2024 2 29 11 47 0 0) /\
  special_time (mk_date 2024 2 29) (mk_time 12 0 0 0) [75;79;85;78;32;51;48;49;49;52;55;90] = Ok (mk_dt 2024 2 29 12 0 0 0).
Proof. split; vm_compute; reflexivity. Qed.
