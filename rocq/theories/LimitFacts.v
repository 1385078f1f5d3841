(** The header limit, and which parameter lists are accepted. *)
From Coq Require Import Lia ZifyBool ZifyNat Permutation Sorted.
From Verif Require Import Base BaseFacts Floats Strings StringsFacts Dates SpecDates DatesFacts Headers HeadersFacts Order OrderFacts
  DmFile DmHookFacts DmReadFacts Layout Station StationFacts StationRead StationCellFacts SpecStation CoordEq HistoryFacts CallFacts.
Open Scope Z_scope.

Lemma nth_error_lt {A} (l : list A) i x : nth_error l i = Some x -> (i < length l)%nat.
Proof. intros H. apply nth_error_Some. congruence. Qed.
Lemma set_of_id {K} (cmp : K -> K -> comparison) (G : good_cmp cmp) l : forall s, distinct cmp (s ++ l) -> set_of cmp l s = s ++ l.
Proof.
  induction l as [|x l IH]; intros s D; [rewrite app_nil_r; reflexivity|]. cbn [set_of fold_left].
  fold (set_of cmp l (set_add cmp x s)).
  assert (E : set_add cmp x s = s ++ [x]).
  { unfold set_add. replace (mem cmp x s) with false; [reflexivity|]. symmetry. apply (mem_false cmp). intros y Hy HE.
    apply In_nth_error in Hy as (i & Hi).
    apply (proj1 (distinct_alt _ G _) D (length s) i x y); [rewrite nth_error_app2, Nat.sub_diag by lia; reflexivity| |apply nth_error_lt in Hi; lia|exact HE].
    rewrite nth_error_app1 by (apply nth_error_lt in Hi; exact Hi). exact Hi. }
  rewrite E. rewrite IH; rewrite <- app_assoc; [reflexivity|exact D].
Qed.
Lemma set_of_const {K} (cmp : K -> K -> comparison) (G : good_cmp cmp) x n : set_of cmp (repeat x n) [x] = [x].
Proof.
  induction n as [|n IH]; [reflexivity|]. cbn [repeat set_of fold_left].
  assert (E : set_add cmp x [x] = [x]) by (unfold set_add, mem; cbn; rewrite (gc_refl G); reflexivity).
  rewrite E. exact IH.
Qed.

(** Stations numbered 0, 1, 2, ..., one sounding each, all at the same time. *)
Definition many_call (i : Z) : call :=
  mk_call [([80;82;69;83], [of_Z 1000])] (Some (PInt 0)) (Some (PInt 0)) (ADDt (mk_dt 2020 1 1 0 0 0 0))
    (Some (mk_si None (Some (NNum (PInt i))) None None None None)).
Definition many_row : row := (mk_date 2020 1 1, mk_time 0 0 0 0).
Definition many_station (i : Z) : station := mk_stn [] i (PInt 0) (PInt 0) missing_int [] [] [] (PInt 0).
Definition many_op (i : Z) : op := ((many_row, many_station i), [[of_Z 1000]]).
Lemma many_check i : check_call KSounding [[80;82;69;83]] (many_call i) = Ok (many_op i).
Proof. reflexivity. Qed.
Definition many_new : sfile := mk_sf KSounding [[80;82;69;83]] [] [] [] 0 0 [] [] None.

Lemma many_sizes n o : after KSounding [[80;82;69;83]] (map many_op (zrange n)) o -> 1 <= n ->
  sf_row_set o = [many_row] /\ sf_col_set o = map many_station (zrange n).
Proof.
  intros A Hn. rewrite (af_row_set _ _ _ _ A), (af_col_set _ _ _ _ A). rewrite !map_map. cbn [fst snd many_op]. split.
  - assert (E : map (fun _ : Z => many_row) (zrange n) = many_row :: repeat many_row (Z.to_nat (n - 1))).
    { unfold zrange. rewrite map_map. replace (Z.to_nat n) with (S (Z.to_nat (n - 1))) by lia. cbn [seq map]. f_equal.
      generalize (Z.to_nat (n - 1)) as m, 1%nat as i. induction m as [|m IH]; intros i; [reflexivity|]. cbn. f_equal. apply IH. }
    rewrite E. cbn [set_of fold_left]. exact (set_of_const row_cmp good_row many_row _).
  - change (fun x : Z => many_station x) with many_station.
    apply (set_of_id _ good_station _ []). cbn [app].
    unfold zrange. rewrite map_map. generalize (Z.to_nat n) as m. intros m. generalize 0%nat as i. induction m as [|m IH]; intros i; [constructor|].
    cbn [seq map]. constructor; [|apply IH]. apply Forall_forall. intros s Hs HE. apply in_map_iff in Hs as (j & <- & Hj). apply in_seq in Hj.
    unfold station_cmp in HE. apply then_cmp_eq in HE as [_ HE]. apply then_cmp_eq in HE as [HE _]. cbn [many_station s_nm] in HE.
    apply Z.compare_eq in HE. lia.
Qed.
Lemma many_step n o : after KSounding [[80;82;69;83]] (map many_op (zrange n)) o -> 0 <= n ->
  exists o', add_entry o (many_call n) = (o', if n <? 31999 then Ok tt else Err ValueError) /\
    sf_cols o' = n + 1 /\ (n < 31999 -> after KSounding [[80;82;69;83]] (map many_op (zrange (n + 1))) o').
Proof.
  intros A Hn.
  assert (AT : exists o', add_entry o (many_call n) = (o', if Zlen (set_add row_cmp many_row (sf_row_set o)) + Zlen (set_add station_cmp (many_station n) (sf_col_set o)) >? MMHDRS then Err ValueError else Ok tt) /\
     sf_row_set o' = set_add row_cmp many_row (sf_row_set o) /\ sf_col_set o' = set_add station_cmp (many_station n) (sf_col_set o) /\
     sf_cols o' = Zlen (set_add station_cmp (many_station n) (sf_col_set o))).
  { unfold add_entry. rewrite (af_kind _ _ _ _ A), (af_names _ _ _ _ A), many_check. cbv zeta. unfold many_op.
    destruct (_ >? MMHDRS); eexists; repeat split. }
  destruct AT as (o' & E & R & C & NC).
  assert (SZ : set_add row_cmp many_row (sf_row_set o) = [many_row] /\
               set_add station_cmp (many_station n) (sf_col_set o) = map many_station (zrange (n + 1))).
  { rewrite (af_row_set _ _ _ _ A), (af_col_set _ _ _ _ A).
    assert (A2 : set_add row_cmp many_row (set_of row_cmp (map (fun x => fst (fst x)) (map many_op (zrange n))) []) =
      set_of row_cmp (map (fun x => fst (fst x)) (map many_op (zrange (n + 1)))) [] /\
      set_add station_cmp (many_station n) (set_of station_cmp (map (fun x => snd (fst x)) (map many_op (zrange n))) []) =
      set_of station_cmp (map (fun x => snd (fst x)) (map many_op (zrange (n + 1)))) []).
    { rewrite zrange_S by exact Hn. rewrite !map_app. unfold set_of. rewrite !fold_left_app. split; reflexivity. }
    destruct A2 as [-> ->].
    set (ob := mk_sf KSounding [[80;82;69;83]] (set_of row_cmp (map (fun x => fst (fst x)) (map many_op (zrange (n + 1)))) [])
      (set_of station_cmp (map (fun x => snd (fst x)) (map many_op (zrange (n + 1)))) []) (dict_of key_cmp (map many_op (zrange (n + 1))) []) 
      (Zlen (set_of row_cmp (map (fun x => fst (fst x)) (map many_op (zrange (n + 1)))) []))
      (Zlen (set_of station_cmp (map (fun x => snd (fst x)) (map many_op (zrange (n + 1)))) []))
      (sort row_cmp (set_of row_cmp (map (fun x => fst (fst x)) (map many_op (zrange (n + 1)))) []))
      (sort station_cmp (set_of station_cmp (map (fun x => snd (fst x)) (map many_op (zrange (n + 1)))) [])) None).
    apply (many_sizes (n + 1) ob); [constructor; reflexivity|lia]. }
  destruct SZ as [S1 S2]. rewrite S1, S2 in *.
  assert (L1 : Zlen [many_row] = 1) by reflexivity.
  assert (L2 : Zlen (map many_station (zrange (n + 1))) = n + 1) by (rewrite Zlen_map; unfold Zlen, zrange; rewrite map_length, seq_length; lia).
  exists o'. rewrite L1, L2 in *. split; [|split; [exact NC|]].
  - rewrite E. f_equal. unfold MMHDRS. destruct (Z.ltb_spec n 31999); destruct (Z.gtb_spec (1 + (n + 1)) 32000); try lia; reflexivity.
  - intros Hlt. replace (1 + (n + 1) >? MMHDRS) with false in E by (unfold MMHDRS; lia).
    destruct (after_add _ _ _ _ _ _ A E) as (x & EX & A'). rewrite many_check in EX. apply ok_inj in EX. subst x.
    rewrite zrange_S by exact Hn. rewrite map_app. exact A'.
Qed.
Lemma many_all n : 0 <= n -> n <= 31999 -> exists o, add_all many_new (map many_call (zrange n)) = Ok o /\
  after KSounding [[80;82;69;83]] (map many_op (zrange n)) o.
Proof.
  intros H0. pattern n. apply natlike_ind; [| |exact H0]; clear n H0.
  - intros _. exists many_new. split; [reflexivity|]. constructor; reflexivity.
  - intros n Hn IH HL. destruct IH as (o & E & A); [lia|]. destruct (many_step n o A Hn) as (o' & E' & _ & A').
    exists o'. replace (Z.succ n) with (n + 1) by lia. split; [|apply A'; lia].
    rewrite zrange_S by exact Hn. rewrite map_app. unfold add_all in *. rewrite foldM_app, E. cbn [bind map foldM].
    rewrite E'. replace (n <? 31999) with true by lia. reflexivity.
Qed.

(** ** Accepted parameter lists *)
(** A repeated name (in any letter case) must be repeated in upper case. *)
Definition repeats_ok (params : list str) : Prop := ForallOrdPairs (fun p q => upper p = upper q -> q = upper q) params.
Lemma upper_upper p : upper (upper p) = upper p.
Proof.
  unfold upper. rewrite map_map. apply map_ext. intros c. unfold upper_c.
  destruct ((97 <=? c) && (c <=? 122)) eqn:H; [|rewrite H; reflexivity]. replace ((97 <=? c - 32) && (c - 32 <=? 122)) with false by lia. reflexivity.
Qed.
Lemma fop_snoc {A} (R : A -> A -> Prop) l x : ForallOrdPairs R (l ++ [x]) <-> ForallOrdPairs R l /\ Forall (fun y => R y x) l.
Proof.
  induction l as [|a l IH]; cbn.
  - split; [intros _; split; constructor|intros _; constructor; constructor].
  - split.
    + intros H. inversion H as [|? ? H1 H2]; subst. apply Forall_app in H1 as [H1 H3]. inversion H3; subst. apply IH in H2 as [H2 H4].
      split; constructor; assumption.
    + intros [H1 H2]. inversion H1 as [|? ? H3 H4]; subst. inversion H2 as [|? ? H5 H6]; subst.
      constructor; [apply Forall_app; split; [assumption|constructor; [assumption|constructor]]|apply IH; auto].
Qed.
Lemma add_parameters_nodup params : NoDup (add_parameters params) <-> repeats_ok params.
Proof.
  unfold repeats_ok. induction params as [|p params IH] using rev_ind; [split; constructor|].
  rewrite fop_snoc, <- IH. unfold add_parameters in *. rewrite fold_left_app. cbn [fold_left].
  set (names := fold_left _ params []) in *.
  assert (HU : NoDup names -> forall q, In q names <-> exists r, In r params /\ q = upper r).
  { intros ND q. unfold names. fold (add_parameters params). rewrite (add_parameters_uniq params ND). unfold param_names. rewrite uniq_in, in_map_iff.
    split; intros (r & H1 & H2); exists r; auto. }
  destruct (existsb (str_eqb p) names) eqn:E.
  - split; [|tauto]. intros ND. split; [exact ND|]. apply existsb_str in E. apply (HU ND) in E as (r & _ & ->).
    apply Forall_forall. intros y _ _. symmetry. apply upper_upper.
  - apply existsb_str_false in E. split.
    + intros ND. pose proof (NoDup_remove_1 _ _ _ ND) as N1. pose proof (NoDup_remove_2 _ _ _ ND) as N2. rewrite app_nil_r in N1, N2.
      split; [exact N1|]. apply Forall_forall. intros y Hy EU. exfalso. apply N2. apply (HU N1). exists y. auto.
    + intros [ND HF]. apply NoDup_app_disj; [exact ND|constructor; [intros []|constructor]|].
      intros q Hq [<-|[]]. apply (HU ND) in Hq as (r & Hr & Eq). rewrite Forall_forall in HF.
      pose proof (HF r Hr (eq_sym Eq)) as EP. rewrite <- EP in Eq. apply E. apply (HU ND). exists r. auto.
Qed.
Lemma new_file_iff k params : (exists o, new_file k params false = Ok o) <->
  Zlen params <= 44 /\ Forall (fun p => field_ok (upper p) = true) params /\ repeats_ok params.
Proof.
  unfold new_file. cbv zeta. rewrite <- add_parameters_nodup. unfold MMPARM.
  destruct (Z.gtb_spec (Zlen params) 44) as [H|H]; [split; [intros (? & ?); discriminate|intros (? & _); lia]|].
  destruct (forallb field_ok (add_parameters params) && nodupb (add_parameters params)) eqn:E; cbn [negb].
  - split; [|eauto]. intros _. apply andb_prop in E as [E1 E2]. apply nodupb_spec in E2. split; [lia|]. split; [|exact E2].
    rewrite (add_parameters_uniq _ E2) in E1. rewrite forallb_forall in E1. apply Forall_forall. intros p Hp. apply E1.
    unfold param_names. rewrite uniq_in. apply in_map. exact Hp.
  - split; [intros (? & ?); discriminate|]. intros (_ & HF & ND). exfalso.
    rewrite (proj2 (nodupb_spec _) ND), andb_true_r in E. rewrite (add_parameters_uniq _ ND) in E.
    rewrite (proj2 (forallb_forall _ _)) in E; [discriminate E|]. intros q Hq. unfold param_names in Hq. rewrite uniq_in in Hq.
    apply in_map_iff in Hq as (p & <- & Hp). rewrite Forall_forall in HF. exact (HF p Hp).
Qed.
