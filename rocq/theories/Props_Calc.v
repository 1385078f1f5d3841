(** Properties C57 (any arithmetic), C58, C59, C70, C71: the sounding calculations. *)
From Coq Require Import Lia ZifyBool ZifyNat.
From Verif Require Import Base Floats Calc CalcNum SpecCalc CalcFacts.
From Coq Require Import List ZArith Bool SpecFloat.
Import ListNotations.
Open Scope Z_scope.

(** Soundings for the examples; [MI] stands for the missing value *)
Definition MI : Z := -9999.
Definition snd_of (p h t d r v : list Z) : sounding flt :=
  let f := map of_Z in mk_sounding (f p) (f h) (f t) (f d) (f r) (f v).

(** ** C57 *)

(** Whatever the arithmetic: a target pressure not strictly between the two levels' pressures, or
    a level pressure that is not positive, is refused. *)
Theorem C57_rejects : forall A v adata bdata m,
  interp_parameters A v adata bdata m = Err ValueError <->
  ~ ((n_lt A (adata PRES) v = true /\ n_lt A v (bdata PRES) = true /\ n_lt A (adata PRES) (bdata PRES) = true \/
      n_lt A (bdata PRES) v = true /\ n_lt A v (adata PRES) = true /\ n_lt A (bdata PRES) (adata PRES) = true) /\
     n_le A (adata PRES) (n_lit A 0 0) = false /\ n_le A (bdata PRES) (n_lit A 0 0) = false).
Proof.
  intros A v a b m. unfold interp_parameters, interp_between, lit. cbv zeta.
  destruct (n_lt A (a PRES) (b PRES)), (n_lt A (b PRES) (a PRES)), (n_lt A (a PRES) v), (n_lt A v (b PRES)), (n_lt A (b PRES) v), (n_lt A v (a PRES)),
    (n_le A (a PRES) (n_lit A 0 0)), (n_le A (b PRES) (n_lit A 0 0)); cbn; split; intros H;
    try discriminate; try reflexivity; try (intros [[(?&?&?)|(?&?&?)] (?&?)]; discriminate); exfalso; apply H; auto.
Qed.
Print Assumptions C57_rejects.
Example C57_rejects_ex : forall lg ex md,
  interp_parameters (f64 lg ex md) (of_Z 300) (fun _ => of_Z 850) (fun _ => of_Z 500) (of_Z MI) = Err ValueError.
Proof. reflexivity. Qed.

(** ** C58 *)
Theorem C58_logp_height : forall A fuel s m s', interp_logp_height A fuel s m = Ok s' ->
  filled m (get s HGHT) (get s' HGHT) /\ forall k, k <> HGHT -> get s' k = get s k.
Proof. intros A fuel s m s' H. exact (logp_height_filled fuel s m s' H). Qed.
Print Assumptions C58_logp_height.

Theorem C58_logp_pressure : forall A s m s', interp_logp_pressure A s m = Ok s' ->
  filled m (get s PRES) (get s' PRES) /\ forall k, k <> PRES -> get s' k = get s k.
Proof. intros A s m s' H. exact (logp_pressure_filled s m s' H). Qed.
Print Assumptions C58_logp_pressure.

(** interp_moist_height: heights at levels that have a height and a temperature stay.  Missing:
    a height at a level without temperature is replaced (C58_moist_height_refuted). *)
Theorem C58_moist_height_partial : forall A s m s', interp_moist_height A s m = Ok s' ->
  length (get s' HGHT) = length (get s HGHT) /\ (forall k, k <> HGHT -> get s' k = get s k) /\
  forall i, present m (get s TEMP) i -> present m (get s HGHT) i -> same_at (get s HGHT) (get s' HGHT) i.
Proof. intros A s m s' H. apply moist_height_spec in H as (n & K & L & S & _). auto. Qed.
Print Assumptions C58_moist_height_partial.

(** interp_missing_data: pressures and heights stay, temperatures and wind directions are only
    filled in; a dewpoint stays where there is a temperature, a wind speed where there is a
    direction.  Missing: the others (C58_missing_data_refuted). *)
Theorem C58_missing_data_partial : forall A s m s', interp_missing_data A s m = Ok s' ->
  (forall k, length (get s' k) = length (get s k)) /\ get s' PRES = get s PRES /\ get s' HGHT = get s HGHT /\
  filled m (get s TEMP) (get s' TEMP) /\ filled m (get s DRCT) (get s' DRCT) /\
  (forall i, present m (get s DRCT) i -> same_at (get s SPED) (get s' SPED) i) /\
  (forall i, present m (get s TEMP) i -> present m (get s DWPT) i -> same_at (get s DWPT) (get s' DWPT) i).
Proof. intros A s m s' H. exact (missing_data_spec s m s' H). Qed.
Print Assumptions C58_missing_data_partial.

Section Cases.
Variables (ad su mu di md : flt -> flt -> flt) (ab lg ex : flt -> flt).
Notation W := (f64_with ad su mu di md ab lg ex).
Notation M := (of_Z MI).
Lemma moist_case : exists s s' : sounding (num W),
  interp_moist_height W s M = Ok s' /\ @present W M (get s HGHT) 1 /\ @absent W M (get s' HGHT) 1.
Proof.
  exists (snd_of [1000; 850] [100; 1500] [20; MI] [10; MI] [10; 20] [5; 7]). eexists. split; [vm_compute; reflexivity|].
  split; eexists; split; reflexivity.
Qed.
Lemma missing_case : exists s s' : sounding (num W),
  interp_missing_data W s M = Ok s' /\
  @present W M (get s DWPT) 1 /\ @absent W M (get s' DWPT) 1 /\ @present W M (get s SPED) 1 /\ @absent W M (get s' SPED) 1.
Proof.
  exists (snd_of [1000; 850; 700] [100; 1500; 3000] [20; MI; 5] [10; 3; MI] [MI; MI; 20] [5; 7; MI]). eexists.
  split; [vm_compute; reflexivity|]. repeat split; eexists; split; reflexivity.
Qed.
Lemma filled_case : let s := snd_of [1000; 850; 700] [100; 1500; 3000] [20; MI; 20] [10; MI; MI] [10; 20; 20] [5; 7; 7] in
  exists s' : sounding (num W), interp_missing_data W s M = Ok s' /\ @absent W M (get s TEMP) 1 /\
  nth_error (get s' TEMP) 1 = Some (ad (of_Z 20) (mu (su (of_Z 20) (of_Z 20)) (di (lg (di (of_Z 850) (of_Z 1000))) (lg (di (of_Z 700) (of_Z 1000)))))).
Proof. cbv zeta. eexists. split; [vm_compute; reflexivity|]. split; [eexists; split; reflexivity|]. vm_compute. reflexivity. Qed.
Lemma hang_case : forall fuel, interp_logp_height W fuel (snd_of [1000; 500; 700] [0; MI; 3000] [1; 1; 1] [1; 1; 1] [1; 1; 1] [1; 1; 1]) M = Err OutOfFuel.
Proof.
  assert (H : forall fuel p z, n_le W (of_Z 500) p = true ->
    climb W fuel (map of_Z [1000; 500; 700]) (map of_Z [0; MI; 3000]) M (of_Z 500) 2 p z = Err OutOfFuel).
  { induction fuel as [|f IH]; intros p z H; [reflexivity|]. cbn [climb]. rewrite H. apply IH. reflexivity. }
  intros fuel.
  assert (H0 : logp_step W fuel (map of_Z [1000; 500; 700]) M (mk_logp W (map of_Z [0; MI; 3000]) M None None None) 0 =
    Ok (mk_logp W (map of_Z [0; MI; 3000]) (of_Z 1000) (Some (of_Z 0)) (Some (lit W 2000 0)) None)) by reflexivity.
  assert (H1 : logp_step W fuel (map of_Z [1000; 500; 700]) M (mk_logp W (map of_Z [0; MI; 3000]) (of_Z 1000) (Some (of_Z 0)) (Some (lit W 2000 0)) None) 1 = Err OutOfFuel).
  { unfold logp_step. cbn [lg_h lg_pbot lg_zbot lg_ptop lg_ztop].
    change (at_ (map of_Z [1000; 500; 700]) 1) with (Ok (of_Z 500)). change (at_ (map of_Z [0; MI; 3000]) 1) with (Ok M). cbn [bind].
    change (n_eq W (of_Z 500) M) with false. change (n_eq W M M) with true. change (n_eq W (of_Z 1000) M) with false. cbn [negb bound bind].
    rewrite H by reflexivity. reflexivity. }
  unfold interp_logp_height.
  change (max_level W (s_hght (snd_of [1000; 500; 700] [0; MI; 3000] [1; 1; 1] [1; 1; 1] [1; 1; 1] [1; 1; 1])) M) with (Ok (Some 2%nat)).
  cbn [bind]. cbv zeta. change (range 0 2) with [0%nat; 1%nat]. cbn [foldM].
  change (s_pres (snd_of [1000; 500; 700] [0; MI; 3000] [1; 1; 1] [1; 1; 1] [1; 1; 1] [1; 1; 1])) with (map of_Z [1000; 500; 700]).
  change (s_hght (snd_of [1000; 500; 700] [0; MI; 3000] [1; 1; 1] [1; 1; 1] [1; 1; 1] [1; 1; 1])) with (map of_Z [0; MI; 3000]).
  rewrite H0. cbn [bind]. rewrite H1. reflexivity.
Qed.
End Cases.

(** A height at the top, without temperature, is erased. *)
Theorem C58_moist_height_refuted : forall lg ex md, exists s s' : sounding (num (f64 lg ex md)),
  interp_moist_height (f64 lg ex md) s (of_Z MI) = Ok s' /\
  @present (f64 lg ex md) (of_Z MI) (get s HGHT) 1 /\ @absent (f64 lg ex md) (of_Z MI) (get s' HGHT) 1.
Proof. intros lg ex md. exact (moist_case fadd fsub fmul fdiv md SFabs lg ex). Qed.
Print Assumptions C58_moist_height_refuted.

(** A dewpoint without a temperature, and a wind speed without a direction, are erased. *)
Theorem C58_missing_data_refuted : forall lg ex md, exists s s' : sounding (num (f64 lg ex md)),
  interp_missing_data (f64 lg ex md) s (of_Z MI) = Ok s' /\
  @present (f64 lg ex md) (of_Z MI) (get s DWPT) 1 /\ @absent (f64 lg ex md) (of_Z MI) (get s' DWPT) 1 /\
  @present (f64 lg ex md) (of_Z MI) (get s SPED) 1 /\ @absent (f64 lg ex md) (of_Z MI) (get s' SPED) 1.
Proof. intros lg ex md. exact (missing_case fadd fsub fmul fdiv md SFabs lg ex). Qed.
Print Assumptions C58_missing_data_refuted.

(** C58_missing_data_partial at work: the temperature is filled in by interpolation. *)
Example C58_missing_data_ex : forall lg ex md, let s := snd_of [1000; 850; 700] [100; 1500; 3000] [20; MI; 20] [10; MI; MI] [10; 20; 20] [5; 7; 7] in
  exists s' : sounding (num (f64 lg ex md)), interp_missing_data (f64 lg ex md) s (of_Z MI) = Ok s' /\
  @absent (f64 lg ex md) (of_Z MI) (get s TEMP) 1 /\
  nth_error (get s' TEMP) 1 = Some (fadd (of_Z 20) (fmul (fsub (of_Z 20) (of_Z 20)) (fdiv (lg (fdiv (of_Z 850) (of_Z 1000))) (lg (fdiv (of_Z 700) (of_Z 1000)))))).
Proof. intros lg ex md. exact (filled_case fadd fsub fmul fdiv md SFabs lg ex). Qed.

(** ** C59 *)

(** [fuel] bounds the rounds of the search for the level above; [OutOfFuel] is the search still
    going on after that many.  The loop ends whenever the next level with a height has a lower
    pressure than the levels whose height is missing.  Missing: the other soundings
    (C59_logp_height_refuted). *)
Theorem C59_terminates_partial : forall A fuel s m,
  above_lower m (get s PRES) (get s HGHT) -> (length (get s HGHT) + 2 <= fuel)%nat ->
  interp_logp_height A fuel s m <> Err OutOfFuel.
Proof. intros A fuel s m. exact (logp_height_ends fuel s m). Qed.
Print Assumptions C59_terminates_partial.

(** A sounding for which it never ends: the height at 500 hPa is missing, and the next height is
    at 700 hPa. *)
Theorem C59_logp_height_refuted : forall lg ex md, exists s : sounding (num (f64 lg ex md)),
  aligned s 3 /\ forall fuel, interp_logp_height (f64 lg ex md) fuel s (of_Z MI) = Err OutOfFuel.
Proof.
  intros lg ex md. exists (snd_of [1000; 500; 700] [0; MI; 3000] [1; 1; 1] [1; 1; 1] [1; 1; 1] [1; 1; 1]). split.
  - intros []; reflexivity.
  - exact (hang_case fadd fsub fmul fdiv md SFabs lg ex).
Qed.
Print Assumptions C59_logp_height_refuted.

(** The other three functions end for every sounding. *)
Theorem C59_others : forall A s m,
  interp_logp_pressure A s m <> Err OutOfFuel /\ interp_missing_data A s m <> Err OutOfFuel /\ interp_moist_height A s m <> Err OutOfFuel.
Proof. intros A s m. split; [apply logp_pressure_ends|]. split; [apply missing_data_ends|apply moist_height_ends]. Qed.
Print Assumptions C59_others.

(** ** C70: missing heights lie on the line between the nearest heights *)

(** A sounding with equally long arrays and at least one level, pressures at most 2000 hPa and
    given wherever a height is, and falling to the next height wherever one is missing: the
    function returns, and every missing height with heights below and above it becomes the height
    linear in the logarithm of pressure between the nearest of them. *)
Theorem C70_log_pressure_heights : forall A s m fuel n,
  n_eq A m m = true -> aligned s n -> (0 < n)%nat -> (n + 2 <= fuel)%nat ->
  (forall k, present m (get s HGHT) k -> present m (get s PRES) k) ->
  (forall p, In p (get s PRES) -> n_eq A p m = false -> n_le A p (n_lit A 2000 0) = true) ->
  above_lower m (get s PRES) (get s HGHT) ->
  exists s', interp_logp_height A fuel s m = Ok s' /\
    forall i a j p pa za pj zj, nth_error (get s PRES) i = Some p -> n_eq A p m = false -> absent m (get s HGHT) i ->
      last_height m (get s HGHT) i a -> nth_error (get s PRES) a = Some pa -> nth_error (get s HGHT) a = Some za ->
      next_height m (get s HGHT) i j -> nth_error (get s PRES) j = Some pj -> nth_error (get s HGHT) j = Some zj ->
      nth_error (get s' HGHT) i = Some (log_between A p pa za pj zj).
Proof.
  intros A s m fuel n MM AL N0 FU PP P2 AB. destruct (logp_height_ok s m fuel n AL MM PP AB P2 FU N0) as (s' & E & G).
  exists s'. split; [exact E|]. intros i a j p pa za pj zj H1 H2 H3 H4 H5 H6 H7 H8 H9. exact (G i p a pa za j pj zj H1 H2 H3 H4 H5 H6 H7 H8 H9).
Qed.
Print Assumptions C70_log_pressure_heights.

(** Four levels, two missing heights: the hypotheses hold, and the second becomes the value on the
    line between 1000 hPa and 500 hPa. *)
Definition four : sounding flt := snd_of [1000; 850; 700; 500] [100; MI; MI; 5600] [20; 10; 5; MI] [10; 9; 4; MI] [10; 20; 20; 30] [5; 7; 7; 9].
Lemma four_lower lg ex md : @above_lower (f64 lg ex md) (of_Z MI) (get four PRES) (get four HGHT).
Proof.
  intros i j p q P _ (x & X & EX) (L & (y & Y & EY) & AB) Q.
  destruct i as [|[|[|[|[|i]]]]]; try discriminate X;
    try (assert (x = of_Z 100) by (vm_compute in X; vm_compute; congruence); subst x; discriminate EX);
    try (assert (x = of_Z 5600) by (vm_compute in X; vm_compute; congruence); subst x; discriminate EX);
    destruct j as [|[|[|[|[|j]]]]]; try lia; try discriminate Y;
    try (assert (y = of_Z MI) by (vm_compute in Y; vm_compute; congruence); subst y; discriminate EY);
    vm_compute in P, Q; (assert (p = of_Z 850 \/ p = of_Z 700) by (vm_compute; first [left; congruence|right; congruence]));
    (assert (q = of_Z 500) by (vm_compute; congruence)); subst q; destruct H as [-> | ->]; vm_compute; reflexivity.
Qed.
Example C70_ex : forall lg ex md, exists s', interp_logp_height (f64 lg ex md) 6 four (of_Z MI) = Ok s' /\
  nth_error (get s' HGHT) 2 = Some (log_between (f64 lg ex md) (of_Z 700) (of_Z 1000) (of_Z 100) (of_Z 500) (of_Z 5600)).
Proof.
  intros lg ex md. destruct (C70_log_pressure_heights (f64 lg ex md) four (of_Z MI) 6 4) as (s' & E & G).
  - reflexivity.
  - intros []; reflexivity.
  - lia.
  - lia.
  - intros k (x & X & _). destruct k as [|[|[|[|[|k]]]]]; try discriminate X; eexists; split; reflexivity.
  - intros p P _. cbn [In get four snd_of s_pres map] in P. destruct P as [<-|[<-|[<-|[<-|[]]]]]; reflexivity.
  - apply four_lower.
  - exists s'. split; [exact E|]. apply (G 2%nat 0%nat 3%nat); try reflexivity.
    + eexists. split; reflexivity.
    + split; [lia|]. split; [eexists; split; reflexivity|]. intros k K. assert (k = 1%nat) as -> by lia. eexists. split; reflexivity.
    + split; [lia|]. split; [eexists; split; reflexivity|]. intros k K. lia.
Qed.
(** It is also a case for C59_terminates_partial and C58_logp_height. *)
Example C59_ex : forall lg ex md, interp_logp_height (f64 lg ex md) 6 four (of_Z MI) <> Err OutOfFuel.
Proof. intros lg ex md. apply C59_terminates_partial; [apply four_lower|cbn; lia]. Qed.

(** ** C71: filling in does not fail *)

(** Equally long arrays, positive pressures that fall with height: interp_missing_data returns. *)
Theorem C71_missing_data_returns : forall A (s : sounding (num A)) n m, aligned s n -> falling (get s PRES) ->
  exists s', interp_missing_data A s m = Ok s'.
Proof. intros A s n m AL FA. exact (missing_data_ok s n m AL FA). Qed.
Print Assumptions C71_missing_data_returns.
Lemma four_falling lg ex md : @falling (f64 lg ex md) (get four PRES).
Proof.
  split.
  - intros i j p q L P Q. destruct i as [|[|[|[|[|i]]]]]; try discriminate P; destruct j as [|[|[|[|[|j]]]]]; try lia; try discriminate Q;
      (let x := eval vm_compute in p in idtac); vm_compute in P, Q;
      match type of P with Some ?x = _ => assert (p = x) by congruence end; match type of Q with Some ?x = _ => assert (q = x) by congruence end; subst; reflexivity.
  - intros p P. cbn [In get four snd_of s_pres map] in P. destruct P as [<-|[<-|[<-|[<-|[]]]]]; reflexivity.
Qed.
Example C71_ex : forall lg ex md, exists s', interp_missing_data (f64 lg ex md) four (of_Z MI) = Ok s'.
Proof. intros lg ex md. apply (C71_missing_data_returns (f64 lg ex md) four 4); [intros []; reflexivity|apply four_falling]. Qed.

(** Two levels at the same pressure, one without temperature: refused with a ValueError. *)
Theorem C71_repeated_pressure : forall lg ex md, exists s : sounding (num (f64 lg ex md)),
  aligned s 3 /\ interp_missing_data (f64 lg ex md) s (of_Z MI) = Err ValueError.
Proof.
  intros lg ex md. exists (snd_of [1000; 1000; 700] [100; 100; 3000] [20; MI; 5] [10; 9; 4] [10; 20; 20] [5; 7; 7]). split.
  - intros []; reflexivity.
  - reflexivity.
Qed.
Print Assumptions C71_repeated_pressure.
