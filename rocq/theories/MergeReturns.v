(** Merging returns: each stage, on equally long arrays. *)
From Coq Require Import Lia ZifyBool ZifyNat String Sorted.
From Verif Require Import Base Calc SpecCalc CalcFacts Merge SpecMerge SpecMergeOrder SpecMergeReturns MergeFacts MergeOrder.
From Coq Require Import List ZArith Bool.
Import ListNotations.
Open Scope string_scope.
Open Scope list_scope.
Open Scope Z_scope.

Definition runs {X} (r : res X) : Prop := exists x, r = Ok x.
Lemma runs_ok {X} (x : X) : runs (Ok x).
Proof. exists x. reflexivity. Qed.
Lemma runs_bind {X Y} (r : res X) (f : X -> res Y) : runs r -> (forall x, r = Ok x -> runs (f x)) -> runs (bind r f).
Proof. intros (x & E) H. rewrite E. cbn [bind]. apply H, E. Qed.
Lemma runs_at {X} (l : list X) i : (i < length l)%nat -> runs (at_ l i).
Proof. intros L. destruct (at_some l i L) as (x & E & _). exists x. exact E. Qed.
Lemma runs_set {X} (l : list X) i x : (i < length l)%nat -> runs (set_ l i x).
Proof. intros L. destruct (set_some l i x L) as (l' & E). exists l'. exact E. Qed.
Lemma runs_range {St} (f : St -> nat -> res St) (P : St -> Prop) a b st : P st ->
  (forall i st, (a <= i < b)%nat -> P st -> runs (f st i)) -> (forall i st st', (a <= i < b)%nat -> P st -> f st i = Ok st' -> P st') ->
  exists st', foldM f (range a b) st = Ok st' /\ P st'.
Proof.
  intros P0 T K. destruct (Nat.le_gt_cases a b) as [C|C].
  - unfold range. destruct (foldM_seq_ok f (fun _ => P) (b - a) a st P0) as (st' & E & P').
    + intros i st1 LI P1. destruct (T i st1) as (st2 & E); [lia|exact P1|]. exists st2. split; [exact E|]. apply (K i st1); [lia|exact P1|exact E].
    + exists st'. auto.
  - exists st. unfold range. replace (b - a)%nat with 0%nat by lia. auto.
Qed.
Ltac rb := apply runs_bind; [|let x := fresh "x" in let E := fresh "E" in intros x E].

Lemma index_last {X} (l : list X) x : py_index (l ++ [x]) (-1) = Ok x.
Proof.
  unfold py_index, Zlen. rewrite app_length. cbn [length]. destruct (Z.ltb_spec (-1) 0); [|lia]. destruct (Z.ltb_spec (-1 + Z.of_nat (length l + 1)) 0); [lia|].
  replace (Z.to_nat (-1 + Z.of_nat (length l + 1))) with (length l) by lia. rewrite nth_error_app2, Nat.sub_diag by lia. reflexivity.
Qed.

(** ** interp_moist_height, interp_logp_pressure *)
Section Calc.
Context {A : arith}.
Notation N := (num A).
Lemma first_full_runs (m : N) (s : sounding N) n : aligned s n -> forall rem i, (i + rem <= n)%nat -> runs (first_full A s m i rem).
Proof.
  intros AL. induction rem as [|r IH]; intros i L; [apply runs_ok|]. cbn [first_full].
  rb; [apply runs_at; rewrite (AL PRES : length (s_pres s) = n); lia|]. rb.
  - destruct (n_eq A x m); [apply runs_ok|]. rb; [apply runs_at; rewrite (AL TEMP : length (s_temp s) = n); lia|]. destruct (n_eq A x0 m); [apply runs_ok|].
    rb; [apply runs_at; rewrite (AL HGHT : length (s_hght s) = n); lia|apply runs_ok].
  - destruct x0; [apply runs_ok|]. apply IH. lia.
Qed.
Lemma layer_runs (m : N) (s : sounding N) n ilev : aligned s n -> (ilev < n)%nat -> forall fuel j tb tdb pb zb hl, (0 < fuel)%nat -> (n <= fuel + j)%nat -> length hl = n ->
  runs (layer A s m n ilev fuel j tb tdb pb zb hl).
Proof.
  intros AL LI. induction fuel as [|f IH]; intros j tb tdb pb zb hl F L LH; [lia|]. cbn [layer]. destruct (n <=? S j)%nat eqn:LE; [apply runs_ok|].
  rb; [apply runs_at; rewrite (AL PRES : length (s_pres s) = n); lia|]. rb; [apply runs_at; rewrite (AL TEMP : length (s_temp s) = n); lia|].
  rb; [apply runs_at; rewrite (AL DWPT : length (s_dwpt s) = n); lia|]. rb; [apply runs_at; rewrite (AL HGHT : length (s_hght s) = n); lia|].
  rb; [apply runs_at; rewrite (AL PRES : length (s_pres s) = n); lia|]. rb; [apply runs_at; rewrite (AL TEMP : length (s_temp s) = n); lia|]. cbv zeta.
  rb; [apply runs_set; lia|]. apply set_ok in E5 as (_ & L5 & _).
  destruct (_ && _); [apply runs_ok|]. destruct (negb _); apply IH; lia.
Qed.
Lemma moist_loop_runs (m : N) n : forall fuel (s : sounding N) ilev hl, aligned s n -> length hl = n -> (ilev < n)%nat -> (n < fuel + ilev)%nat ->
  runs (moist_loop A m n fuel s ilev hl).
Proof.
  induction fuel as [|f IH]; intros s ilev hl AL LH LI LF; [lia|]. cbn [moist_loop].
  rb; [apply runs_at; rewrite (AL PRES : length (s_pres s) = n); lia|]. rb; [apply runs_at; rewrite (AL TEMP : length (s_temp s) = n); lia|].
  rb; [apply runs_at; rewrite (AL DWPT : length (s_dwpt s) = n); lia|]. rb; [apply runs_at; rewrite (AL HGHT : length (s_hght s) = n); lia|].
  rb; [apply layer_runs; auto; lia|]. destruct x3 as [[j next] hl1]. pose proof E3 as LS. apply layer_spec in LS as (J & _ & NX & L1).
  assert (LJ : (j <= n)%nat).
  { clear - E3 LI. revert E3. generalize (S n) as fu. intros fu. assert (G : forall fuel j0 tb tdb pb zb hl j next hl1, (j0 < n)%nat -> layer A s m n ilev fuel j0 tb tdb pb zb hl = Ok (j, next, hl1) -> (j <= n)%nat).
    { induction fuel as [|f IH]; intros j0 tb tdb pb zb hl0 j1 nx hl2 LJ H; [discriminate|]. cbn [layer] in H. destruct (n <=? S j0)%nat eqn:LE; [assert (j1 = S j0) by congruence; lia|].
      do 6 (apply bind_inv in H as (? & _ & H)). cbv zeta in H. apply bind_inv in H as (? & _ & H). destruct (_ && _) in H; [assert (j1 = S j0) by congruence; lia|].
      destruct (negb _) in H; apply IH in H; lia. }
    intros H. eapply G; eauto. }
  assert (H2 : exists hl2, match next with
     | Some (zt, znew) => let r := n_div A (n_sub A zt x2) (n_sub A znew x2) in
         foldM (fun l h => x <- at_ l h ;; set_ l h (n_f64 A (n_mul A x r))) (range (S ilev) (S j)) hl1
     | None => Ok hl1 end = Ok hl2 /\ length hl2 = n).
  { destruct next as [[zt zn]|]; [|exists hl1; split; [reflexivity|lia]]. cbv zeta. destruct NX as [|NX]; [discriminate|].
    apply (runs_range _ (fun l => length l = n)); [lia| |].
    - intros i l LL Ll. rb; [apply runs_at; lia|apply runs_set; lia].
    - intros i l l' LL Ll H. apply bind_inv in H as (x3 & _ & H). apply set_ok in H as (_ & H & _). lia. }
  destruct H2 as (hl2 & EH2 & L2). cbv zeta in EH2. cbv zeta. rewrite EH2. cbn [bind].
  destruct (runs_range (moist_fill A (s_pres s) hl2) (fun st => length (fst (fst st)) = n) (S ilev) j (s_hght s, x2, x)) as ([[h z'] p'] & EF & LF2).
  - cbn [fst]. exact (AL HGHT).
  - intros i [[h z0] p0] LL Lh. cbn [fst] in Lh. unfold moist_fill. rb; [apply runs_at; rewrite (AL PRES : length (s_pres s) = n); lia|]. rb; [apply runs_at; lia|].
    rb; [apply runs_set; lia|apply runs_ok].
  - intros i [[h z0] p0] [[h' z1] p1] LL Lh H. cbn [fst] in *. unfold moist_fill in H. apply bind_inv in H as (? & _ & H). apply bind_inv in H as (? & _ & H). apply bind_inv in H as (h1 & S1 & H).
    apply set_ok in S1 as (_ & S1 & _). assert (h' = h1) as -> by congruence. lia.
  - rewrite EF. cbn [bind fst] in *. destruct next as [zz|]; [|apply runs_ok]. destruct NX as [|NX]; [discriminate|].
    apply IH; [apply aligned_put; [exact AL|exact LF2]|exact L2|exact NX|lia].
Qed.
Lemma moist_height_runs (s : sounding N) n (m : N) : aligned s n -> runs (interp_moist_height A s m).
Proof.
  intros AL. unfold interp_moist_height. rewrite (AL PRES : length (s_pres s) = n). rb; [apply (first_full_runs m s n AL); lia|].
  destruct x as [i|]; [|apply runs_ok]. apply first_full_lt in E. apply moist_loop_runs; [exact AL|apply repeat_length|lia|lia].
Qed.
Lemma logp_pressure_runs (s : sounding N) n (m : N) : aligned s n -> runs (interp_logp_pressure A s m).
Proof.
  intros AL. unfold interp_logp_pressure. rewrite (AL PRES : length (s_pres s) = n).
  destruct (runs_range (press_step A (s_hght s) m) (fun st => length (pr_p A st) = n /\ match pr_klev A st with Some k => (k < n)%nat | None => True end) 0 n
     (mk_press A (s_pres s) None None m m m m)) as (st & E & _).
  - cbn. split; [exact (AL PRES)|exact I].
  - intros i st LI [LP LK]. unfold press_step. rb; [apply runs_at; lia|]. rb; [apply runs_at; rewrite (AL HGHT : length (s_hght s) = n); lia|]. cbv zeta. rb; [|apply runs_ok].
    destruct (pr_ilev A st) as [il|]; [|apply runs_ok].
    destruct (if _ && _ then Some i else pr_klev A st) as [kl|] eqn:K; [|apply runs_ok].
    assert (KN : (kl < n)%nat).
    { destruct (_ && _) in K; [assert (kl = i) by congruence; lia|]. rewrite K in LK. exact LK. }
    match goal with |- runs (foldM ?f (range ?a ?b) ?l) => destruct (runs_range f (fun w => length w = n) a b l LP) as (l' & EL' & _) end; [| |exists l'; exact EL'].
    + intros j l LJ Ll. unfold press_fill. rb; [apply runs_at; rewrite (AL HGHT : length (s_hght s) = n); lia|]. match goal with |- runs (if ?c then _ else _) => destruct c end; [apply runs_set; lia|apply runs_ok].
    + intros j l l' LJ Ll H. unfold press_fill in H. apply bind_inv in H as (z & _ & H). match type of H with (if ?c then _ else _) = _ => destruct c end; [apply set_ok in H as (_ & H & _); lia|]. assert (l' = l) as -> by congruence. exact Ll.
  - intros i st st' LI [LP LK] H. unfold press_step in H. apply bind_inv in H as (p & _ & H). apply bind_inv in H as (z & _ & H). cbv zeta in H. apply bind_inv in H as (l & F & H).
    match type of H with Ok ?x = _ => assert (st' = x) as -> by congruence end. cbn [pr_p pr_klev]. split.
    + destruct (pr_ilev A st) as [il|]; [|assert (l = pr_p A st) as -> by congruence; exact LP].
      destruct (if _ && _ then Some i else pr_klev A st) as [kl|]; [|assert (l = pr_p A st) as -> by congruence; exact LP].
      apply (foldM_plain _ (fun l => length l = n)) in F; [exact F|exact LP|]. intros l0 j l1 _ Ll H0. unfold press_fill in H0. apply bind_inv in H0 as (z0 & _ & H0). match type of H0 with (if ?c then _ else _) = _ => destruct c end; [apply set_ok in H0 as (_ & H0 & _); lia|]. assert (l1 = l0) as -> by congruence. exact Ll.
    + destruct (_ && _); [lia|exact LK].
  - rewrite E. cbn [bind]. apply runs_ok.
Qed.
End Calc.

(** ** The stages of merging *)
Section Stages.
Context {A : arith}.
Notation N := (num A).
Variable m : N.
Lemma len_EL (s : sounding N) k : EL s -> length (get s k) = length (s_pres s).
Proof. intros (n & AL). rewrite (AL k). symmetry. exact (AL PRES). Qed.
Lemma set_key_runs (s : sounding N) k i x : EL s -> (i < length (s_pres s))%nat -> runs (set_key A s k i x).
Proof. intros E L. unfold set_key. rb; [apply runs_set; rewrite (len_EL s k E); exact L|apply runs_ok]. Qed.
Lemma set_key_len (s s' : sounding N) k i x : set_key A s k i x = Ok s' -> length (s_pres s') = length (s_pres s).
Proof.
  intros H. unfold set_key in H. apply bind_inv in H as (l & L & H). assert (s' = put s k l) as -> by congruence. apply set_ok in L as (_ & L & _).
  destruct (key_dec k PRES) as [->|NE]; [exact L|]. rewrite (get_put_other s k PRES l : PRES <> k -> s_pres (put s k l) = s_pres s) by congruence. reflexivity.
Qed.
Lemma has_arr (ps : parts_t A) name ks k : has_arrays ps name ks -> In k ks -> assoc name ps <> None -> exists l, arr A ps name k = Ok l.
Proof.
  intros H I NN. unfold arr, arr_of. destruct (assoc name ps) as [p|] eqn:P; [|congruence]. destruct (H p P) as (n & HN). destruct (HN k I) as (l & E & _). rewrite E. eauto.
Qed.
Lemma has_val (ps : parts_t A) name ks k k0 pl i : has_arrays ps name ks -> In k ks -> In k0 ks -> arr A ps name k0 = Ok pl -> (i < length pl)%nat -> runs (val A ps name k i).
Proof.
  intros H I I0 E L. unfold val. unfold arr, arr_of in *. destruct (assoc name ps) as [p|] eqn:P; [|discriminate]. destruct (H p P) as (n & HN).
  destruct (HN k I) as (l & EL1 & LL). destruct (HN k0 I0) as (l0 & EL0 & LL0). rewrite EL1. cbn [bind]. rewrite EL0 in E. assert (pl = l0) as -> by congruence. apply runs_at. lia.
Qed.
Lemma levels_runs (ps : parts_t A) name ks k : has_arrays ps name ks -> In k ks -> exists n, levels A ps name k = Ok n /\ (n = 0%nat \/ exists l, arr A ps name k = Ok l /\ length l = n).
Proof.
  intros H I. unfold levels. destruct (assoc name ps) as [p|] eqn:P; [|eauto]. destruct (H p P) as (n & HN). destruct (HN k I) as (l & E & L).
  exists n. unfold arr_of. rewrite E. cbn [bind]. rewrite L. split; [reflexivity|]. right. exists l. unfold arr. rewrite P. unfold arr_of. rewrite E. auto.
Qed.
Lemma fill_temp_runs (ps : parts_t A) name (s : sounding N) loc i : EL s -> (loc < length (s_pres s))%nat ->
  runs (val A ps name TEMP i) -> runs (val A ps name DWPT i) -> runs (fill_temp A m ps name s loc i).
Proof.
  intros E L V1 V2. unfold fill_temp. rb; [apply runs_at; rewrite (len_EL s TEMP E : length (s_temp s) = _); exact L|]. destruct (ismiss A m x); [|apply runs_ok].
  rb; [exact V1|]. rb; [apply set_key_runs; assumption|]. rb; [exact V2|]. apply set_key_runs; [eapply EL_set; eassumption|]. rewrite (set_key_len _ _ _ _ _ E2). exact L.
Qed.
Lemma fill_dir_runs (ps : parts_t A) name (s : sounding N) loc i : EL s -> (loc < length (s_pres s))%nat ->
  runs (val A ps name DRCT i) -> runs (val A ps name SPED i) -> runs (fill_dir A m ps name s loc i).
Proof.
  intros E L V1 V2. unfold fill_dir. rb; [apply runs_at; rewrite (len_EL s DRCT E : length (s_drct s) = _); exact L|]. destruct (ismiss A m x); [|apply runs_ok].
  rb; [exact V1|]. rb; [apply set_key_runs; assumption|]. rb; [exact V2|]. apply set_key_runs; [eapply EL_set; eassumption|]. rewrite (set_key_len _ _ _ _ _ E2). exact L.
Qed.
Lemma fill_wind_runs (ps : parts_t A) name (s : sounding N) loc i : EL s -> (loc < length (s_pres s))%nat ->
  runs (val A ps name DRCT i) -> runs (val A ps name SPED i) -> runs (fill_wind A m ps name s loc i).
Proof.
  intros E L V1 V2. unfold fill_wind. rb; [apply runs_at; rewrite (len_EL s DRCT E : length (s_drct s) = _); exact L|].
  rb; [destruct (ismiss A m x); [apply runs_ok|]; rb; [apply runs_at; rewrite (len_EL s SPED E : length (s_sped s) = _); exact L|apply runs_ok]|]. destruct x0; [apply runs_ok|].
  rb; [exact V1|]. rb; [apply set_key_runs; assumption|]. rb; [exact V2|]. apply set_key_runs; [eapply EL_set; eassumption|]. rewrite (set_key_len _ _ _ _ _ E3). exact L.
Qed.
Lemma index_runs (l : list N) x : existsb (fun y => n_eq A y x) l = true -> exists i, index_ (n_eq A) l x = Ok i /\ (i < length l)%nat.
Proof.
  induction l as [|y l IH]; intros H; [discriminate|]. cbn [existsb index_] in *. destruct (n_eq A y x); [exists 0%nat; split; [reflexivity|cbn; lia]|].
  destruct (IH H) as (i & E & L). rewrite E. cbn [bind]. exists (S i). split; [reflexivity|cbn; lia].
Qed.
Lemma existsb_skip (f : N -> bool) n (l : list N) : existsb f (skipn n l) = true -> existsb f l = true.
Proof. intros H. apply existsb_exists in H as (x & X & F). apply existsb_exists. exists x. split; [|exact F]. eapply in_skipn, X. Qed.
(** *** Levels inserted by pressure *)
Definition P_ (s : sounding N) : Prop := EL s /\ Forall plausible (s_pres s).
Lemma insert_part_runs (ps : parts_t A) name n u f g st :
  (n <> 0%nat -> exists pl, arr A ps name PRES = Ok pl /\
     (forall i, (i < length pl)%nat -> runs (u i) /\ runs (g i) /\ forall s loc, EL s -> (loc < length (s_pres s))%nat -> runs (f s loc i)) /\
     (forall i x, nth_error pl i = Some x -> u i = Ok true -> plausible (n_abs A x))) ->
  (forall s a b s', EL s -> f s a b = Ok s' -> EL s') -> (forall s a b s', f s a b = Ok s' -> s_pres s' = s_pres s) ->
  P_ (in_s A st) -> exists st', insert_part A m ps name n u f g st = Ok st' /\ P_ (in_s A st').
Proof.
  intros H FE FP P0. unfold insert_part. destruct n as [|n]; [eauto|]. destruct (H ltac:(discriminate)) as (pl & PL & RU & PU). rewrite PL. cbn [bind].
  apply (runs_range _ (fun st => P_ (in_s A st))); [exact P0| |].
  - intros i st1 LI [E1 F1]. destruct (RU i ltac:(lia)) as (U & G & FF). unfold insert_step. rb; [apply runs_at; lia|]. cbv zeta.
    rb; [destruct (ne A m (n_abs A x)); [rb; [exact U|apply runs_ok]|apply runs_ok]|]. destruct x0; [|apply runs_ok]. destruct (n_lt A _ _); [apply runs_ok|].
    destruct (existsb _ _) eqn:X.
    + destruct (index_runs _ _ X) as (j & J & LJ). rewrite J. cbn [bind]. rb; [apply FF; assumption|apply runs_ok].
    + rb; [exact G|apply runs_ok].
  - intros i st1 st2 LI [E1 F1] S1. split; [eapply insert_step_EL; [|exact E1|exact S1]; exact FE|].
    unfold insert_step in S1. apply bind_inv in S1 as (raw & R & S1). apply at_ok in R. cbv zeta in S1. apply bind_inv in S1 as (b & B & S1).
    destruct b; [|match type of S1 with Ok ?x = _ => assert (st2 = x) as -> by congruence end; exact F1].
    destruct (n_lt A (in_pbot A st1) _) in S1; [assert (st2 = st1) as -> by congruence; exact F1|]. destruct (existsb _ _) in S1.
    + apply bind_inv in S1 as (j & _ & S1). apply bind_inv in S1 as (s' & S' & S1). match type of S1 with Ok ?x = _ => assert (st2 = x) as -> by congruence end.
      cbn [in_s]. rewrite (FP _ _ _ _ S'). exact F1.
    + apply bind_inv in S1 as (fr & _ & S1). match type of S1 with Ok ?x = _ => assert (st2 = x) as -> by congruence end. cbn [in_s insert_level s_pres].
      unfold insert_. match goal with |- Forall _ (firstn ?k ?l ++ _) => rewrite <- (firstn_skipn k l) in F1; apply Forall_app in F1 as [FA FB]; apply Forall_app; split; [exact FA|constructor; [|exact FB]] end.
      apply (PU i); [exact R|]. destruct (ne A m (n_abs A raw)); [|discriminate]. apply bind_inv in B as (b & B1 & B2). destruct b; [exact B1|discriminate].
Qed.

(** *** The surface *)
Lemma first_mandatory_runs : forall (p t z : list N), length t = length p -> length z = length p -> runs (first_mandatory A m p t z).
Proof.
  induction p as [|a p IH]; intros [|b t] [|c z] L1 L2; cbn in L1, L2; try lia; cbn [first_mandatory]; [apply runs_ok|]. destruct (_ && _ && _); [apply runs_ok|]. apply IH; lia.
Qed.
Lemma surface_runs (ps : parts_t A) selv n : has_arrays ps "TTAA" keys -> levels A ps "TTAA" PRES = Ok n -> runs (surface A m ps selv n).
Proof.
  intros H L. unfold surface.
  assert (V : forall k, n <> 0%nat -> runs (val A ps "TTAA" k 0) /\ exists l, arr A ps "TTAA" k = Ok l /\ length l = n).
  { intros k NZ. unfold levels in L. unfold val, arr. destruct (assoc "TTAA" ps) as [p|] eqn:P; [|congruence]. destruct (H p P) as (n' & HN).
    destruct (HN PRES) as (l0 & E0 & L0); [cbn; tauto|]. destruct (HN k) as (l & E & LL); [destruct k; cbn; tauto|]. unfold arr_of in *. rewrite E0 in L. cbn [bind] in L.
    assert (n = length l0) by congruence. rewrite E. cbn [bind]. split; [apply runs_at; lia|]. exists l. split; [reflexivity|lia]. }
  rb.
  - destruct n as [|n]; [apply runs_ok|]. do 6 (rb; [apply V; discriminate|]). apply runs_ok.
  - assert (EX : EL x /\ length (s_pres x) = 1%nat).
    { destruct n; [assert (x = mk_sounding [m] [m] [m] [m] [m] [m]) as -> by congruence; split; [apply EL_one|reflexivity]|].
      do 6 (apply bind_inv in E as (? & _ & E)). match type of E with Ok ?y = _ => assert (x = y) as -> by congruence end. split; [apply EL_one|reflexivity]. }
    destruct EX as [EX LX]. rb; [apply set_key_runs; [exact EX|lia]|]. pose proof (set_key_len _ _ _ _ _ E0) as L0.
    rb.
    + destruct n as [|n]; [apply runs_ok|]. destruct (V PRES ltac:(discriminate)) as (_ & lp & EP & LP). destruct (V TEMP ltac:(discriminate)) as (_ & lt & ET & LT). destruct (V HGHT ltac:(discriminate)) as (_ & lz & EZ & LZ).
      rewrite EP, ET, EZ. cbn [bind]. rb; [apply first_mandatory_runs; lia|apply runs_ok].
    + rb; [apply runs_at; lia|]. cbv zeta. destruct (_ || _); apply runs_ok.
Qed.
Lemma levels_arr (ps : parts_t A) name ks k n : has_arrays ps name ks -> In k ks -> levels A ps name k = Ok n -> n <> 0%nat -> exists l, arr A ps name k = Ok l /\ length l = n.
Proof. intros H I L NZ. destruct (levels_runs ps name ks k H I) as (n' & L' & [Z|X]); [congruence|]. assert (n' = n) by congruence. subst n'. exact X. Qed.
Lemma surface_sigt_runs (ps : parts_t A) n (s : sounding N) : has_arrays ps "TTBB" [PRES; TEMP; DWPT] -> levels A ps "TTBB" PRES = Ok n -> EL s -> length (s_pres s) = 1%nat ->
  runs (surface_sigt A m ps n s).
Proof.
  intros H L E L1. unfold surface_sigt. destruct n as [|n]; [apply runs_ok|]. destruct (levels_arr _ _ _ PRES _ H ltac:(cbn; tauto) L ltac:(discriminate)) as (pl & PL & LL).
  assert (V : forall k, In k [PRES; TEMP; DWPT] -> runs (val A ps "TTBB" k 0)) by (intros k I; apply (has_val ps "TTBB" _ k PRES pl 0 H I ltac:(cbn; tauto) PL); lia).
  rb; [apply V; cbn; tauto|]. rb; [apply V; cbn; tauto|]. destruct (_ && _); [|apply runs_ok]. rb; [apply runs_at; lia|]. destruct (_ || _); [|apply runs_ok].
  rb; [apply set_key_runs; [exact E|lia]|]. pose proof (EL_set _ _ _ _ _ E E3) as EE. pose proof (set_key_len _ _ _ _ _ E3) as LE3.
  rb; [apply V; cbn; tauto|]. rb; [apply set_key_runs; [exact EE|lia]|]. apply set_key_runs; [eapply EL_set; eassumption|]. rewrite (set_key_len _ _ _ _ _ E5). lia.
Qed.
Lemma surface_sigw_runs (ps : parts_t A) n (s : sounding N) : (n <> 0%nat -> has_arrays ps "PPBB" [PRES; DRCT; SPED] /\ levels A ps "PPBB" SPED = Ok n) -> EL s -> length (s_pres s) = 1%nat ->
  runs (surface_sigw A m ps n false s).
Proof.
  intros H E L1. unfold surface_sigw. destruct n as [|n]; [apply runs_ok|]. destruct (H ltac:(discriminate)) as (HA & L). destruct (levels_arr _ _ _ SPED _ HA ltac:(cbn; tauto) L ltac:(discriminate)) as (pl & PL & LL).
  assert (V : forall k, In k [PRES; DRCT; SPED] -> runs (val A ps "PPBB" k 0)) by (intros k I; apply (has_val ps "PPBB" _ k SPED pl 0 HA I ltac:(cbn; tauto) PL); lia).
  rb; [apply V; cbn; tauto|]. destruct (ne A m x); [|apply runs_ok]. rb; [apply V; cbn; tauto|]. destruct (ne A m x0); [|apply runs_ok].
  rb; [apply runs_at; lia|]. destruct (_ || _); [|apply runs_ok]. rb; [apply V; cbn; tauto|]. rb; [apply set_key_runs; [exact E|lia]|].
  pose proof (EL_set _ _ _ _ _ E E4) as EE. pose proof (set_key_len _ _ _ _ _ E4) as LE4.
  rb; [apply set_key_runs; [exact EE|lia]|]. apply set_key_runs; [eapply EL_set; eassumption|]. rewrite (set_key_len _ _ _ _ _ E5). lia.
Qed.
(** A surface pressure, if given, is plausible *)
Definition SG (s : sounding N) : Prop := exists p, s_pres s = [p] /\ (given m p -> plausible p).
Lemma SG_len s : SG s -> length (s_pres s) = 1%nat.
Proof. intros (p & -> & _). reflexivity. Qed.
Lemma surface_SG (ps : parts_t A) selv n s : n_eq A m m = true -> plausible_levels m ps "TTAA" -> surface A m ps selv n = Ok s -> SG s.
Proof.
  intros MM PL H. destruct (surface_pres m _ _ _ _ H) as [E|(p & E & V)]; [exists m; split; [exact E|unfold given; congruence]|]. exists p. split; [exact E|apply (PL _ _ V)].
Qed.
Lemma set_pres0 (s s' : sounding N) p x : s_pres s = [p] -> set_key A s PRES 0 x = Ok s' -> s_pres s' = [x].
Proof. intros E H. unfold set_key in H. cbn [get] in H. rewrite E in H. cbn in H. assert (s' = put s PRES [x]) as -> by congruence. reflexivity. Qed.
Lemma sigt_SG (ps : parts_t A) n s s' : plausible_with m ps "TTBB" TEMP -> SG s -> surface_sigt A m ps n s = Ok s' -> SG s'.
Proof.
  intros PW SGs H. unfold surface_sigt in H. destruct n; [assert (s' = s) as -> by congruence; exact SGs|].
  apply bind_inv in H as (q & VQ & H). apply bind_inv in H as (t & T & H). destruct (ne A m q && ne A m t) eqn:E; [|assert (s' = s) as -> by congruence; exact SGs].
  apply bind_inv in H as (p1 & _ & H). destruct (_ || _) in H; [|assert (s' = s) as -> by congruence; exact SGs].
  apply bind_inv in H as (s1 & S1 & H). apply bind_inv in H as (d & _ & H). apply bind_inv in H as (s2 & S2 & H).
  apply set_pres in H; [|discriminate]. apply set_pres in S2; [|discriminate]. destruct SGs as (p & EP & _). apply (set_pres0 s s1 p q EP) in S1.
  exists q. split; [congruence|]. intros _. apply andb_prop in E as [_ E]. apply negb_true_iff in E. eapply PW; eassumption.
Qed.
Lemma sigw_SG (ps : parts_t A) n s s' : (n <> 0%nat -> forall i x y, val A ps "PPBB" PRES i = Ok x -> val A ps "PPBB" DRCT i = Ok y -> given m y -> plausible (n_abs A x)) ->
  SG s -> surface_sigw A m ps n false s = Ok s' -> SG s'.
Proof.
  intros PW SGs H. unfold surface_sigw in H. destruct n; [assert (s' = s) as -> by congruence; exact SGs|].
  apply bind_inv in H as (q & VQ & H). destruct (ne A m q) eqn:Q1; [|assert (s' = s) as -> by congruence; exact SGs].
  apply bind_inv in H as (d & VD & H). destruct (ne A m d) eqn:D1; [|assert (s' = s) as -> by congruence; exact SGs].
  apply bind_inv in H as (p1 & _ & H). destruct (_ || _) in H; [|assert (s' = s) as -> by congruence; exact SGs].
  apply bind_inv in H as (v & _ & H). apply bind_inv in H as (s1 & S1 & H). apply bind_inv in H as (s2 & S2 & H).
  apply set_pres in H; [|discriminate]. apply set_pres in S2; [|discriminate]. destruct SGs as (p & EP & _). apply (set_pres0 s s1 p _ EP) in S1.
  exists (n_abs A q). split; [congruence|]. intros _. apply negb_true_iff in D1. eapply (PW ltac:(discriminate)); eassumption.
Qed.
(** *** Mandatory levels *)
Lemma append_runs : forall (p : part A) i (s : sounding N), (forall a l, In (a, l) p -> (i < length l)%nat /\ exists k, a = key_name k) -> runs (append_level A p i s).
Proof.
  unfold append_level. induction p as [|[a l] p IH]; intros i s H; [apply runs_ok|]. cbn [foldM fst snd]. destruct (H a l (or_introl eq_refl)) as (L & k & ->).
  rewrite key_of_name. destruct (at_some l i L) as (x & E & _). rewrite E. cbn [bind]. apply IH. intros a' l' I. apply H. right. exact I.
Qed.
Lemma man_step_good (p : part A) n count st i : NoDup (map fst p) -> (forall k, In k keys -> exists l, assoc (key_name k) p = Some l /\ length l = n) ->
  (forall a l, In (a, l) p -> length l = n /\ exists k, a = key_name k) -> (forall j x, (l <- arr_of A p PRES ;; at_ l j) = Ok x -> given m x -> plausible x) -> (i < n)%nat ->
  P_ (fst (fst st)) -> (0 < length (s_pres (fst (fst st))))%nat ->
  exists st', man_step A m p count st i = Ok st' /\ P_ (fst (fst st')) /\ (0 < length (s_pres (fst (fst st'))))%nat.
Proof.
  intros ND HA ON PL LI [E F] L0. destruct st as [[s plast] bgl]. cbn [fst] in *. unfold man_step.
  assert (G : forall k, exists l, arr_of A p k = Ok l /\ length l = n) by (intros k; destruct (HA k) as (l & EL0 & LL); [destruct k; cbn; tauto|]; exists l; unfold arr_of; rewrite EL0; auto).
  destruct (G PRES) as (pl & PE & PN), (G TEMP) as (tl & TE & TN), (G HGHT) as (zl & ZE & ZN). rewrite PE, TE, ZE. cbn [bind].
  destruct (at_some pl i) as (x & EX & NX); [lia|]. destruct (at_some tl i) as (t & ET & _); [lia|]. destruct (at_some zl i) as (z & EZ & _); [lia|]. rewrite EX, ET, EZ. cbn [bind].
  destruct (n_lt A x plast && ne A m x) eqn:C.
  - destruct (ne A m t).
    + cbn [bind]. destruct (ne A m z).
      * destruct (append_runs p i s) as (s' & AP); [intros a l I; destruct (ON a l I) as [LL K]; split; [lia|exact K]|]. rewrite AP. cbn [bind].
        destruct (append_pres p i s s' ND AP) as [SP _]. destruct (SP pl PE) as (y & Y & SP'). assert (y = x) as -> by congruence. rewrite SP', index_last. cbn [bind].
        exists (s', x, bgl). split; [reflexivity|]. cbn [fst]. apply andb_prop in C as [_ C]. apply negb_true_iff in C. split; [split|].
        -- destruct E as (nn & AL). exists (S nn). eapply append_aligned; [exact ND| |exact AL|exact AP]. intros k. destruct (HA k) as (l & EL0 & _); [destruct k; cbn; tauto|]. eapply assoc_in, EL0.
        -- rewrite SP'. apply Forall_app. split; [exact F|]. constructor; [|constructor]. apply (PL i x); [rewrite PE; exact EX|exact C].
        -- rewrite SP', app_length. cbn. lia.
      * destruct count; [|eexists; split; [reflexivity|split; [split; [exact E|exact F]|exact L0]]]. destruct (at_some (s_pres s) 0 L0) as (p0 & E0 & _). rewrite E0. cbn [bind].
        eexists. split; [reflexivity|]. split; [split; [exact E|exact F]|exact L0].
    + cbn [bind]. destruct count; [|eexists; split; [reflexivity|split; [split; [exact E|exact F]|exact L0]]]. destruct (at_some (s_pres s) 0 L0) as (p0 & E0 & _). rewrite E0. cbn [bind].
      eexists. split; [reflexivity|]. split; [split; [exact E|exact F]|exact L0].
  - cbn [bind]. destruct count; [|eexists; split; [reflexivity|split; [split; [exact E|exact F]|exact L0]]]. destruct (at_some (s_pres s) 0 L0) as (p0 & E0 & _). rewrite E0. cbn [bind].
    eexists. split; [reflexivity|]. split; [split; [exact E|exact F]|exact L0].
Qed.
Lemma man_fold_good (ps : parts_t A) name count a n st : dictionary ps name -> has_arrays ps name keys -> only_levels ps name -> plausible_levels m ps name -> levels A ps name PRES = Ok n ->
  P_ (fst (fst st)) -> (0 < length (s_pres (fst (fst st))))%nat ->
  exists st', foldM (man_step A m (part_of A ps name) count) (range a n) st = Ok st' /\ P_ (fst (fst st')) /\ (0 < length (s_pres (fst (fst st'))))%nat.
Proof.
  intros D HA ON PL L P0 L0. unfold part_of, levels in *. destruct (assoc name ps) as [p|] eqn:P.
  2:{ assert (n = 0%nat) as -> by congruence. exists st. cbn. auto. }
  destruct (HA p P) as (n1 & H1). destruct (ON p P) as (n2 & H2). destruct (H1 PRES ltac:(cbn; tauto)) as (l & E & LL).
  assert (n = n1) as -> by (unfold arr_of in L; rewrite E in L; cbn in L; congruence).
  assert (n2 = n1) as ->. { unfold assoc in E. destruct (find _ p) as [[a0 l0]|] eqn:F; [|discriminate]. apply find_some in F as [F _]. cbn in E. assert (l0 = l) as -> by congruence. destruct (H2 _ _ F) as [X _]. lia. }
  apply (runs_range (man_step A m p count) (fun st => P_ (fst (fst st)) /\ (0 < length (s_pres (fst (fst st))))%nat)); [auto| |].
  - intros i st1 LI [P1 L1]. destruct (man_step_good p n1 count st1 i (D p P) H1 H2) as (st2 & E2 & _); [|lia|exact P1|exact L1|exists st2; exact E2].
    intros j x V. apply (PL j). unfold val, arr. rewrite P. exact V.
  - intros i st1 st2 LI [P1 L1] S2. destruct (man_step_good p n1 count st1 i (D p P) H1 H2) as (st3 & E2 & Q1 & Q2); [|lia|exact P1|exact L1|].
    + intros j x V. apply (PL j). unfold val, arr. rewrite P. exact V.
    + assert (st3 = st2) as -> by congruence. auto.
Qed.
Lemma mandatory_good (ps : parts_t A) n n' s : (forall name, In name ["TTAA"; "TTCC"] -> dictionary ps name /\ has_arrays ps name keys /\ only_levels ps name /\ plausible_levels m ps name) ->
  levels A ps "TTAA" PRES = Ok n -> levels A ps "TTCC" PRES = Ok n' -> P_ s -> (0 < length (s_pres s))%nat ->
  exists s' bgl, mandatory A m ps n n' s = Ok (s', bgl) /\ P_ s' /\ (0 < length (s_pres s'))%nat.
Proof.
  intros H L1 L2 P0 L0. unfold mandatory. destruct (at_some (s_pres s) 0 L0) as (p0 & E0 & _). rewrite E0. cbn [bind]. cbv zeta.
  destruct (H "TTAA" ltac:(cbn; tauto)) as (D1 & A1 & O1 & Q1). destruct (H "TTCC" ltac:(cbn; tauto)) as (D2 & A2 & O2 & Q2).
  match goal with |- context [foldM (man_step A m (part_of A ps "TTAA") true) (range 1 n) ?st] => destruct (man_fold_good ps "TTAA" true 1 n st D1 A1 O1 Q1 L1 P0 L0) as ([[s1 pl1] b1] & F1 & P1 & L1') end.
  rewrite F1. cbn [bind fst] in *.
  destruct (man_fold_good ps "TTCC" false 0 n' (s1, pl1, b1) D2 A2 O2 Q2 L2 P1 L1') as ([[s2 pl2] b2] & F2 & P2 & L2'). rewrite F2. cbn [bind fst] in *. exists s2, b2. auto.
Qed.
Lemma man_wind_runs (ps : parts_t A) name n n' k s : has_arrays ps name [PRES; DRCT; SPED] -> In k [PRES; DRCT; SPED] -> levels A ps name k = Ok n -> EL s -> runs (man_wind A m ps name n n' s).
Proof.
  intros H IK L E. unfold man_wind. destruct (_ && _) eqn:C; [|apply runs_ok]. assert (NZ : n <> 0%nat) by lia.
  destruct (levels_arr _ _ _ k _ H IK L NZ) as (l & EL0 & LL). assert (NN : assoc name ps <> None) by (unfold arr in EL0; destruct (assoc name ps); [discriminate|discriminate EL0]).
  destruct (has_arr _ _ _ PRES H ltac:(cbn; tauto) NN) as (pl & PL). rewrite PL. cbn [bind].
  match goal with |- runs (foldM ?f (range ?a ?b) ?st) => destruct (runs_range f (fun s => EL s) a b st E) as (st' & S' & _) end; [| |exists st'; exact S'].
  - intros i s1 LI E1. rb; [apply runs_at; lia|]. destruct (existsb _ _) eqn:X; [|apply runs_ok]. apply existsb_skip in X. destruct (index_runs _ _ X) as (j & J & LJ). rewrite J. cbn [bind].
    rb; [apply runs_at; rewrite (len_EL s1 DRCT E1 : length (s_drct s1) = _); exact LJ|]. destruct (ismiss A m x0); [|apply runs_ok].
    rb; [apply (has_val ps name _ DRCT PRES pl i H ltac:(cbn; tauto) ltac:(cbn; tauto) PL); lia|]. rb; [apply set_key_runs; assumption|].
    rb; [apply (has_val ps name _ SPED PRES pl i H ltac:(cbn; tauto) ltac:(cbn; tauto) PL); lia|]. apply set_key_runs; [eapply EL_set; eassumption|]. rewrite (set_key_len _ _ _ _ _ E4). exact LJ.
  - intros i s1 s2 LI E1 H1. step H1; els; assumption.
Qed.
(** *** Levels below ground *)
Lemma below_runs (ps : parts_t A) b n size s : has_arrays ps "TTAA" keys -> levels A ps "TTAA" PRES = Ok n -> size <> None -> (0 < length (s_pres s))%nat -> runs (below_ground A m ps b n size s).
Proof.
  intros H L SZ L0. unfold below_ground. rb; [apply runs_at; exact L0|]. match goal with |- runs (if ?c then _ else _) => destruct c end; [|apply runs_ok].
  destruct (Nat.eq_dec n 0) as [->|NZ]; [cbn; apply runs_ok|]. destruct (levels_arr _ _ _ PRES _ H ltac:(cbn; tauto) L NZ) as (pl & PL & LL).
  destruct (runs_range (below_step A ps) (fun st => (0 < length (s_pres (fst st)))%nat /\ snd st <> None) 1 n (s, size)) as ([s1 z1] & F & _); [cbn; auto| | |rewrite F; cbn [bind]; apply runs_ok].
  - intros i [s1 z1] LI [L1 Z1]. cbn [fst snd] in *. unfold below_step.
    assert (V : forall k, runs (val A ps "TTAA" k i)) by (intros k; apply (has_val ps "TTAA" _ k PRES pl i H ltac:(destruct k; cbn; tauto) ltac:(cbn; tauto) PL); lia).
    rb; [apply V|]. rb; [apply runs_at; exact L1|]. destruct (n_lt A _ _); [|apply runs_ok]. destruct z1 as [z|]; [|congruence]. cbn [bound bind]. cbv zeta.
    do 5 (rb; [apply V|]). apply runs_ok.
  - intros i [s1 z1] st' LI [L1 Z1] H1. cbn [fst snd] in *. unfold below_step in H1. apply bind_inv in H1 as (pr & _ & H1). apply bind_inv in H1 as (q & _ & H1).
    destruct (n_lt A q pr) in H1; [|assert (st' = (s1, z1)) as -> by congruence; auto]. apply bind_inv in H1 as (nn & _ & H1). cbv zeta in H1. do 5 (apply bind_inv in H1 as (? & _ & H1)).
    match type of H1 with Ok ?x = _ => assert (st' = x) as -> by congruence end. cbn [fst snd insert_level s_pres]. rewrite insert_length. split; [lia|discriminate].
Qed.
Lemma no_height_winds_runs (ps : parts_t A) z1 z2 n1 n2 (s : sounding N) : (z1 = true -> n1 = 0%nat) -> (z2 = true -> n2 = 0%nat) -> EL s -> (0 < length (s_pres s))%nat ->
  runs (height_winds A m ps z1 z2 n1 n2 s).
Proof.
  intros Z1 Z2 E L0. unfold height_winds. cbv zeta.
  assert ((if z1 then n1 else 0%nat) = 0%nat) as E1 by (destruct z1; auto). assert ((if z2 then n2 else 0%nat) = 0%nat) as E2 by (destruct z2; auto).
  rewrite E1, E2. change ((0 <=? 0)%nat) with true. cbv iota. cbn [bind Nat.add]. pose proof (len_EL s HGHT E : length (s_hght s) = _) as LH. rewrite LH.
  rb; [apply runs_at; exact L0|]. rb; [apply runs_at; lia|]. rb.
  - match goal with |- runs (if ?c then _ else _) => destruct c eqn:C end.
    + rb; [apply runs_at; lia|]. rb; [apply runs_at; lia|]. apply runs_ok.
    + match goal with |- runs (if ?c then _ else _) => destruct c eqn:C3 end; [|apply runs_ok]. rb; [apply runs_at; lia|]. rb; [apply runs_at; lia|]. apply runs_ok.
  - destruct x1 as [[zo zn] il]. cbn [zw_loop zw_more Nat.ltb Nat.leb]. rewrite andb_false_r. cbn [bind]. apply runs_ok.
Qed.
(** *** The vertical coordinate of the winds *)
Definition winds_ok (ps : parts_t A) name : Prop := has_arrays ps name [PRES; DRCT; SPED] /\
  forall i x y, val A ps name PRES i = Ok x -> val A ps name DRCT i = Ok y -> given m y -> plausible (n_abs A x).
Lemma winds_ok_other (ps ps' : parts_t A) name : assoc name ps' = assoc name ps -> winds_ok ps name -> winds_ok ps' name.
Proof.
  intros E [H1 H2]. split; [intros p P; apply H1; congruence|]. intros i x y. unfold val, arr. rewrite E. apply H2.
Qed.
Lemma winds_levels (ps : parts_t A) name : has_winds m ps name -> exists n, levels A ps name SPED = Ok n.
Proof. intros H. unfold levels. destruct (assoc name ps) as [p|] eqn:P; [|eauto]. destruct (H p P) as (l & d & v & _ & _ & V & _). unfold arr_of. cbn [key_name]. rewrite V. cbn [bind]. eauto. Qed.
Lemma wind_coord_runs (ps : parts_t A) name n : has_winds m ps name -> plausible_winds m ps name -> levels A ps name SPED = Ok n ->
  exists b ps', wind_coord A m ps name n = Ok (b, ps') /\ levels A ps' name SPED = Ok n /\ ((b = true /\ n = 0%nat) \/ (b = false /\ winds_ok ps' name)).
Proof.
  intros H PW L. unfold wind_coord. destruct n as [|n]; [exists true, ps; auto|]. unfold levels in L. destruct (assoc name ps) as [p|] eqn:P; [|discriminate].
  destruct (H p P) as (l & d & v & PI & DD & VV & L1 & L2). unfold arr_of in L. cbn [key_name] in L. rewrite VV in L. cbn [bind] in L.
  destruct PI as [EP|(NP & EH & z & ZI & ZG & ZN)].
  - rewrite EP. exists false, ps. split; [reflexivity|]. split; [unfold levels; rewrite P; unfold arr_of; cbn [key_name]; rewrite VV; exact L|]. right. split; [reflexivity|]. split.
    + intros q Q. assert (q = p) as -> by congruence. exists (length v). intros k [<-|[<-|[<-|[]]]]; cbn [key_name]; eauto.
    + intros i x y V1 V2 G. unfold val, arr in V1. rewrite P in V1. unfold arr_of in V1. cbn [key_name] in V1. rewrite EP in V1. cbn [bind] in V1. apply at_ok in V1.
      apply (PW p l i x y P (or_introl EP) V1 V2 G).
  - rewrite NP. unfold arr_of. cbn [key_name]. rewrite EH. cbn [bind].
    assert (existsb (fun z => ne A m z && n_lt A z (l_ A 0)) l = true) as X.
    { apply existsb_exists. exists z. split; [exact ZI|]. unfold ne, ismiss. unfold given in ZG. rewrite ZG. exact ZN. }
    rewrite X. do 2 eexists. split; [reflexivity|].
    match goal with |- levels A ?x _ _ = _ /\ _ => set (ps' := x) end.
    assert (P' : @assoc (part A) name ps' = Some (p ++ [("PRES", l)])).
    { unfold ps'. clear - P. unfold assoc in *. induction ps as [|[nm q] ps IH]; [discriminate|]. cbn [map find fst snd] in *. destruct (String.eqb nm name) eqn:N1; cbn [fst snd] in *; rewrite N1; [cbn [snd]; assert (q = p) as -> by (injection P; auto); reflexivity|apply IH, P]. }
    assert (PA : forall nm a, assoc nm p = Some a -> assoc nm (p ++ [("PRES", l)]) = Some a).
    { intros nm a. unfold assoc. clear. induction p as [|[b c] p IH]; [discriminate|]. cbn [app find fst]. destruct (String.eqb b nm); [auto|exact IH]. }
    assert (PP : assoc "PRES" (p ++ [("PRES", l)]) = Some l).
    { revert NP. unfold assoc. clear. induction p as [|[b c] p IH]; [reflexivity|]. cbn [app find fst]. destruct (String.eqb b "PRES"); [discriminate|exact IH]. }
    assert (AR : forall k, k <> PRES -> forall a, assoc (key_name k) p = Some a -> arr A ps' name k = Ok a /\ arr A ps name k = Ok a).
    { intros k NK a Ea. unfold arr. rewrite P', P. unfold arr_of. rewrite (PA _ _ Ea), Ea. auto. }
    assert (AP : arr A ps' name PRES = Ok l) by (unfold arr; rewrite P'; unfold arr_of; cbn [key_name]; rewrite PP; reflexivity).
    split; [unfold levels; rewrite P'; unfold arr_of; cbn [key_name]; rewrite (PA _ _ VV); exact L|]. right. split; [reflexivity|]. split.
    + intros q Q. assert (q = p ++ [("PRES", l)]) as -> by congruence. exists (length v). intros k [<-|[<-|[<-|[]]]]; cbn [key_name]; eauto.
    + intros i x y V1 V2 G. unfold val in V1. rewrite AP in V1. cbn [bind] in V1. apply at_ok in V1. destruct (AR DRCT ltac:(discriminate) d DD) as [A1 A2].
      apply (PW p l i x y P); [right; split; [exact NP|split; [exact EH|exists z; auto]]|exact V1| |exact G]. unfold val in *. rewrite A2. rewrite A1 in V2. exact V2.
Qed.
End Stages.

(** ** The whole *)
Section Whole.
Context {A : arith} {ok : num A -> Prop} (O : ordered A ok).
Notation N := (num A).
Notation lt := (n_lt A).
Variable m : N.
Hypothesis OM : ok m.
Hypothesis ABSM : forall x, ok x -> n_eq A (n_abs A x) m = false.
Hypothesis M0 : n_lt A m (lit_ 0) = true.
Hypothesis O0 : ok (lit_ 0).
Hypothesis ABSP : forall x, lt (lit_ 0) x = true -> n_abs A x = x.
Hypothesis LE : forall x y, ok x -> ok y -> lt y x = true -> n_le A x y = false.
Let Q : N -> Prop := fun _ => True.
Notation pinv := (pinv (ok := ok) m Q).
Lemma plausible_abs (x : N) : plausible x -> plausible (n_abs A x).
Proof. intros P. rewrite ABSP; [exact P|apply P]. Qed.
Lemma temp_part_runs (ps : parts_t A) name n ks : has_arrays ps name ks -> In PRES ks -> In TEMP ks -> plausible_with m ps name TEMP -> levels A ps name PRES = Ok n -> n <> 0%nat ->
  exists pl, arr A ps name PRES = Ok pl /\ (forall i k, (i < length pl)%nat -> In k ks -> runs (val A ps name k i)) /\
    (forall i, (i < length pl)%nat -> runs (has_temp A m ps name i)) /\
    (forall i x, nth_error pl i = Some x -> has_temp A m ps name i = Ok true -> plausible (n_abs A x)).
Proof.
  intros H IP IT PW L NZ. destruct (levels_arr ps name ks PRES n H IP L NZ) as (pl & PL & _). exists pl. split; [exact PL|].
  assert (V : forall i k, (i < length pl)%nat -> In k ks -> runs (val A ps name k i)) by (intros i k LI I; apply (has_val ps name ks k PRES pl i H I IP PL LI)).
  split; [exact V|]. split.
  - intros i LI. unfold has_temp. rb; [apply V; assumption|apply runs_ok].
  - intros i x X U. unfold has_temp in U. apply bind_inv in U as (t & T & U). apply plausible_abs. apply (PW i x t); [unfold val; rewrite PL; cbn [bind]; apply at_ok, X|exact T|].
    assert (NE : ne A m t = true) by congruence. apply negb_true_iff in NE. exact NE.
Qed.
Lemma wind_part_runs (ps : parts_t A) name n k st : (n <> 0%nat -> winds_ok m ps name /\ levels A ps name k = Ok n) -> In k [PRES; DRCT; SPED] ->
  P_ (in_s A st) -> exists st', wind_part A m ps name n st = Ok st' /\ P_ (in_s A st').
Proof.
  intros H IK P0. unfold wind_part. apply insert_part_runs; [|intros s a b s'; apply fill_wind_EL|intros s a b s'; apply fill_wind_pres|exact P0].
  intros NZ. destruct (H NZ) as [[HA PW] L]. destruct (levels_arr ps name _ k n HA IK L NZ) as (l & EL0 & _).
  assert (NN : assoc name ps <> None) by (unfold arr in EL0; destruct (assoc name ps); [discriminate|discriminate EL0]).
  destruct (has_arr _ _ _ PRES HA ltac:(cbn; tauto) NN) as (pl & PL). exists pl. split; [exact PL|].
  assert (V : forall i k, (i < length pl)%nat -> In k [PRES; DRCT; SPED] -> runs (val A ps name k i)) by (intros i k0 LI I; apply (has_val ps name _ k0 PRES pl i HA I ltac:(cbn; tauto) PL LI)).
  split.
  - intros i LI. split; [|split].
    + unfold has_wind. rb; [apply V; [exact LI|cbn; tauto]|]. destruct (ne A m x); [|apply runs_ok]. rb; [apply V; [exact LI|cbn; tauto]|apply runs_ok].
    + unfold fresh_wind. rb; [apply V; [exact LI|cbn; tauto]|]. rb; [apply V; [exact LI|cbn; tauto]|]. apply runs_ok.
    + intros s loc E LL. apply fill_wind_runs; [exact E|exact LL|apply V; [exact LI|cbn; tauto]|apply V; [exact LI|cbn; tauto]].
  - intros i x X U. unfold has_wind in U. apply bind_inv in U as (d & D & U). destruct (ne A m d) eqn:ND; [|discriminate].
    apply (PW i x d); [unfold val; rewrite PL; cbn [bind]; apply at_ok, X|exact D|]. apply negb_true_iff in ND. exact ND.
Qed.
Lemma max_winds_ok (ps : parts_t A) name : has_arrays ps name [PRES; DRCT; SPED] -> plausible_with m ps name DRCT -> winds_ok m ps name.
Proof. intros H PW. split; [exact H|]. intros i x y V1 V2 G. apply plausible_abs. eapply PW; eassumption. Qed.
Lemma trop_part_runs (ps : parts_t A) name n st : has_arrays ps name [PRES; TEMP; DWPT; DRCT; SPED] -> plausible_with m ps name TEMP -> levels A ps name PRES = Ok n ->
  P_ (in_s A st) -> exists st', trop_part A m ps name n st = Ok st' /\ P_ (in_s A st').
Proof.
  intros H PW L P0. unfold trop_part. apply insert_part_runs; [| | |exact P0].
  - intros NZ. destruct (temp_part_runs ps name n _ H ltac:(cbn; tauto) ltac:(cbn; tauto) PW L NZ) as (pl & PL & V & U & PU). exists pl. split; [exact PL|]. split; [|exact PU].
    intros i LI. split; [apply U, LI|]. split.
    + unfold fresh_trop. do 4 (rb; [apply V; [exact LI|cbn; tauto]|]). apply runs_ok.
    + intros s loc E LL. cbv beta. rb; [apply fill_temp_runs; [exact E|exact LL|apply V; [exact LI|cbn; tauto]..]|]. pose proof (fill_temp_EL m _ _ _ _ _ _ E E0) as EE. pose proof (fill_temp_pres m _ _ _ _ _ _ E0) as PE.
      rb; [apply fill_dir_runs; [exact EE|rewrite PE; exact LL|apply V; [exact LI|cbn; tauto]..]|]. apply set_key_runs; [eapply fill_dir_EL; eassumption|]. rewrite (fill_dir_pres m _ _ _ _ _ _ E1), PE. exact LL.
  - intros s a b s' ES HS. cbv beta in HS. apply bind_inv in HS as (s1 & S1 & HS). apply bind_inv in HS as (s2 & S2 & HS).
    apply (EL_set s2 HGHT a m); [|exact HS]. eapply fill_dir_EL; [|exact S2]. eapply fill_temp_EL; [|exact S1]. exact ES.
  - intros s a b s' HS. cbv beta in HS. apply bind_inv in HS as (s1 & S1 & HS). apply bind_inv in HS as (s2 & S2 & HS).
    apply set_pres in HS; [|discriminate]. apply fill_temp_pres in S1. apply fill_dir_pres in S2. congruence.
Qed.
Lemma sigt_part_runs (ps : parts_t A) name n st : has_arrays ps name [PRES; TEMP; DWPT] -> plausible_with m ps name TEMP -> levels A ps name PRES = Ok n ->
  P_ (in_s A st) -> exists st', sigt_part A m ps name n st = Ok st' /\ P_ (in_s A st').
Proof.
  intros H PW L P0. unfold sigt_part. apply insert_part_runs; [|intros s a b s'; apply fill_temp_EL|intros s a b s'; apply fill_temp_pres|exact P0].
  intros NZ. destruct (temp_part_runs ps name n _ H ltac:(cbn; tauto) ltac:(cbn; tauto) PW L NZ) as (pl & PL & V & U & PU). exists pl. split; [exact PL|]. split; [|exact PU].
  intros i LI. split; [apply U, LI|]. split.
  - unfold fresh_sigt. do 2 (rb; [apply V; [exact LI|cbn; tauto]|]). apply runs_ok.
  - intros s loc E LL. apply fill_temp_runs; [exact E|exact LL|apply V; [exact LI|cbn; tauto]..].
Qed.
Lemma pinv_nth p0 l : pinv p0 l -> forall i j x y, (i < j)%nat -> nth_error l i = Some x -> nth_error l j = Some y -> lt y x = true /\ ok x /\ ok y.
Proof.
  intros (D & OK & _) i j x y IJ X Y. split; [exact (sorted_nth _ _ D i j x y IJ X Y)|]. rewrite Forall_forall in OK. split; apply OK; eapply nth_error_In; eassumption.
Qed.
Theorem merge_returns (ps : parts_t A) selv : numbers ok ps -> dictionary ps "TTAA" -> dictionary ps "TTCC" -> regular m ps -> surface_reported m ps ->
  levels A ps "PPBB" SPED = Ok 0%nat \/ levels A ps "PPDD" SPED = Ok 0%nat ->
  exists fuel0, forall fuel, (fuel0 <= fuel)%nat -> exists s, merge_sounding A m fuel ps selv = Ok (Some s).
Proof.
  intros NB D1 D2 (R1 & R2 & R3 & R4 & R5 & R6) SR SIL. unfold merge_sounding.
  destruct (R1 "TTAA" ltac:(cbn; tauto)) as (H1 & N1 & Q1). destruct (R1 "TTCC" ltac:(cbn; tauto)) as (H2 & N2 & Q2).
  destruct (R2 "TRPA" ltac:(cbn; tauto)) as (H3 & Q3). destruct (R2 "TRPC" ltac:(cbn; tauto)) as (H4 & Q4).
  destruct (R3 "TTBB" ltac:(cbn; tauto)) as (H5 & Q5). destruct (R3 "TTDD" ltac:(cbn; tauto)) as (H6 & Q6).
  pose proof (R4 "PPAA" ltac:(cbn; tauto)) as H7. pose proof (R4 "PPCC" ltac:(cbn; tauto)) as H8.
  destruct (R5 "MXWA" ltac:(cbn; tauto)) as (H9 & Q9). destruct (R5 "MXWC" ltac:(cbn; tauto)) as (H10 & Q10).
  destruct (R6 "PPBB" ltac:(cbn; tauto)) as (H11 & Q11). destruct (R6 "PPDD" ltac:(cbn; tauto)) as (H12 & Q12). clear R1 R2 R3 R4 R5 R6.
  destruct (levels_runs ps "TTAA" _ PRES H1 ltac:(cbn; tauto)) as (n1 & L1 & _). destruct (levels_runs ps "PPAA" _ PRES H7 ltac:(cbn; tauto)) as (n2 & L2 & _).
  destruct (levels_runs ps "TRPA" _ PRES H3 ltac:(cbn; tauto)) as (n3 & L3 & _). destruct (levels_runs ps "MXWA" _ PRES H9 ltac:(cbn; tauto)) as (n4 & L4 & _).
  destruct (levels_runs ps "TTBB" _ PRES H5 ltac:(cbn; tauto)) as (n5 & L5 & _). destruct (winds_levels m ps "PPBB" H11) as (n6 & L6).
  destruct (levels_runs ps "TTCC" _ PRES H2 ltac:(cbn; tauto)) as (n7 & L7 & _). destruct (levels_runs ps "TRPC" _ PRES H4 ltac:(cbn; tauto)) as (n8 & L8 & _).
  destruct (levels_runs ps "MXWC" _ SPED H10 ltac:(cbn; tauto)) as (n9 & L9 & _). destruct (levels_runs ps "TTDD" _ PRES H6 ltac:(cbn; tauto)) as (n10 & L10 & _).
  destruct (winds_levels m ps "PPDD" H12) as (n11 & L11). destruct (levels_runs ps "PPCC" _ SPED H8 ltac:(cbn; tauto)) as (n12 & L12 & _).
  rewrite L1, L2, L3, L4, L5, L6, L7, L8, L9, L10, L11, L12. cbn [bind].
  assert (NZ : (n1 + n2 + n3 + n4 + n5 + n6 + n7 + n8 + n9 + n10 + n11 + n12 =? 0)%nat = false).
  { assert (0 < n1 \/ 0 < n5)%nat; [|lia]. destruct SR as [(p & V & _)|(p & t & V & _)]; [left|right]; eapply levels_pos; eassumption. }
  rewrite NZ.
  destruct (wind_coord_runs m ps "PPBB" n6 H11 Q11 L6) as (bbz & ps1 & W1 & L6' & C1). rewrite W1. cbn [bind].
  assert (TD : assoc "PPDD" ps1 = assoc "PPDD" ps) by (apply (wind_coord_other m _ _ _ _ _ "PPDD" W1); discriminate).
  assert (H12' : has_winds m ps1 "PPDD") by (intros p P; apply H12; congruence).
  assert (Q12' : plausible_winds m ps1 "PPDD").
  { intros p l i x y P PI X V G. apply (Q12 p l i x y); try assumption; [congruence|]. unfold val, arr in *. rewrite <- TD. exact V. }
  assert (L11' : levels A ps1 "PPDD" SPED = Ok n11) by (unfold levels; rewrite TD; exact L11).
  destruct (wind_coord_runs m ps1 "PPDD" n11 H12' Q12' L11') as (ddz & ps2 & W2 & L11'' & C2). rewrite W2. cbn [bind].
  assert (SA : forall o, o <> "PPBB" -> o <> "PPDD" -> assoc o ps2 = assoc o ps).
  { intros o O1 O2. rewrite (wind_coord_other m _ _ _ _ _ o W2 O2). apply (wind_coord_other m _ _ _ _ _ o W1 O1). }
  assert (TB : assoc "PPBB" ps2 = assoc "PPBB" ps1) by (apply (wind_coord_other m _ _ _ _ _ "PPBB" W2); discriminate).
  assert (HA2 : forall o ks, o <> "PPBB" -> o <> "PPDD" -> has_arrays ps o ks -> has_arrays ps2 o ks) by (intros o ks X1 X2 HH p P; apply HH; rewrite <- (SA o X1 X2); exact P).
  assert (VA2 : forall o k i, o <> "PPBB" -> o <> "PPDD" -> val A ps2 o k i = val A ps o k i) by (intros o k i X1 X2; unfold val, arr; rewrite (SA o X1 X2); reflexivity).
  assert (LV2 : forall o k, o <> "PPBB" -> o <> "PPDD" -> levels A ps2 o k = levels A ps o k) by (intros o k X1 X2; unfold levels; rewrite (SA o X1 X2); reflexivity).
  assert (PW2 : forall o k, o <> "PPBB" -> o <> "PPDD" -> plausible_with m ps o k -> plausible_with m ps2 o k) by (intros o k X1 X2 HH i x y; rewrite !VA2 by assumption; apply HH).
  pose proof (numbers_coord m _ _ _ _ _ NB W1) as NB1. pose proof (numbers_coord m _ _ _ _ _ NB1 W2) as NB2.
  apply HA2 in H1; [|discriminate..]. apply HA2 in H2; [|discriminate..]. apply HA2 in H3; [|discriminate..]. apply HA2 in H4; [|discriminate..]. apply HA2 in H5; [|discriminate..].
  apply HA2 in H6; [|discriminate..]. apply HA2 in H7; [|discriminate..]. apply HA2 in H8; [|discriminate..]. apply HA2 in H9; [|discriminate..]. apply HA2 in H10; [|discriminate..].
  apply PW2 in Q3; [|discriminate..]. apply PW2 in Q4; [|discriminate..]. apply PW2 in Q5; [|discriminate..]. apply PW2 in Q6; [|discriminate..]. apply PW2 in Q9; [|discriminate..]. apply PW2 in Q10; [|discriminate..].
  rewrite <- LV2 in L1, L2, L3, L4, L5, L7, L8, L9, L10, L12 by discriminate.
  assert (Q1' : plausible_levels m ps2 "TTAA") by (intros i x; rewrite VA2 by discriminate; apply Q1).
  assert (Q2' : plausible_levels m ps2 "TTCC") by (intros i x; rewrite VA2 by discriminate; apply Q2).
  assert (DA : dictionary ps2 "TTAA") by (intros p P; apply D1; rewrite <- SA by discriminate; exact P). assert (DC : dictionary ps2 "TTCC") by (intros p P; apply D2; rewrite <- SA by discriminate; exact P).
  assert (N1' : only_levels ps2 "TTAA") by (intros p P; apply N1; rewrite <- SA by discriminate; exact P). assert (N2' : only_levels ps2 "TTCC") by (intros p P; apply N2; rewrite <- SA by discriminate; exact P).
  assert (WB : n6 <> 0%nat -> winds_ok m ps2 "PPBB") by (intros NZ6; destruct C1 as [[_ Z]|[_ X]]; [contradiction|]; eapply winds_ok_other; [exact TB|exact X]).
  assert (WD : n11 <> 0%nat -> winds_ok m ps2 "PPDD") by (intros NZ6; destruct C2 as [[_ Z]|[_ X]]; [contradiction|exact X]).
  assert (L6'' : levels A ps2 "PPBB" SPED = Ok n6) by (unfold levels; rewrite TB; exact L6').
  assert (ZB : bbz = true -> n6 = 0%nat) by (destruct C1 as [[_ Z]|[-> _]]; [auto|discriminate]). assert (ZD : ddz = true -> n11 = 0%nat) by (destruct C2 as [[_ Z]|[-> _]]; [auto|discriminate]).
  assert (ZZ : bbz || ddz = true).
  { destruct SIL as [Z|Z].
    - assert (n6 = 0%nat) as -> by congruence. cbn in W1. assert (bbz = true) as -> by congruence. reflexivity.
    - assert (n11 = 0%nat) as -> by congruence. cbn in W2. assert (ddz = true) as -> by congruence. apply orb_true_r. }
  clear C1 C2 W1 W2 TD TB HA2 PW2 LV2 N1 N2 D1 D2 Q1 Q2 L6 L6' L11 L11' H11 H12 H12' Q11 Q12 Q12'.
  pose proof (mm_eq O m OM) as MM.
  (* the surface *)
  destruct (surface_runs m ps2 selv n1 H1 L1) as (s1 & S1). rewrite S1. cbn [bind]. pose proof (surface_EL m _ _ _ _ S1) as E1. pose proof (surface_SG m _ _ _ _ MM Q1' S1) as G1.
  destruct (surface_sigt_runs m ps2 n5 s1 H5 L5 E1 (SG_len m s1 G1)) as (s2 & S2). rewrite S2. cbn [bind]. pose proof (sigt_EL m _ _ _ _ E1 S2) as E2. pose proof (sigt_SG m _ _ _ _ Q5 G1 S2) as G2.
  assert (SW : exists s3, surface_sigw A m ps2 n6 bbz s2 = Ok s3 /\ SG m s3).
  { destruct bbz; [rewrite ZB by reflexivity; exists s2; auto|].
    destruct (surface_sigw_runs m ps2 n6 s2) as (s3 & S3); [intros NZ6; split; [apply WB, NZ6|exact L6'']|exact E2|apply (SG_len m), G2|]. exists s3. split; [exact S3|].
    eapply sigw_SG; [|exact G2|exact S3]. intros NZ6. apply WB, NZ6. }
  destruct SW as (s3 & S3 & G3). rewrite S3. cbn [bind]. pose proof (sigw_EL m _ _ _ _ _ E2 S3) as E3.
  assert (P2 : exists p, s_pres s2 = [p] /\ ok p /\ given m p).
  { assert (P1 : exists p, s_pres s1 = [p] /\ ok p).
    { destruct (surface_pres m _ _ _ _ S1) as [E|(p & E & V)]; [exists m; auto|exists p; split; [exact E|eapply numbers_val; eassumption]]. }
    destruct SR as [SR|SR].
    - assert (SR2 : surface_in_TTAA m ps2).
      { destruct SR as (p & V & G & Q0' & QQ1 & HI). exists p. rewrite VA2 by discriminate. repeat (split; [assumption|]). intros i q t z. rewrite !VA2 by discriminate. apply HI. }
      assert (N0 : (0 < n1)%nat) by (destruct SR2 as (p & V & _); exact (levels_pos _ _ _ _ _ _ L1 V)).
      destruct (surface_TTAA O m OM ABSM Q M0 O0 _ _ _ _ NB2 SR2 N0 S1) as (p & E & OP & GP & VP). destruct (sigt_keep m _ _ _ _ _ NB2 E OP S2) as (p' & ? & ? & G' & _). exists p'. auto.
    - assert (SR2 : surface_in_TTBB m ps2).
      { destruct SR as (p & t & V1 & V2 & G). exists p, t. rewrite !VA2 by discriminate. auto. }
      assert (N0 : (0 < n5)%nat) by (destruct SR2 as (p & t & V & _); exact (levels_pos _ _ _ _ _ _ L5 V)).
      destruct P1 as (p & E & OP). destruct (sigt_TTBB m ABSM Q M0 _ _ _ _ _ NB2 SR2 N0 E OP S2) as (p' & E' & O' & G' & _). exists p'. auto. }
  destruct P2 as (p2 & EP2 & OP2 & GP2). destruct (sigw_keep O m ABSM _ _ _ _ _ _ NB2 EP2 OP2 S3) as (p0 & EP3 & OP3 & GP3 & _). specialize (GP3 GP2).
  assert (PS3 : P_ s3).
  { split; [exact E3|]. destruct G3 as (p & EE & GG). rewrite EE in *. assert (p = p0) as -> by congruence. constructor; [apply GG, GP3|constructor]. }
  (* mandatory levels *)
  destruct (mandatory_good m ps2 n1 n7 s3) as (s4 & bgl & S4 & P4 & LP4); [intros name [<-|[<-|[]]]; auto|exact L1|exact L7|exact PS3|rewrite EP3; cbn; lia|].
  rewrite S4. cbn [bind]. destruct (mandatory_pinv O m OM ABSM Q M0 _ _ _ _ _ _ _ NB2 DA DC EP3 OP3 GP3 S4) as [I4 _].
  destruct (man_wind_runs m ps2 "PPAA" n2 n1 PRES s4 H7 ltac:(cbn; tauto) L2 (proj1 P4)) as (s5 & S5). rewrite S5. cbn [bind]. pose proof (man_wind_EL m _ _ _ _ _ _ (proj1 P4) S5) as E5. apply man_wind_pres in S5.
  destruct (man_wind_runs m ps2 "PPCC" n12 n1 SPED s5 H8 ltac:(cbn; tauto) L12 E5) as (s6 & S6). rewrite S6. cbn [bind]. pose proof (man_wind_EL m _ _ _ _ _ _ E5 S6) as E6. apply man_wind_pres in S6.
  assert (I6 : pinv p0 (s_pres s6)) by (rewrite S6, S5; exact I4). assert (P6 : P_ s6) by (split; [exact E6|rewrite S6, S5; exact (proj2 P4)]). assert (LP6 : (0 < length (s_pres s6))%nat) by (rewrite S6, S5; exact LP4).
  clear S5 S6 E5 s5 I4 P4 LP4 S4 s4 PS3 G3 G2 G1 E1 E2 E3 S1 S2 S3 s1 s2 EP2 OP2 GP2 EP3 SR.
  assert (TR : forall (P : N -> Prop) x, In x (@nil N) -> P x) by (intros P x []).
  assert (QA : forall name pl x, arr A ps2 name PRES = Ok pl -> In x pl -> Q (n_abs A x)) by (intros; exact I).
  assert (HD : forall l, pinv p0 l -> exists p r, l = p :: r /\ given m p).
  { intros l PI. destruct PI as (_ & _ & G & IN & _). destruct l as [|p r]; [destruct IN|]. exists p, r. split; [reflexivity|]. inversion G; assumption. }
  assert (SPB : forall name s, pinv p0 (s_pres s) -> runs (start_pbot A m ps2 name s)).
  { intros name s PI. destruct (HD _ PI) as (p & r & E & G). unfold start_pbot. rewrite E. cbn [at_ nth_error bind]. unfold ne, ismiss. unfold given in G. rewrite G. apply runs_ok. }
  assert (SWB : forall s, pinv p0 (s_pres s) -> runs (start_wind A m s)).
  { intros s PI. destruct (HD _ PI) as (p & r & E & G). unfold start_wind. rewrite E. cbn [at_ nth_error bind]. unfold ne, ismiss. unfold given in G. rewrite G. apply runs_ok. }
  (* tropopause *)
  assert (ST7 : exists st7, (if (1 <=? n3 + n8)%nat then pbot <- start_pbot A m ps2 "TRPA" s6;; st <- trop_part A m ps2 "TRPA" n3 (mk_ins A s6 pbot None);; trop_part A m ps2 "TRPC" n8 st
      else Ok (mk_ins A s6 m None)) = Ok st7 /\ P_ (in_s A st7) /\ pinv p0 (s_pres (in_s A st7))).
  { destruct (1 <=? n3 + n8)%nat; [|eexists; split; [reflexivity|auto]]. destruct (SPB "TRPA" s6 I6) as (pb & PB). rewrite PB. cbn [bind].
    destruct (trop_part_runs ps2 "TRPA" n3 (mk_ins A s6 pb None) H3 Q3 L3 P6) as (sa & SAE & PA). rewrite SAE. cbn [bind]. apply (trop_pinv O m Q p0) in SAE; [|exact NB2|apply QA|exact I6].
    destruct (trop_part_runs ps2 "TRPC" n8 sa H4 Q4 L8 PA) as (sb & SBE & PBB). exists sb. split; [exact SBE|]. split; [exact PBB|]. eapply (trop_pinv O m Q p0); [exact NB2|apply QA|exact SAE|exact SBE]. }
  destruct ST7 as (st7 & S7 & P7 & I7). rewrite S7. cbn [bind]. clear S7.
  assert (ST8 : exists st8, (if (1 <=? n5 + n10)%nat then pbot <- start_pbot A m ps2 "TTBB" (in_s A st7);; st <- sigt_part A m ps2 "TTBB" n5 (mk_ins A (in_s A st7) pbot (in_size A st7));; sigt_part A m ps2 "TTDD" n10 st
      else Ok st7) = Ok st8 /\ P_ (in_s A st8) /\ pinv p0 (s_pres (in_s A st8))).
  { destruct (1 <=? n5 + n10)%nat; [|eexists; split; [reflexivity|auto]]. destruct (SPB "TTBB" _ I7) as (pb & PB). rewrite PB. cbn [bind].
    destruct (sigt_part_runs ps2 "TTBB" n5 (mk_ins A (in_s A st7) pb (in_size A st7)) H5 Q5 L5 P7) as (sa & SAE & PA). rewrite SAE. cbn [bind]. apply (sigt_part_pinv O m Q p0) in SAE; [|exact NB2|apply QA|exact I7].
    destruct (sigt_part_runs ps2 "TTDD" n10 sa H6 Q6 L10 PA) as (sb & SBE & PBB). exists sb. split; [exact SBE|]. split; [exact PBB|]. eapply (sigt_part_pinv O m Q p0); [exact NB2|apply QA|exact SAE|exact SBE]. }
  destruct ST8 as (st8 & S8 & P8 & I8). rewrite S8. cbn [bind]. clear S8.
  destruct P8 as [E8 F8]. destruct E8 as (k8 & A8). destruct (moist_height_runs (in_s A st8) k8 m A8) as (s9 & S9). rewrite S9. cbn [bind]. cbv zeta. cbn [in_s in_size in_pbot].
  pose proof (moist_EL m _ _ (ex_intro _ k8 A8) S9) as E9. apply moist_pres in S9. assert (P9 : P_ s9) by (split; [exact E9|rewrite S9; exact F8]). assert (I9 : pinv p0 (s_pres s9)) by (rewrite S9; exact I8).
  assert (ST10 : exists st10, (if (negb bbz || negb ddz) && (1 <=? n6 + n11)%nat then pbot <- start_wind A m s9;; st <- wind_part A m ps2 "PPBB" (if bbz then 0%nat else n6) (mk_ins A s9 pbot (in_size A st8));;
       wind_part A m ps2 "PPDD" (if ddz then 0%nat else n11) st
      else Ok (mk_ins A s9 (in_pbot A st8) (in_size A st8))) = Ok st10 /\ P_ (in_s A st10) /\ pinv p0 (s_pres (in_s A st10))).
  { destruct (_ && _); [|eexists; split; [reflexivity|auto]]. destruct (SWB _ I9) as (pb & PB). rewrite PB. cbn [bind].
    destruct (wind_part_runs ps2 "PPBB" (if bbz then 0%nat else n6) SPED (mk_ins A s9 pb (in_size A st8))) as (sa & SAE & PA); [destruct bbz; [congruence|intros NZ6; split; [apply WB, NZ6|exact L6'']]|cbn; tauto|exact P9|].
    rewrite SAE. cbn [bind]. apply (wind_part_pinv O m Q p0) in SAE; [|exact NB2|apply QA|exact I9].
    destruct (wind_part_runs ps2 "PPDD" (if ddz then 0%nat else n11) SPED sa) as (sb & SBE & PBB); [destruct ddz; [congruence|intros NZ6; split; [apply WD, NZ6|exact L11'']]|cbn; tauto|exact PA|].
    exists sb. split; [exact SBE|]. split; [exact PBB|]. eapply (wind_part_pinv O m Q p0); [exact NB2|apply QA|exact SAE|exact SBE]. }
  destruct ST10 as (st10 & S10 & P10 & I10). rewrite S10. cbn [bind]. clear S10.
  assert (ST11 : exists st11, (if (1 <=? n4 + n9)%nat then pbot <- start_wind A m (in_s A st10);; st <- wind_part A m ps2 "MXWA" n4 (mk_ins A (in_s A st10) pbot (in_size A st10));; wind_part A m ps2 "MXWC" n9 st
      else Ok st10) = Ok st11 /\ P_ (in_s A st11) /\ pinv p0 (s_pres (in_s A st11))).
  { destruct (1 <=? n4 + n9)%nat; [|eexists; split; [reflexivity|auto]]. destruct (SWB _ I10) as (pb & PB). rewrite PB. cbn [bind].
    destruct (wind_part_runs ps2 "MXWA" n4 PRES (mk_ins A (in_s A st10) pb (in_size A st10))) as (sa & SAE & PA); [intros _; split; [apply max_winds_ok; assumption|exact L4]|cbn; tauto|exact P10|].
    rewrite SAE. cbn [bind]. apply (wind_part_pinv O m Q p0) in SAE; [|exact NB2|apply QA|exact I10].
    destruct (wind_part_runs ps2 "MXWC" n9 SPED sa) as (sb & SBE & PBB); [intros _; split; [apply max_winds_ok; assumption|exact L9]|cbn; tauto|exact PA|].
    exists sb. split; [exact SBE|]. split; [exact PBB|]. eapply (wind_part_pinv O m Q p0); [exact NB2|apply QA|exact SAE|exact SBE]. }
  destruct ST11 as (st11 & S11 & P11 & I11). rewrite S11. cbn [bind]. clear S11.
  (* the fuel *)
  destruct P11 as [(k11 & A11) F11]. exists (k11 + 2)%nat. intros fuel FU.
  assert (K0 : (0 < k11)%nat). { rewrite <- (A11 PRES). cbn [get]. destruct (HD _ I11) as (p & r & E & _). rewrite E. cbn. lia. }
  assert (GV : forall i x, nth_error (s_pres (in_s A st11)) i = Some x -> given m x /\ plausible x).
  { intros i x X. apply nth_error_In in X. destruct I11 as (_ & _ & G & _). rewrite Forall_forall in G, F11. auto. }
  destruct (logp_height_ok (in_s A st11) m fuel k11 A11 MM) as (s12 & S12 & _).
  - intros k (h & HN & _). destruct (at_some (s_pres (in_s A st11)) k) as (x & _ & X).
    + rewrite (A11 PRES : length (s_pres _) = _), <- (A11 HGHT). cbn [get]. apply nth_error_Some. congruence.
    + exists x. split; [exact X|apply (GV k x X)].
  - intros i j p q NP _ _ (IJ & _) NQ. destruct (pinv_nth _ _ I11 i j p q IJ NP NQ) as (LQ & O1 & O2). apply LE; assumption.
  - intros p IP _. rewrite Forall_forall in F11. apply (F11 p IP).
  - exact FU.
  - exact K0.
  - rewrite S12. cbn [bind]. pose proof (logp_EL m _ _ _ (ex_intro _ k11 A11) S12) as E12. apply logp_pres in S12. assert (I12 : pinv p0 (s_pres s12)) by (rewrite S12; exact I11).
    rewrite <- S12 in F11. rewrite ZZ.
    assert (L12' : (0 < length (s_pres s12))%nat) by (rewrite S12, (A11 PRES : length (s_pres _) = _); exact K0).
    destruct (no_height_winds_runs m ps2 bbz ddz n6 n11 s12 ZB ZD E12 L12') as ([sa size] & HW). rewrite HW. cbn [bind].
    apply height_winds_none in HW as [-> ->]; [|exact ZB|exact ZD]. destruct E12 as (k12 & A12). destruct (logp_pressure_runs s12 k12 m A12) as (s13 & S13). rewrite S13. cbn [bind].
    pose proof (logpp_EL m _ _ (ex_intro _ k12 A12) S13) as (k13 & A13). apply (logpp_pres (ok := ok) m OM ABSM Q) in S13; [|apply I12].
    assert (FA : falling (s_pres s13)).
    { rewrite S13. split.
      - intros i j p q IJ NP NQ. apply (pinv_nth _ _ I12 i j p q IJ NP NQ).
      - intros p IP. rewrite Forall_forall in F11. destruct (F11 p IP) as [X _]. destruct I12 as (_ & OK & _). rewrite Forall_forall in OK. apply (LE p (lit_ 0)); [apply OK, IP|exact O0|exact X]. }
    destruct (missing_data_ok s13 k13 m A13 FA) as (s14 & S14). rewrite S14. cbn [bind]. apply miss_pres in S14.
    destruct (below_runs m ps2 bgl n1 (Some (length (s_hght s12))) s14 H1 L1) as (s15 & S15); [discriminate|rewrite S14, S13; exact L12'|]. rewrite S15. cbn [bind]. eauto.
Qed.
End Whole.
