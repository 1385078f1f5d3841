(** The order of merged levels. *)
From Coq Require Import Lia ZifyBool ZifyNat String Sorted.
From Verif Require Import Base Calc SpecCalc CalcFacts Merge SpecMerge SpecMergeOrder MergeFacts.
From Coq Require Import List ZArith Bool.
Import ListNotations.
Open Scope string_scope.
Open Scope list_scope.
Open Scope Z_scope.

(** ** bisect_left *)
Lemma div2_mid lo hi : (lo < hi)%nat -> (lo <= Nat.div2 (lo + hi) < hi)%nat.
Proof. intros H. rewrite Nat.div2_div. pose proof (Nat.div_mod (lo + hi) 2 ltac:(lia)). pose proof (Nat.mod_upper_bound (lo + hi) 2 ltac:(lia)). lia. Qed.
Lemma bisect_loop_spec {N} (lt : N -> N -> bool) (l : list N) x :
  (forall i j y z, (i < j)%nat -> nth_error l i = Some y -> nth_error l j = Some z -> lt z x = true -> lt y x = true) ->
  forall fuel lo hi, (hi <= length l)%nat -> (lo <= hi)%nat -> (hi - lo < fuel)%nat ->
  (forall i y, (i < lo)%nat -> nth_error l i = Some y -> lt y x = true) ->
  (forall i y, (hi <= i)%nat -> nth_error l i = Some y -> lt y x = false) ->
  let c := bisect_loop lt l x fuel lo hi in
  (c <= length l)%nat /\ (forall i y, (i < c)%nat -> nth_error l i = Some y -> lt y x = true) /\
  (forall i y, (c <= i)%nat -> nth_error l i = Some y -> lt y x = false).
Proof.
  intros MON. induction fuel as [|f IH]; intros lo hi HL LH FU LO HI; [lia|]. cbn [bisect_loop].
  destruct (Nat.ltb_spec lo hi) as [C|C].
  - pose proof (div2_mid lo hi C) as M. set (mid := Nat.div2 (lo + hi)) in *.
    destruct (nth_error l mid) as [y|] eqn:E; [|apply nth_error_None in E; lia]. destruct (lt y x) eqn:L.
    + apply IH; try lia; [|exact HI]. intros i z I Z1. destruct (Nat.eq_dec i mid) as [->|NE]; [congruence|]. apply (MON i mid z y); auto. lia.
    + apply IH; try lia; [exact LO|]. intros i z I Z1. destruct (Nat.eq_dec i mid) as [->|NE]; [congruence|].
      destruct (lt z x) eqn:LZ; [|reflexivity]. rewrite <- L. symmetry. apply (MON mid i y z); auto. lia.
  - assert (lo = hi) as -> by lia. split; [lia|]. split; assumption.
Qed.
Lemma in_firstn {X} (l : list X) i y : In y (firstn i l) -> In y l.
Proof. rewrite <- (firstn_skipn i l) at 2. intros H. apply in_or_app. left. exact H. Qed.
Lemma in_skipn {X} (l : list X) i y : In y (skipn i l) -> In y l.
Proof. rewrite <- (firstn_skipn i l) at 2. intros H. apply in_or_app. right. exact H. Qed.

(** ** Order *)
Record ordered (A : arith) (ok : num A -> Prop) : Prop := {
  o_irr : forall x, ok x -> n_lt A x x = false;
  o_tr : forall x y z, ok x -> ok y -> ok z -> n_lt A x y = true -> n_lt A y z = true -> n_lt A x z = true;
  o_tot : forall x y, ok x -> ok y -> n_lt A x y = false -> n_lt A y x = false -> n_eq A x y = true;
  o_eq : forall x y, ok x -> ok y -> n_eq A x y = true -> n_lt A x y = false;
  o_abs : forall x, ok x -> ok (n_abs A x) }.

Section O.
Context {A : arith} {ok : num A -> Prop} (O : ordered A ok).
Notation N := (num A).
Notation lt := (n_lt A).
Lemma lt_asym x y : ok x -> ok y -> lt x y = true -> lt y x = false.
Proof.
  intros X Y L. destruct (lt y x) eqn:E; [|reflexivity]. pose proof (o_tr A ok O x y x X Y X L E) as H. rewrite (o_irr A ok O x X) in H. discriminate.
Qed.
Lemma sorted_app (R : N -> N -> Prop) : forall a b, StronglySorted R (a ++ b) <->
  StronglySorted R a /\ StronglySorted R b /\ forall x y, In x a -> In y b -> R x y.
Proof.
  induction a as [|x a IH]; intros b; cbn [app].
  - split; [intros H; repeat split; [constructor|exact H|intros x y []]|intros (_ & H & _); exact H].
  - split.
    + intros H. apply StronglySorted_inv in H as [H F]. apply IH in H as (H1 & H2 & H3). rewrite Forall_forall in F. split; [|split; [exact H2|]].
      * constructor; [exact H1|]. apply Forall_forall. intros y Y. apply F, in_or_app. left. exact Y.
      * intros y z [<-|Y] Z1; [apply F, in_or_app; right; exact Z1|apply H3; assumption].
    + intros (H1 & H2 & H3). apply StronglySorted_inv in H1 as [H1 F]. constructor.
      * apply IH. split; [exact H1|]. split; [exact H2|]. intros y z Y. apply H3. right. exact Y.
      * rewrite Forall_forall in *. intros y Y. apply in_app_or in Y as [Y|Y]; [apply F, Y|apply H3; [left; reflexivity|exact Y]].
Qed.
Lemma sorted_nth (R : N -> N -> Prop) l : StronglySorted R l -> forall i j x y, (i < j)%nat -> nth_error l i = Some x -> nth_error l j = Some y -> R x y.
Proof.
  induction 1 as [|a l S IH F]; intros i j x y IJ X Y; [destruct i; discriminate|].
  destruct j as [|j]; [lia|]. cbn in Y. destruct i as [|i]; cbn in X.
  - rewrite Forall_forall in F. assert (x = a) as -> by congruence. apply F. eapply nth_error_In, Y.
  - apply (IH i j); auto. lia.
Qed.
(** Where bisect_left puts a value into a descending list *)
Definition place (l : list N) (x : N) : nat := (length l - bisect_left lt (rev l) x)%nat.
Lemma place_spec l x : descending l -> Forall ok l -> ok x ->
  (bisect_left lt (rev l) x <= length l)%nat /\
  (forall y, In y (firstn (place l x) l) -> lt y x = false) /\ (forall y, In y (skipn (place l x) l) -> lt y x = true).
Proof.
  intros D OK OX. pose proof (bisect_loop_spec lt (rev l) x) as B. specialize (B) with (fuel := S (length (rev l))) (lo := 0%nat) (hi := length (rev l)).
  destruct B as (B1 & B2 & B3).
  - intros i j y z IJ Y Z1 L. apply (o_tr A ok O y z x); auto.
    + rewrite Forall_forall in OK. apply OK. rewrite in_rev. eapply nth_error_In, Y.
    + rewrite Forall_forall in OK. apply OK. rewrite in_rev. eapply nth_error_In, Z1.
    + (* y before z in rev l, so z before y in l *)
      assert (R : StronglySorted (fun a b => lt a b = true) (rev l)).
      { clear - D. induction D as [|a l D IH F]; [constructor|]. cbn [rev]. apply sorted_app. split; [exact IH|]. split; [repeat constructor|].
        intros u v U [<-|[]]. rewrite Forall_forall in F. apply F. rewrite in_rev. exact U. }
      apply (sorted_nth _ _ R i j); auto.
  - lia.
  - lia.
  - lia.
  - intros i y I. lia.
  - intros i y I Y. assert (nth_error (rev l) i = None) by (apply nth_error_None; lia). congruence.
  - fold (bisect_left lt (rev l) x) in B1, B2, B3. set (c := bisect_left lt (rev l) x) in *. rewrite rev_length in B1. split; [exact B1|].
    assert (PL : place l x = (length l - c)%nat) by reflexivity.
    assert (SP : rev l = rev (skipn (place l x) l) ++ rev (firstn (place l x) l)) by (rewrite <- rev_app_distr, firstn_skipn; reflexivity).
    assert (LS : length (rev (skipn (place l x) l)) = c) by (rewrite rev_length, skipn_length; lia).
    split; intros y Y.
    + rewrite in_rev in Y. apply In_nth_error in Y as (k & K). apply (B3 (c + k)%nat); [lia|]. rewrite SP, nth_error_app2 by lia. rewrite LS. replace (c + k - c)%nat with k by lia. exact K.
    + rewrite in_rev in Y. apply In_nth_error in Y as (k & K). assert (k < c)%nat by (rewrite <- LS; apply nth_error_Some; congruence).
      apply (B2 k); [lia|]. rewrite SP, nth_error_app1 by lia. exact K.
Qed.
Lemma insert_place l x : (bisect_left lt (rev l) x <= length l)%nat ->
  insert_ l (Z.of_nat (length l) - Z.of_nat (bisect_left lt (rev l) x)) x = firstn (place l x) l ++ x :: skipn (place l x) l.
Proof.
  intros L. unfold insert_, place, Zlen. set (c := bisect_left _ _ _) in *.
  replace (Z.to_nat _) with (length l - c)%nat; [reflexivity|]. destruct (Z.ltb_spec (Z.of_nat (length l) - Z.of_nat c) 0); lia.
Qed.
Lemma place_descending l x : descending l -> Forall ok l -> ok x -> (forall y, In y l -> n_eq A y x = false) ->
  descending (firstn (place l x) l ++ x :: skipn (place l x) l).
Proof.
  intros D OK OX NE. destruct (place_spec l x D OK OX) as (_ & F & S). unfold descending in *.
  rewrite <- (firstn_skipn (place l x) l) in D. apply sorted_app in D as (D1 & D2 & D3). apply sorted_app. rewrite Forall_forall in OK.
  split; [exact D1|]. split.
  - constructor; [exact D2|]. apply Forall_forall. exact S.
  - assert (G : forall y, In y (firstn (place l x) l) -> lt x y = true).
    { intros y Y. pose proof (in_firstn _ _ _ Y) as IY. destruct (lt x y) eqn:E; [reflexivity|]. pose proof (o_tot A ok O y x (OK y IY) OX (F y Y) E) as Q. rewrite (NE y IY) in Q. discriminate. }
    intros y z Y [<-|Z1]; [apply G, Y|apply D3; assumption].
Qed.
Lemma existsb_eq_false (l : list N) x : existsb (fun y => n_eq A y x) l = false -> forall y, In y l -> n_eq A y x = false.
Proof.
  intros H y Y. destruct (n_eq A y x) eqn:E; [|reflexivity]. assert (existsb (fun y => n_eq A y x) l = true) by (apply existsb_exists; eauto). congruence.
Qed.

(** ** The pressures while merging *)
Variable m : N.
Hypothesis OM : ok m.
Hypothesis ABSM : forall x, ok x -> n_eq A (n_abs A x) m = false.
(** [Q] says which pressures may be inserted *)
Variable Q : N -> Prop.
Definition from (p0 y : N) : Prop := y = p0 \/ lt y p0 = true \/ Q y.
(** Descending, given, among them the surface pressure; a higher pressure was inserted *)
Definition pinv (p0 : N) (l : list N) : Prop :=
  descending l /\ Forall ok l /\ Forall (given m) l /\ In p0 l /\ Forall (from p0) l.
Lemma pinv_insert p0 l x : pinv p0 l -> ok x -> given m x -> Q x -> (forall y, In y l -> n_eq A y x = false) ->
  pinv p0 (insert_ l (Z.of_nat (length l) - Z.of_nat (bisect_left lt (rev l) x)) x).
Proof.
  intros (D & OK & G & I & FR) OX GX QX NE. destruct (place_spec l x D OK OX) as (L & _ & _). rewrite insert_place by exact L.
  split; [apply place_descending; assumption|]. rewrite <- (firstn_skipn (place l x) l) in OK, G, I, FR.
  apply Forall_app in OK as [OK1 OK2]. apply Forall_app in G as [G1 G2]. apply Forall_app in FR as [F1 F2].
  split; [apply Forall_app; auto|]. split; [apply Forall_app; auto|]. split.
  - apply in_or_app. apply in_app_or in I as [I|I]; [left; exact I|right; right; exact I].
  - apply Forall_app. split; [exact F1|]. constructor; [right; right; exact QX|exact F2].
Qed.

(** ** Values of the parts *)
Lemma numbers_arr (ps : parts_t A) name k l : numbers ok ps -> arr A ps name k = Ok l -> Forall ok l.
Proof.
  unfold arr, arr_of, assoc. intros NB H. destruct (find _ ps) as [[n p]|] eqn:F; [|discriminate]. cbn [snd] in H.
  destruct (find _ p) as [[kn a]|] eqn:G; [|discriminate]. cbn [snd] in H. assert (l = a) as -> by congruence.
  apply find_some in F as [F _]. apply find_some in G as [G _]. eapply NB; eassumption.
Qed.
Lemma numbers_val (ps : parts_t A) name k i x : numbers ok ps -> val A ps name k i = Ok x -> ok x.
Proof.
  unfold val. intros NB H. apply bind_inv in H as (l & L & H). apply at_ok in H. pose proof (numbers_arr _ _ _ _ NB L) as F. rewrite Forall_forall in F.
  apply F. eapply nth_error_In, H.
Qed.
Lemma numbers_coord (ps ps' : parts_t A) name n b : numbers ok ps -> wind_coord A m ps name n = Ok (b, ps') -> numbers ok ps'.
Proof.
  intros NB H. unfold wind_coord in H. destruct n; [assert (ps' = ps) as -> by congruence; exact NB|]. destruct (assoc name ps) as [p|] eqn:P; [|discriminate]. destruct (assoc "PRES" p); [assert (ps' = ps) as -> by congruence; exact NB|].
  apply bind_inv in H as (h & HH & H). destruct (existsb _ h) in H; [|assert (ps' = ps) as -> by congruence; exact NB].
  match type of H with Ok (_, ?x) = _ => assert (ps' = x) as -> by congruence end. clear H.
  assert (OH : Forall ok h) by (apply (numbers_arr ps name HGHT); [exact NB|unfold arr; rewrite P; exact HH]).
  intros nm q k l I J. apply in_map_iff in I as ([nm' q'] & E & I). cbn [fst snd] in E. destruct (String.eqb nm' name).
  - assert (q = q' ++ [("PRES", h)]) as -> by congruence. apply in_app_or in J as [J|[J|[]]]; [eapply NB; eassumption|]. assert (l = h) as -> by congruence. exact OH.
  - assert (q = q') as -> by congruence. eapply NB; eassumption.
Qed.

(** ** Steps that leave the pressures alone *)
Lemma set_pres (s s' : sounding N) k i x : k <> PRES -> set_key A s k i x = Ok s' -> s_pres s' = s_pres s.
Proof. intros NE H. unfold set_key in H. apply bind_inv in H as (l & _ & H). assert (s' = put s k l) as -> by congruence. apply (get_put_other s k PRES). congruence. Qed.
Ltac pres_tac := repeat match goal with
  | H : set_key _ ?s ?k _ _ = Ok ?s' |- _ => apply set_pres in H; [|discriminate]
  end; try congruence.
Lemma fill_temp_pres ps name loc i (s s' : sounding N) : fill_temp A m ps name s loc i = Ok s' -> s_pres s' = s_pres s.
Proof. intros H. unfold fill_temp in H. step H; pres_tac. Qed.
Lemma fill_dir_pres ps name loc i (s s' : sounding N) : fill_dir A m ps name s loc i = Ok s' -> s_pres s' = s_pres s.
Proof. intros H. unfold fill_dir in H. step H; pres_tac. Qed.
Lemma fill_wind_pres ps name loc i (s s' : sounding N) : fill_wind A m ps name s loc i = Ok s' -> s_pres s' = s_pres s.
Proof. intros H. unfold fill_wind in H. step H; pres_tac. Qed.
Lemma man_wind_pres ps name n n' (s s' : sounding N) : man_wind A m ps name n n' s = Ok s' -> s_pres s' = s_pres s.
Proof.
  intros H. unfold man_wind in H. destruct (_ && _) in H; [|congruence]. apply bind_inv in H as (pl & _ & H).
  apply (foldM_plain _ (fun st => s_pres st = s_pres s)) in H; [exact H|reflexivity|]. intros s1 i s2 _ E H1. step H1; pres_tac.
Qed.
Lemma moist_pres (s s' : sounding N) : interp_moist_height A s m = Ok s' -> s_pres s' = s_pres s.
Proof. intros H. apply moist_height_spec in H as (n & K & _). exact (K PRES ltac:(discriminate)). Qed.
Lemma logp_pres fuel (s s' : sounding N) : interp_logp_height A fuel s m = Ok s' -> s_pres s' = s_pres s.
Proof. intros H. apply logp_height_filled in H as [_ K]. exact (K PRES ltac:(discriminate)). Qed.
Lemma miss_pres (s s' : sounding N) : interp_missing_data A s m = Ok s' -> s_pres s' = s_pres s.
Proof. intros H. apply missing_data_spec in H as (_ & K & _). exact K. Qed.
Lemma nth_ext_eq {X} : forall (l l' : list X), length l' = length l -> (forall i, (i < length l)%nat -> nth_error l' i = nth_error l i) -> l' = l.
Proof.
  induction l as [|x l IH]; intros [|y l'] L H; cbn in L; try lia; [reflexivity|]. f_equal.
  - specialize (H 0%nat ltac:(cbn; lia)). cbn in H. congruence.
  - apply IH; [lia|]. intros i I. apply (H (S i)). cbn. lia.
Qed.
Lemma logpp_pres (s s' : sounding N) : Forall (given m) (s_pres s) -> interp_logp_pressure A s m = Ok s' -> s_pres s' = s_pres s.
Proof.
  intros G H. apply logp_pressure_filled in H as [[L F] _]. cbn [get] in *. apply nth_ext_eq; [exact L|]. intros i I. apply F.
  destruct (nth_error (s_pres s) i) as [x|] eqn:E; [|apply nth_error_None in E; lia]. exists x. split; [exact E|].
  rewrite Forall_forall in G. apply G. eapply nth_error_In, E.
Qed.
Lemma height_winds_none ps z1 z2 n1 n2 (s s' : sounding N) size : (z1 = true -> n1 = 0%nat) -> (z2 = true -> n2 = 0%nat) ->
  height_winds A m ps z1 z2 n1 n2 s = Ok (s', size) -> s' = s /\ size = length (s_hght s).
Proof.
  intros Z1 Z2 H. unfold height_winds in H. cbv zeta in H.
  assert ((if z1 then n1 else 0%nat) = 0%nat) as E1 by (destruct z1; auto). assert ((if z2 then n2 else 0%nat) = 0%nat) as E2 by (destruct z2; auto).
  rewrite E1, E2 in H. cbn [bind Nat.leb Nat.add] in H. apply bind_inv in H as (ps0 & _ & H). apply bind_inv in H as (zs & _ & H).
  apply bind_inv in H as ([[zo zn] il] & _ & H). cbn [zw_loop zw_more Nat.ltb Nat.leb] in H. rewrite andb_false_r in H. cbn [bind zw_s zw_size] in H.
  split; congruence.
Qed.

(** ** Inserting levels *)
Lemma insert_step_pinv p0 pl u f g st i st' : Forall ok pl -> (forall x, In x pl -> Q (n_abs A x)) -> (forall s a b s', f s a b = Ok s' -> s_pres s' = s_pres s) ->
  pinv p0 (s_pres (in_s A st)) -> insert_step A m pl u f g st i = Ok st' -> pinv p0 (s_pres (in_s A st')).
Proof.
  intros OP QP FS P H. unfold insert_step in H. apply bind_inv in H as (raw & R & H). apply at_ok in R. cbv zeta in H.
  assert (OR : ok (n_abs A raw)) by (apply (o_abs A ok O); rewrite Forall_forall in OP; eapply OP, nth_error_In, R).
  apply bind_inv in H as (b & B & H). destruct b; [|match type of H with Ok ?x = _ => assert (st' = x) as -> by congruence end; exact P].
  destruct (n_lt A (in_pbot A st) _) in H; [assert (st' = st) as -> by congruence; exact P|].
  destruct (existsb _ _) eqn:X in H.
  - apply bind_inv in H as (pl0 & _ & H). apply bind_inv in H as (s1 & S1 & H). match type of H with Ok ?x = _ => assert (st' = x) as -> by congruence end.
    cbn [in_s]. rewrite (FS _ _ _ _ S1). exact P.
  - apply bind_inv in H as (fr & _ & H). match type of H with Ok ?x = _ => assert (st' = x) as -> by congruence end. cbn [in_s insert_level s_pres].
    apply pinv_insert; [exact P|exact OR| |eapply QP, nth_error_In, R|apply existsb_eq_false, X].
    unfold ne, ismiss in B. unfold given. destruct (n_eq A (n_abs A raw) m) eqn:E; [cbn in B; discriminate|reflexivity].
Qed.
Lemma insert_part_pinv p0 ps name n u f g st st' : numbers ok ps -> (forall pl x, arr A ps name PRES = Ok pl -> In x pl -> Q (n_abs A x)) ->  (forall s a b s', f s a b = Ok s' -> s_pres s' = s_pres s) ->
  pinv p0 (s_pres (in_s A st)) -> insert_part A m ps name n u f g st = Ok st' -> pinv p0 (s_pres (in_s A st')).
Proof.
  intros NB QP FS P H. unfold insert_part in H. destruct n; [assert (st' = st) as -> by congruence; exact P|]. apply bind_inv in H as (pl & L & H).
  apply (foldM_plain _ (fun st => pinv p0 (s_pres (in_s A st)))) in H; [exact H|exact P|]. intros s1 i s2 _ E H1.
  eapply insert_step_pinv; [eapply numbers_arr; eassumption|intros x; apply QP, L|exact FS|exact E|exact H1].
Qed.
Lemma trop_pinv p0 ps name n st st' : numbers ok ps -> (forall pl x, arr A ps name PRES = Ok pl -> In x pl -> Q (n_abs A x)) -> pinv p0 (s_pres (in_s A st)) -> trop_part A m ps name n st = Ok st' -> pinv p0 (s_pres (in_s A st')).
Proof.
  intros NB QP P H. unfold trop_part in H. eapply insert_part_pinv; [exact NB|exact QP| |exact P|exact H]. intros s a b s' E. cbv beta in E.
  apply bind_inv in E as (s1 & E1 & E). apply bind_inv in E as (s2 & E2 & E). apply set_pres in E; [|discriminate]. apply fill_temp_pres in E1. apply fill_dir_pres in E2. congruence.
Qed.
Lemma sigt_part_pinv p0 ps name n st st' : numbers ok ps -> (forall pl x, arr A ps name PRES = Ok pl -> In x pl -> Q (n_abs A x)) -> pinv p0 (s_pres (in_s A st)) -> sigt_part A m ps name n st = Ok st' -> pinv p0 (s_pres (in_s A st')).
Proof. intros NB QP P H. unfold sigt_part in H. eapply insert_part_pinv; [exact NB|exact QP| |exact P|exact H]. intros s a b s' E. eapply fill_temp_pres, E. Qed.
Lemma wind_part_pinv p0 ps name n st st' : numbers ok ps -> (forall pl x, arr A ps name PRES = Ok pl -> In x pl -> Q (n_abs A x)) -> pinv p0 (s_pres (in_s A st)) -> wind_part A m ps name n st = Ok st' -> pinv p0 (s_pres (in_s A st')).
Proof. intros NB QP P H. unfold wind_part in H. eapply insert_part_pinv; [exact NB|exact QP| |exact P|exact H]. intros s a b s' E. eapply fill_wind_pres, E. Qed.

(** ** The surface *)
Lemma surface_pres ps selv n (s : sounding N) : surface A m ps selv n = Ok s ->
  s_pres s = [m] \/ exists p, s_pres s = [p] /\ val A ps "TTAA" PRES 0 = Ok p.
Proof.
  intros H. unfold surface in H. apply bind_inv in H as (s0 & S0 & H). apply bind_inv in H as (s1 & S1 & H). apply set_pres in S1; [|discriminate].
  apply bind_inv in H as (fm & _ & H). apply bind_inv in H as (q & _ & H). cbv zeta in H.
  destruct (_ || _) in H; [left; match type of H with Ok ?x = _ => assert (s = x) as -> by congruence end; reflexivity|].
  assert (s = s1) as -> by congruence. rewrite S1. destruct n; [left; assert (s0 = mk_sounding [m] [m] [m] [m] [m] [m]) as -> by congruence; reflexivity|].
  right. do 6 (let X := fresh "V" in apply bind_inv in S0 as (? & X & S0)). match type of S0 with Ok ?x = _ => assert (s0 = x) as -> by congruence end.
  eexists. split; [reflexivity|exact V].
Qed.
Lemma first_mandatory_in : forall (p t z : list N) q, first_mandatory A m p t z = Ok (Some q) ->
  exists i, nth_error p i = Some q /\ given m q /\ (exists a, nth_error t i = Some a /\ given m a) /\ exists a, nth_error z i = Some a /\ given m a.
Proof.
  induction p as [|a p IH]; intros [|b t] [|c z] q H; cbn [first_mandatory] in H; try discriminate.
  destruct (ne A m a && ne A m b && ne A m c) eqn:E.
  - assert (q = a) as -> by congruence. unfold ne, ismiss in E. apply andb_prop in E as [E E3]. apply andb_prop in E as [E1 E2].
    apply negb_true_iff in E1, E2, E3. exists 0%nat. repeat split; [exact E1|exists b; auto|exists c; auto].
  - apply IH in H as (i & H). exists (S i). exact H.
Qed.
Hypothesis M0 : n_lt A m (lit_ 0) = true.
Hypothesis O0 : ok (lit_ 0).
Lemma surface_TTAA ps selv n (s : sounding N) : numbers ok ps -> surface_in_TTAA m ps -> (0 < n)%nat -> surface A m ps selv n = Ok s ->
  exists p, s_pres s = [p] /\ ok p /\ given m p /\ val A ps "TTAA" PRES 0 = Ok p.
Proof.
  intros NB (p & V & G & P0 & P1 & HI) N0 H. assert (OP : ok p) by (eapply numbers_val; eassumption).
  unfold surface in H. destruct n as [|n]; [lia|]. apply bind_inv in H as (s0 & S0 & H). apply bind_inv in H as (s1 & S1 & H). apply set_pres in S1; [|discriminate].
  rewrite V in S0. cbn [bind] in S0. do 5 (apply bind_inv in S0 as (? & _ & S0)). match type of S0 with Ok ?x = _ => assert (s0 = x) as -> by congruence end. cbn [s_pres] in S1.
  apply bind_inv in H as (fm & FM & H). rewrite S1 in H. cbn [at_ nth_error bind] in H. cbv zeta in H.
  assert (E1 : n_lt A (l_ A 1060) p = false) by exact P1. rewrite E1 in H. unfold ne, ismiss in H. rewrite G in H. cbn [orb negb] in H.
  apply bind_inv in FM as (pl & PL & FM). apply bind_inv in FM as (tl & TL & FM). apply bind_inv in FM as (zl & ZL & FM). apply bind_inv in FM as (fo & FO & FM).
  assert (E2 : n_lt A p fm = false).
  { destruct fo as [q|].
    - assert (fm = q) as -> by congruence. apply first_mandatory_in in FO as (i & VQ & GQ & (a & TA & GA) & (b & ZB & GB)).
      apply (HI i q a b); auto; unfold val; [rewrite PL|rewrite TL|rewrite ZL]; cbn [bind]; apply at_ok; assumption.
    - assert (fm = m) as -> by congruence. destruct (n_lt A p m) eqn:E; [|reflexivity].
      rewrite (o_tr A ok O p m (lit_ 0) OP OM O0 E M0) in P0. discriminate. }
  rewrite E2 in H. cbn [andb] in H. assert (s = s1) as -> by congruence. exists p. auto.
Qed.
Lemma sigt_keep ps n (s s' : sounding N) p : numbers ok ps -> s_pres s = [p] -> ok p -> surface_sigt A m ps n s = Ok s' ->
  exists p', s_pres s' = [p'] /\ ok p' /\ (given m p -> given m p') /\ (p' = p \/ val A ps "TTBB" PRES 0 = Ok p').
Proof.
  intros NB SP OP H. unfold surface_sigt in H. destruct n; [assert (s' = s) as -> by congruence; eauto 10|].
  apply bind_inv in H as (q & VQ & H). apply bind_inv in H as (t & T & H). destruct (ne A m q && ne A m t) eqn:E; [|assert (s' = s) as -> by congruence; eauto 10].
  apply bind_inv in H as (p1 & _ & H). destruct (_ || _) in H; [|assert (s' = s) as -> by congruence; eauto 10].
  apply bind_inv in H as (s1 & S1 & H). apply bind_inv in H as (d & _ & H). apply bind_inv in H as (s2 & S2 & H).
  apply set_pres in H; [|discriminate]. apply set_pres in S2; [|discriminate]. unfold set_key in S1. cbn [get] in S1. rewrite SP in S1. cbn in S1.
  assert (s1 = put s PRES [q]) as -> by congruence. exists q. split; [rewrite H, S2; reflexivity|]. split; [eapply numbers_val; eassumption|]. split; [|right; exact VQ].
  intros _. apply andb_prop in E as [E _]. apply negb_true_iff in E. exact E.
Qed.
Lemma sigt_TTBB ps n (s s' : sounding N) p : numbers ok ps -> surface_in_TTBB m ps -> (0 < n)%nat -> s_pres s = [p] -> ok p -> surface_sigt A m ps n s = Ok s' ->
  exists p', s_pres s' = [p'] /\ ok p' /\ given m p' /\ (p' = p \/ val A ps "TTBB" PRES 0 = Ok p').
Proof.
  intros NB (q & t & VQ & T & GQ & GT) N0 SP OP H. destruct (n_eq A p m) eqn:EP.
  - unfold surface_sigt in H. destruct n as [|n]; [lia|]. rewrite VQ, T in H. cbn [bind] in H. unfold ne, ismiss in H. rewrite GQ, GT in H. cbn [negb andb] in H.
    rewrite SP in H. cbn [at_ nth_error bind] in H. rewrite EP in H. cbn [orb] in H.
    apply bind_inv in H as (s1 & S1 & H). apply bind_inv in H as (d & _ & H). apply bind_inv in H as (s2 & S2 & H).
    apply set_pres in H; [|discriminate]. apply set_pres in S2; [|discriminate]. unfold set_key in S1. cbn [get] in S1. rewrite SP in S1. cbn in S1.
    assert (s1 = put s PRES [q]) as -> by congruence. exists q. split; [rewrite H, S2; reflexivity|]. split; [eapply numbers_val; eassumption|auto].
  - destruct (sigt_keep ps n s s' p NB SP OP H) as (p' & ? & ? & G & C). exists p'. split; [assumption|]. split; [assumption|]. split; [apply G, EP|exact C].
Qed.
Lemma sigw_keep ps n z (s s' : sounding N) p : numbers ok ps -> s_pres s = [p] -> ok p -> surface_sigw A m ps n z s = Ok s' ->
  exists p', s_pres s' = [p'] /\ ok p' /\ (given m p -> given m p') /\ (p' = p \/ exists q pl, arr A ps "PPBB" PRES = Ok pl /\ In q pl /\ p' = n_abs A q).
Proof.
  intros NB SP OP H. unfold surface_sigw in H. destruct n; [assert (s' = s) as -> by congruence; eauto 10|]. destruct z.
  - assert (s_pres s' = s_pres s) as E by (step H; pres_tac). rewrite E. eauto 10.
  - apply bind_inv in H as (q & VQ & H). destruct (ne A m q); [|assert (s' = s) as -> by congruence; eauto 10].
    apply bind_inv in H as (d & _ & H). destruct (ne A m d); [|assert (s' = s) as -> by congruence; eauto 10].
    apply bind_inv in H as (p1 & _ & H). destruct (_ || _) in H; [|assert (s' = s) as -> by congruence; eauto 10].
    apply bind_inv in H as (v & _ & H). apply bind_inv in H as (s1 & S1 & H). apply bind_inv in H as (s2 & S2 & H).
    apply set_pres in H; [|discriminate]. apply set_pres in S2; [|discriminate]. unfold set_key in S1. cbn [get] in S1. rewrite SP in S1. cbn in S1.
    assert (s1 = put s PRES [n_abs A q]) as -> by congruence. assert (OQ : ok q) by (eapply numbers_val; eassumption).
    exists (n_abs A q). split; [rewrite H, S2; reflexivity|]. split; [apply (o_abs A ok O), OQ|]. split; [intros _; apply ABSM, OQ|].
    right. unfold val in VQ. apply bind_inv in VQ as (pl & PL & VQ). apply at_ok, nth_error_In in VQ. exists q, pl. auto.
Qed.

(** ** Mandatory levels *)
Lemma append_pres : forall (p : part A) i (s s' : sounding N), NoDup (map fst p) -> append_level A p i s = Ok s' ->
  (forall pl, arr_of A p PRES = Ok pl -> exists x, nth_error pl i = Some x /\ s_pres s' = s_pres s ++ [x]) /\
  (~ In "PRES" (map fst p) -> s_pres s' = s_pres s).
Proof.
  induction p as [|[nm l] p IH]; intros i s s' ND H.
  - cbn in H. assert (s' = s) as -> by congruence. split; [intros pl E; discriminate|reflexivity].
  - cbn [map fst] in ND. inversion_clear ND as [|? ? NI ND']. unfold append_level in H. cbn [foldM fst snd] in H. apply bind_inv in H as (s1 & S1 & H).
    fold (append_level A p i s1) in H. destruct (IH i s1 s' ND' H) as [I1 I2]. destruct (key_of nm) as [k|] eqn:K; [|discriminate].
    apply key_of_some in K. subst nm. apply bind_inv in S1 as (x & X & S1). apply at_ok in X.
    match type of S1 with Ok ?y = _ => assert (s1 = y) as -> by congruence end. clear S1.
    destruct (key_dec k PRES) as [->|NE].
    + split.
      * intros pl E. assert (pl = l) as -> by (unfold arr_of, assoc in E; cbn in E; congruence). exists x. split; [exact X|].
        rewrite (I2 NI). apply (get_put s PRES).
      * intros C. exfalso. apply C. left. reflexivity.
    + assert (SP : s_pres (put s k (get s k ++ [x])) = s_pres s) by (apply (get_put_other s k PRES); congruence).
      assert (KN : key_name k <> "PRES") by (destruct k; cbn; congruence).
      split.
      * intros pl E. rewrite SP in I1. apply I1. unfold arr_of, assoc in E. cbn [find fst] in E. destruct (String.eqb_spec (key_name k) (key_name PRES)) as [C|_]; [contradiction|exact E].
      * intros C. rewrite <- SP. apply I2. intros D. apply C. right. exact D.
Qed.
Lemma py_index_last {X} (l : list X) x : py_index (l ++ [x]) (-1) = Ok x.
Proof.
  unfold py_index, Zlen. rewrite app_length. cbn [length]. destruct (Z.ltb_spec (-1) 0); [|lia]. destruct (Z.ltb_spec (-1 + Z.of_nat (length l + 1)) 0); [lia|].
  replace (Z.to_nat (-1 + Z.of_nat (length l + 1))) with (length l) by lia. rewrite nth_error_app2, Nat.sub_diag by lia. reflexivity.
Qed.
(** The surface pressure first, the last pressure last *)
Definition minv (p0 : N) (st : sounding N * N * nat) : Prop :=
  pinv p0 (s_pres (fst (fst st))) /\ (exists r, s_pres (fst (fst st)) = p0 :: r) /\ exists r, s_pres (fst (fst st)) = r ++ [snd (fst st)].
Lemma pinv_snoc p0 l last x : pinv p0 (l ++ [last]) -> ok x -> given m x -> lt x last = true -> pinv p0 ((l ++ [last]) ++ [x]).
Proof.
  intros (D & OK & G & I & FR) OX GX L. assert (OL : ok last) by (apply Forall_app in OK as [_ OK]; inversion OK; assumption).
  assert (XP : lt x p0 = true).
  { apply in_app_or in I as [I|[->|[]]]; [|exact L]. apply (o_tr A ok O x last p0); auto.
    - apply Forall_app in OK as [OK _]. rewrite Forall_forall in OK. apply OK, I.
    - apply sorted_app in D as (_ & _ & D). apply D; [exact I|left; reflexivity]. }
  split; [|split; [apply Forall_app; auto|split; [apply Forall_app; auto|split; [apply in_or_app; left; exact I|apply Forall_app; split; [exact FR|apply Forall_cons; [right; left; exact XP|constructor]]]]]].
  apply sorted_app. split; [exact D|]. split; [repeat constructor|]. intros y z Y [<-|[]].
  apply sorted_app in D as (_ & _ & D). apply in_app_or in Y as [Y|[<-|[]]]; [|exact L].
  apply (o_tr A ok O x last y); auto.
  - apply Forall_app in OK as [OK _]. rewrite Forall_forall in OK. apply OK, Y.
  - apply D; [exact Y|left; reflexivity].
Qed.
Lemma man_step_minv p0 (p : part A) count st i st' : NoDup (map fst p) -> (forall pl, arr_of A p PRES = Ok pl -> Forall ok pl) ->
  minv p0 st -> man_step A m p count st i = Ok st' -> minv p0 st' /\ (snd st <= snd st')%nat /\
  (count = true -> snd st' = snd st -> forall pl x, arr_of A p PRES = Ok pl -> nth_error pl i = Some x -> lt p0 x = false).
Proof.
  intros ND OKP (P & (r0 & R0) & (r & R)) H. destruct st as [[s plast] bgl]. cbn [fst snd] in *. unfold man_step in H.
  apply bind_inv in H as (pl & PL & H). apply bind_inv in H as (pr & PR & H). apply at_ok in PR.
  assert (OPR : ok pr) by (pose proof (OKP pl PL) as F; rewrite Forall_forall in F; eapply F, nth_error_In, PR).
  assert (OP0 : ok p0) by (destruct P as (_ & OK & _ & I & _); rewrite Forall_forall in OK; apply OK, I).
  apply bind_inv in H as (b & B & H). destruct b.
  - apply bind_inv in H as (s1 & S1 & H). apply bind_inv in H as (last & LA & H). assert (st' = (s1, last, bgl)) as -> by congruence.
    destruct (append_pres p i s s1 ND S1) as [AP _]. destruct (AP pl PL) as (x & X & SP). assert (x = pr) as -> by congruence.
    rewrite SP, R in LA. rewrite py_index_last in LA. assert (last = pr) as -> by congruence.
    destruct (lt pr plast && ne A m pr) eqn:C; [|discriminate]. apply andb_prop in C as [C1 C2]. apply negb_true_iff in C2.
    assert (OL : ok plast) by (destruct P as (_ & OK & _); rewrite R in OK; apply Forall_app in OK as [_ OK]; inversion OK; assumption).
    split; [|split; [cbn; lia|]].
    + unfold minv. cbn [fst snd]. rewrite SP. split; [|split].
      * rewrite R in *. apply pinv_snoc; assumption.
      * exists (r0 ++ [pr]). rewrite R0. reflexivity.
      * exists (s_pres s). reflexivity.
    + intros _ _ pl' x E1 E2. assert (pl' = pl) as -> by congruence. assert (x = pr) as -> by congruence.
      (* pr < plast <= p0 *)
      destruct (lt p0 pr) eqn:E; [|reflexivity]. exfalso.
      assert (lt p0 plast = true) by (apply (o_tr A ok O p0 pr plast); auto).
      rewrite R0 in R. destruct r as [|a r].
      * assert (plast = p0) as -> by (cbn in R; congruence). rewrite (o_irr A ok O p0 OP0) in H0. discriminate.
      * assert (a = p0) as -> by (cbn in R; congruence). destruct P as (D & _). rewrite R0, R in D. cbn [app] in D. apply StronglySorted_inv in D as [_ D]. rewrite Forall_forall in D.
        specialize (D plast ltac:(apply in_or_app; right; left; reflexivity)). rewrite (lt_asym p0 plast OP0 OL H0) in D. discriminate.
  - destruct count.
    + apply bind_inv in H as (q & VQ & H). match type of H with Ok ?x = _ => assert (st' = x) as -> by congruence end.
      rewrite R0 in VQ. cbn in VQ. assert (q = p0) as -> by congruence. cbn [fst snd].
      split; [split; [exact P|split; [exists r0; exact R0|exists r; exact R]]|]. split; [destruct (lt p0 pr); lia|].
      intros _ E pl' x E1 E2. assert (pl' = pl) as -> by congruence. assert (x = pr) as -> by congruence. destruct (lt p0 pr); [lia|reflexivity].
    + assert (st' = (s, plast, bgl)) as -> by congruence. split; [split; [exact P|split; [exists r0; exact R0|exists r; exact R]]|]. split; [cbn; lia|discriminate].
Qed.
Lemma part_numbers ps name p pl : numbers ok ps -> assoc name ps = Some p -> arr_of A p PRES = Ok pl -> Forall ok pl.
Proof. intros NB E H. apply (numbers_arr ps name PRES); [exact NB|unfold arr; rewrite E; exact H]. Qed.
Lemma part_of_dict (ps : parts_t A) name : dictionary ps name -> NoDup (map fst (part_of A ps name)).
Proof. intros D. unfold part_of. destruct (assoc name ps) as [p|] eqn:E; [apply D, E|constructor]. Qed.
Lemma part_of_numbers ps name pl : numbers ok ps -> arr_of A (part_of A ps name) PRES = Ok pl -> Forall ok pl.
Proof. intros NB H. unfold part_of in H. destruct (assoc name ps) as [p|] eqn:E; [eapply part_numbers; eassumption|discriminate]. Qed.
Lemma mandatory_pinv ps n n' p0 (s s' : sounding N) bgl : numbers ok ps -> dictionary ps "TTAA" -> dictionary ps "TTCC" ->
  s_pres s = [p0] -> ok p0 -> given m p0 -> mandatory A m ps n n' s = Ok (s', bgl) ->
  pinv p0 (s_pres s') /\ (bgl = 0%nat -> forall i x, (1 <= i < n)%nat -> val A ps "TTAA" PRES i = Ok x -> lt p0 x = false).
Proof.
  intros NB D1 D2 SP OP GP H. unfold mandatory in H. rewrite SP in H. cbn [at_ nth_error bind] in H. cbv zeta in H.
  unfold ismiss in H. rewrite GP in H. apply bind_inv in H as ([[s1 pl1] b1] & F1 & H). apply bind_inv in H as ([[s2 pl2] b2] & F2 & H).
  assert (s' = s2) as -> by congruence. assert (bgl = b2) as -> by congruence. clear H.
  assert (I0 : minv p0 (s, p0, 0%nat)).
  { unfold minv. cbn [fst snd]. rewrite SP. split; [|split; [exists []; reflexivity|exists []; reflexivity]].
    split; [repeat constructor|]. split; [auto|]. split; [auto|]. split; [left; reflexivity|]. apply Forall_cons; [left; reflexivity|constructor]. }
  assert (J1 : minv p0 (s1, pl1, b1) /\ (b1 = 0%nat -> forall i pl x, (1 <= i < n)%nat -> arr_of A (part_of A ps "TTAA") PRES = Ok pl -> nth_error pl i = Some x -> lt p0 x = false)).
  { destruct (Nat.le_gt_cases 1 n) as [C|C].
    - apply (foldM_range' _ (fun k st => minv p0 st /\ (snd st = 0%nat -> forall i pl x, (1 <= i < k)%nat -> arr_of A (part_of A ps "TTAA") PRES = Ok pl -> nth_error pl i = Some x -> lt p0 x = false)) 1 n) in F1;
        [exact F1|exact C|split; [exact I0|intros; lia]|].
      intros i st st' LI [MI HI] E. apply (man_step_minv p0) in E as (E1 & E2 & E3); [|apply part_of_dict, D1|intros pl; apply part_of_numbers, NB|exact MI].
      split; [exact E1|]. intros Z0 j pl x J PL X. destruct (Nat.eq_dec j i) as [->|NE].
      + eapply E3; [reflexivity|lia|exact PL|exact X].
      + eapply HI; [lia| |exact PL|exact X]. lia.
    - replace (range 1 n) with (@nil nat) in F1 by (unfold range; replace (n - 1)%nat with 0%nat by lia; reflexivity). cbn in F1.
      assert (s1 = s) as -> by congruence. assert (pl1 = p0) as -> by congruence. assert (b1 = 0%nat) as -> by congruence. split; [exact I0|intros; lia]. }
  destruct J1 as [M1 B1].
  apply (foldM_plain _ (fun st => minv p0 st /\ (b1 <= snd st)%nat)) in F2; [|split; [exact M1|cbn; lia]|].
  - destruct F2 as [(P2 & _) L2]. cbn [fst snd] in *. split; [exact P2|]. intros Z0 i x LI V. unfold val, arr in V.
    apply bind_inv in V as (pl & PL & V). apply at_ok in V. apply (B1 ltac:(lia) i pl); auto. unfold part_of. destruct (assoc "TTAA" ps); [exact PL|discriminate].
  - intros st i st' _ [MI L] E. apply (man_step_minv p0) in E as (E1 & E2 & _); [|apply part_of_dict, D2|intros pl; apply part_of_numbers, NB|exact MI].
    split; [exact E1|lia].
Qed.

(** ** All stages up to the levels below ground *)
Lemma coord_on_pressure (ps ps' : parts_t A) name n b k : levels A ps name k = Ok n -> on_pressure m ps name -> wind_coord A m ps name n = Ok (b, ps') -> b = true -> n = 0%nat.
Proof.
  intros L OP H B. unfold wind_coord in H. destruct n as [|n]; [reflexivity|exfalso]. destruct (assoc name ps) as [p|] eqn:P; [|discriminate].
  destruct (OP p P) as [I|(h & z & HH & I & G & Z0)].
  - destruct (assoc "PRES" p) eqn:E; [congruence|]. unfold assoc in E. destruct (find _ p) as [|] eqn:F; [discriminate|].
    apply in_map_iff in I as ([kk v] & E1 & I). cbn in E1. subst kk. pose proof (find_none _ _ F _ I) as C. cbn in C. discriminate.
  - destruct (assoc "PRES" p); [congruence|]. unfold arr_of in H. cbn [key_name] in H. rewrite HH in H. cbn [bind] in H.
    assert (existsb (fun z => ne A m z && n_lt A z (l_ A 0)) h = true) as X.
    { apply existsb_exists. exists z. split; [exact I|]. unfold ne, ismiss. rewrite G. exact Z0. }
    rewrite X in H. congruence.
Qed.
Lemma on_pressure_other (ps ps' : parts_t A) name : assoc name ps' = assoc name ps -> on_pressure m ps name -> on_pressure m ps' name.
Proof. intros E H p P. apply H. congruence. Qed.
Lemma val_other (ps ps' : parts_t A) name k i : assoc name ps' = assoc name ps -> val A ps' name k i = val A ps name k i.
Proof. intros E. unfold val, arr. rewrite E. reflexivity. Qed.
Lemma levels_pos (ps : parts_t A) name k n i x : levels A ps name k = Ok n -> val A ps name k i = Ok x -> (i < n)%nat.
Proof.
  unfold levels, val, arr. destruct (assoc name ps) as [p|]; [|discriminate]. intros L V. apply bind_inv in L as (l & E & L). rewrite E in V. cbn [bind] in V. apply at_ok in V.
  assert (n = length l) as -> by congruence. apply nth_error_Some. congruence.
Qed.
(** The parts whose levels are inserted by pressure *)
Definition others : list string := ["TRPA"; "TRPC"; "TTBB"; "TTDD"; "PPBB"; "PPDD"; "MXWA"; "MXWC"].
Lemma coord_arr (ps ps' : parts_t A) name n b other l : wind_coord A m ps name n = Ok (b, ps') -> arr A ps' other PRES = Ok l ->
  arr A ps other PRES = Ok l \/ arr A ps other HGHT = Ok l.
Proof.
  intros H E. destruct (string_dec other name) as [->|NE].
  2:{ left. unfold arr in *. rewrite (wind_coord_other m _ _ _ _ _ other H NE) in E. exact E. }
  unfold wind_coord in H. destruct n; [assert (ps' = ps) as -> by congruence; auto|]. destruct (assoc name ps) as [p|] eqn:P; [|discriminate].
  destruct (assoc "PRES" p) eqn:PP; [assert (ps' = ps) as -> by congruence; auto|]. apply bind_inv in H as (h & HH & H).
  destruct (existsb _ h) in H; [|assert (ps' = ps) as -> by congruence; auto]. match type of H with Ok (_, ?x) = _ => assert (ps' = x) as -> by congruence end. clear H.
  right. unfold arr. rewrite P. assert (l = h) as ->; [|exact HH].
  assert (P' : assoc name (map (fun e => if String.eqb (fst e) name then (fst e, snd e ++ [("PRES", h)]) else e) ps) = Some (p ++ [("PRES", h)])).
  { clear - P. unfold assoc in *. induction ps as [|[nm q] ps IH]; [discriminate|]. cbn [map find fst snd] in *. destruct (String.eqb nm name) eqn:N1; cbn [fst snd] in *; rewrite N1; [cbn [snd]; congruence|apply IH, P]. }
  unfold arr in E. match type of E with (match ?a with _ => _ end) = _ => replace a with (Some (p ++ [("PRES", h)])) in E by (symmetry; exact P') end. unfold arr_of, assoc in E, PP. cbn [key_name] in E.
  assert (F : forall q : part A, match find (fun e => String.eqb (fst e) "PRES") q with Some e => Some (snd e) | None => None end = None ->
            find (fun e => String.eqb (fst e) "PRES") (q ++ [("PRES", h)]) = Some ("PRES", h)).
  { induction q as [|[a c] q IH]; [reflexivity|]. cbn [find app fst]. destruct (String.eqb a "PRES"); [discriminate|exact IH]. }
  rewrite (F p PP) in E. cbn in E. congruence.
Qed.
Lemma mm_eq : n_eq A m m = true.
Proof. apply (o_tot A ok O); auto; apply (o_irr A ok O), OM. Qed.
Theorem merge_stages fuel (ps : parts_t A) selv (s : sounding N) :
  numbers ok ps -> dictionary ps "TTAA" -> dictionary ps "TTCC" -> surface_reported m ps -> on_pressure m ps "PPBB" -> on_pressure m ps "PPDD" ->
  (forall name l x, In name others -> arr A ps name PRES = Ok l \/ arr A ps name HGHT = Ok l -> In x l -> Q (n_abs A x)) ->
  merge_sounding A m fuel ps selv = Ok (Some s) ->
  exists ps' n bgl size s0 p0, assoc "TTAA" ps' = assoc "TTAA" ps /\ (val A ps "TTAA" PRES 0 = Ok p0 \/ val A ps "TTBB" PRES 0 = Ok p0 \/ Q p0) /\ levels A ps "TTAA" PRES = Ok n /\ pinv p0 (s_pres s0) /\
    (bgl = 0%nat -> forall i x, (1 <= i < n)%nat -> val A ps "TTAA" PRES i = Ok x -> lt p0 x = false) /\
    (levels A ps "PPBB" SPED = Ok 0%nat \/ levels A ps "PPDD" SPED = Ok 0%nat -> length (s_hght s0) = length (s_pres s0) -> size = Some (length (s_pres s0))) /\
    numbers ok ps' /\
    below_ground A m ps' bgl n size s0 = Ok s.
Proof.
  intros NB D1 D2 SR OB OD QH H. unfold merge_sounding in H.
  apply bind_inv in H as (n_man & LM & H). do 3 (apply bind_inv in H as (? & _ & H)). apply bind_inv in H as (n_sigt & LT & H). apply bind_inv in H as (n_sigw & LB & H).
  do 4 (apply bind_inv in H as (? & _ & H)). apply bind_inv in H as (n_dd & LD & H). do 1 (apply bind_inv in H as (? & _ & H)).
  destruct (_ =? 0)%nat in H; [discriminate|].
  apply bind_inv in H as ([bbz ps1] & W1 & H). apply bind_inv in H as ([ddz ps2] & W2 & H).
  assert (SA : forall o, o <> "PPBB" -> o <> "PPDD" -> assoc o ps2 = assoc o ps).
  { intros o O1 O2. rewrite (wind_coord_other m _ _ _ _ _ o W2 O2). apply (wind_coord_other m _ _ _ _ _ o W1 O1). }
  assert (T1 := SA "TTAA" ltac:(discriminate) ltac:(discriminate)). assert (T2 := SA "TTCC" ltac:(discriminate) ltac:(discriminate)). assert (T3 := SA "TTBB" ltac:(discriminate) ltac:(discriminate)).
  assert (TD : assoc "PPDD" ps1 = assoc "PPDD" ps) by (apply (wind_coord_other m _ _ _ _ _ "PPDD" W1); discriminate).
  assert (LD1 : levels A ps1 "PPDD" SPED = Ok n_dd) by (unfold levels; rewrite TD; exact LD).
  pose proof (coord_on_pressure _ _ _ _ _ _ LB OB W1) as ZB. pose proof (coord_on_pressure _ _ _ _ _ _ LD1 (on_pressure_other _ _ _ TD OD) W2) as ZD.
  pose proof (numbers_coord _ _ _ _ _ NB W1) as NB1. pose proof (numbers_coord _ _ _ _ _ NB1 W2) as NB2.
  assert (DA : dictionary ps2 "TTAA") by (intros p P; apply D1; congruence). assert (DC : dictionary ps2 "TTCC") by (intros p P; apply D2; congruence).
  assert (Q2 : forall name, In name others -> forall pl x, arr A ps2 name PRES = Ok pl -> In x pl -> Q (n_abs A x)).
  { intros name IN pl xx E X. destruct (string_dec name "PPDD") as [->|NE].
    - apply (QH "PPDD" pl xx IN); [|exact X]. destruct (coord_arr _ _ _ _ _ _ _ W2 E) as [E1|E1]; unfold arr in *; rewrite TD in E1; auto.
    - apply (QH name pl xx IN); [|exact X]. unfold arr in E. rewrite (wind_coord_other m _ _ _ _ _ name W2 NE) in E. exact (coord_arr _ _ _ _ _ _ _ W1 E). }
  apply bind_inv in H as (s1 & S1 & H). apply bind_inv in H as (s2 & S2 & H). apply bind_inv in H as (s3 & S3 & H).
  assert (P1 : exists p, s_pres s1 = [p] /\ ok p).
  { destruct (surface_pres _ _ _ _ S1) as [E|(p & E & V)]; [exists m; auto|exists p; split; [exact E|eapply numbers_val; eassumption]]. }
  assert (P2 : exists p, s_pres s2 = [p] /\ ok p /\ given m p /\ (val A ps "TTAA" PRES 0 = Ok p \/ val A ps "TTBB" PRES 0 = Ok p)).
  { destruct SR as [SR|SR].
    - assert (SR2 : surface_in_TTAA m ps2).
      { destruct SR as (p & V & G & Q0 & Q1 & HI). exists p. rewrite (val_other ps ps2 _ _ _ T1). repeat (split; [assumption|]). intros i q t z. rewrite !(val_other ps ps2 _ _ _ T1). apply HI. }
      assert (N0 : (0 < n_man)%nat) by (destruct SR as (p & V & _); exact (levels_pos _ _ _ _ _ _ LM V)).
      destruct (surface_TTAA _ _ _ _ NB2 SR2 N0 S1) as (p & E & OP & GP & VP). destruct (sigt_keep _ _ _ _ _ NB2 E OP S2) as (p' & ? & ? & G' & C'). exists p'. rewrite (val_other ps ps2 _ _ _ T1) in VP. rewrite (val_other ps ps2 _ _ _ T3) in C'.
      repeat (split; [auto|]). destruct C' as [->|C']; auto.
    - assert (SR2 : surface_in_TTBB m ps2).
      { destruct SR as (p & t & V1 & V2 & G). exists p, t. rewrite !(val_other ps ps2 _ _ _ T3). auto. }
      assert (N0 : (0 < n_sigt)%nat) by (destruct SR as (p & t & V & _); exact (levels_pos _ _ _ _ _ _ LT V)).
      destruct P1 as (p & E & OP). destruct (sigt_TTBB _ _ _ _ _ NB2 SR2 N0 E OP S2) as (p' & E' & O' & G' & C'). exists p'. rewrite (val_other ps ps2 _ _ _ T3) in C'.
      repeat (split; [auto|]). destruct C' as [->|C']; [|auto]. destruct (surface_pres _ _ _ _ S1) as [E1|(q & E1 & V1)]; [exfalso|].
      + assert (p = m) as -> by congruence. pose proof (ABSM m OM) as X. clear X. unfold given in G'. rewrite (mm_eq) in G'. discriminate.
      + left. rewrite (val_other ps ps2 _ _ _ T1) in V1. congruence. }
  destruct P2 as (p2 & E2 & O2 & G2 & C2). destruct (sigw_keep _ _ _ _ _ _ NB2 E2 O2 S3) as (p0 & E3 & O3 & G3 & C3). specialize (G3 G2).
  assert (C0 : val A ps "TTAA" PRES 0 = Ok p0 \/ val A ps "TTBB" PRES 0 = Ok p0 \/ Q p0).
  { destruct C3 as [->|(q & pl & PL & IQ & ->)]; [tauto|]. right. right. apply (Q2 "PPBB") with (pl := pl); [cbn; tauto|exact PL|exact IQ]. }
  apply bind_inv in H as ([s4 bgl] & S4 & H). destruct (mandatory_pinv _ _ _ _ _ _ _ NB2 DA DC E3 O3 G3 S4) as [I4 B4].
  apply bind_inv in H as (s5 & S5 & H). apply man_wind_pres in S5. apply bind_inv in H as (s6 & S6 & H). apply man_wind_pres in S6.
  assert (I6 : pinv p0 (s_pres s6)) by (rewrite S6, S5; exact I4).
  apply bind_inv in H as (st7 & S7 & H).
  assert (I7 : pinv p0 (s_pres (in_s A st7))).
  { destruct (_ <=? _)%nat in S7; [|assert (st7 = mk_ins A s6 m None) as -> by congruence; exact I6].
    apply bind_inv in S7 as (pb & _ & S7). apply bind_inv in S7 as (st & S & S7). eapply trop_pinv; [exact NB2| | |exact S7]; [apply Q2; unfold others; repeat (first [left; reflexivity|right])|]. eapply trop_pinv; [exact NB2| | |exact S]; [apply Q2; unfold others; repeat (first [left; reflexivity|right])|]. exact I6. }
  apply bind_inv in H as (st8 & S8 & H).
  assert (I8 : pinv p0 (s_pres (in_s A st8))).
  { destruct (_ <=? _)%nat in S8; [|assert (st8 = st7) as -> by congruence; exact I7].
    apply bind_inv in S8 as (pb & _ & S8). apply bind_inv in S8 as (st & S & S8). eapply sigt_part_pinv; [exact NB2| | |exact S8]; [apply Q2; unfold others; repeat (first [left; reflexivity|right])|]. eapply sigt_part_pinv; [exact NB2| | |exact S]; [apply Q2; unfold others; repeat (first [left; reflexivity|right])|]. exact I7. }
  apply bind_inv in H as (s9 & S9 & H). cbv zeta in H. cbn [in_s in_size in_pbot] in H. apply moist_pres in S9. rewrite <- S9 in I8.
  apply bind_inv in H as (st10 & S10 & H).
  assert (I10 : pinv p0 (s_pres (in_s A st10))).
  { destruct (_ && _) in S10; [|match type of S10 with Ok ?x = _ => assert (st10 = x) as -> by congruence end; exact I8].
    apply bind_inv in S10 as (pb & _ & S10). apply bind_inv in S10 as (st & S & S10). eapply wind_part_pinv; [exact NB2| | |exact S10]; [apply Q2; unfold others; repeat (first [left; reflexivity|right])|]. eapply wind_part_pinv; [exact NB2| | |exact S]; [apply Q2; unfold others; repeat (first [left; reflexivity|right])|]. exact I8. }
  apply bind_inv in H as (st11 & S11 & H).
  assert (I11 : pinv p0 (s_pres (in_s A st11))).
  { destruct (_ <=? _)%nat in S11; [|assert (st11 = st10) as -> by congruence; exact I10].
    apply bind_inv in S11 as (pb & _ & S11). apply bind_inv in S11 as (st & S & S11). eapply wind_part_pinv; [exact NB2| | |exact S11]; [apply Q2; unfold others; repeat (first [left; reflexivity|right])|]. eapply wind_part_pinv; [exact NB2| | |exact S]; [apply Q2; unfold others; repeat (first [left; reflexivity|right])|]. exact I10. }
  apply bind_inv in H as (s12 & S12 & H). apply logp_pres in S12. rewrite <- S12 in I11.
  apply bind_inv in H as ([s13 size] & S13 & H). apply bind_inv in H as (s14 & S14 & H). pose proof (miss_pres _ _ S14) as M14.
  assert (I13 : pinv p0 (s_pres s13) /\ (bbz || ddz = true -> length (s_hght s13) = length (s_pres s13) -> size = Some (length (s_pres s13)))).
  { destruct (bbz || ddz) eqn:Z in S13; [|assert (s13 = s12) as -> by congruence; split; [exact I11|congruence]].
    apply bind_inv in S13 as ([sa za] & SA1 & S13). apply height_winds_none in SA1 as [-> ->]; [|exact ZB|exact ZD]. apply bind_inv in S13 as (sb & SB & S13).
    assert (s13 = sb) as -> by congruence. assert (size = Some (length (s_hght s12))) as -> by congruence.
    pose proof (logpp_pres _ _ (proj1 (proj2 (proj2 I11))) SB) as E. pose proof SB as SB'. apply logp_pressure_filled in SB' as [_ K].
    pose proof (K HGHT ltac:(discriminate)) as KH. cbn [get] in KH. split; [rewrite E; exact I11|]. intros _ LL. f_equal. rewrite <- KH. exact LL. }
  destruct I13 as [I13 Z13].
  apply bind_inv in H as (s15 & S15 & H). assert (s = s15) as -> by congruence.
  exists ps2, n_man, bgl, size, s14, p0. rewrite M14. split; [exact T1|]. split; [exact C0|]. split; [exact LM|]. split; [exact I13|]. split; [|split; [|split; [exact NB2|exact S15]]].
  - intros Z0 i y LI V. apply (B4 Z0 i y LI). rewrite (val_other ps ps2 _ _ _ T1). exact V.
  - pose proof S14 as MS. apply missing_data_spec in MS as (_ & _ & KH & _). rewrite KH. intros C. apply Z13. destruct C as [C|C].
    + assert (n_sigw = 0%nat) as -> by congruence. cbn in W1. assert (bbz = true) as -> by congruence. reflexivity.
    + assert (n_dd = 0%nat) as -> by congruence. cbn in W2. assert (ddz = true) as -> by congruence. apply orb_true_r.
Qed.

(** ** Levels below ground *)
Lemma woven_refl {X} : forall l : list X, woven l [] l.
Proof. induction l; constructor; assumption. Qed.
Lemma woven_insert {X} (x : X) : forall l b r, woven l b r -> forall i, exists b', woven l b' (firstn i r ++ x :: skipn i r) /\ forall y, In y b' <-> y = x \/ In y b.
Proof.
  induction 1 as [|a l b r W IH|a l b r W IH]; intros i.
  - exists [x]. rewrite firstn_nil, skipn_nil. split; [repeat constructor|]. cbn. intuition congruence.
  - destruct i as [|i].
    + exists (x :: b). split; [cbn; repeat constructor; exact W|]. cbn. intuition congruence.
    + destruct (IH i) as (b' & W' & I'). exists b'. split; [cbn [firstn skipn app]; constructor; exact W'|exact I'].
  - destruct i as [|i].
    + exists (x :: a :: b). split; [cbn; repeat constructor; exact W|]. cbn. intuition congruence.
    + destruct (IH i) as (b' & W' & I'). exists (a :: b'). split; [cbn [firstn skipn app]; constructor; exact W'|]. cbn. intros y. rewrite I'. tauto.
Qed.
Lemma woven_hd {X} (p : X) l b r x r' : woven (p :: l) b r -> r = x :: r' -> x = p \/ In x b.
Proof. intros W E. subst r. inversion W; subst; [left; reflexivity|right; left; reflexivity]. Qed.
Definition below_inv (ps : parts_t A) (p : N) (l : list N) (r : list N) : Prop :=
  exists b, woven (p :: l) b r /\ forall y, In y b -> lt p y = true /\ exists i, val A ps "TTAA" PRES i = Ok y.
Lemma below_woven ps bgl n size (s s' : sounding N) p l : numbers ok ps -> ok p -> s_pres s = p :: l ->
  below_ground A m ps bgl n size s = Ok s' -> below_inv ps p l (s_pres s').
Proof.
  intros NB OP SP H. assert (I0 : below_inv ps p l (s_pres s)) by (exists []; rewrite SP; split; [apply woven_refl|intros y []]).
  unfold below_ground in H. apply bind_inv in H as (q & _ & H). destruct (_ && _) in H; [|assert (s' = s) as -> by congruence; exact I0].
  apply bind_inv in H as ([s1 sz] & F & H). assert (s' = s1) as -> by congruence. clear H.
  apply (foldM_plain _ (fun st => below_inv ps p l (s_pres (fst st)))) in F; [exact F|exact I0|]. intros [s2 z2] i st' _ (b & W & HB) H. cbn [fst] in *. unfold below_step in H.
  apply bind_inv in H as (pr & PR & H). apply bind_inv in H as (q1 & Q1 & H). destruct (n_lt A q1 pr) eqn:L; [|assert (st' = (s2, z2)) as -> by congruence; exists b; auto].
  apply bind_inv in H as (nn & _ & H). cbv zeta in H. do 5 (apply bind_inv in H as (? & _ & H)).
  match type of H with Ok ?x = _ => assert (st' = x) as -> by congruence end. cbn [fst insert_level s_pres]. unfold insert_.
  match goal with |- below_inv _ _ _ (firstn ?i _ ++ _) => destruct (woven_insert pr _ _ _ W i) as (b' & W' & I') end. exists b'. split; [exact W'|].
  intros y Y. apply I' in Y as [->|Y]; [|apply HB, Y]. split; [|exists i; exact PR].
  apply at_ok in Q1. destruct (s_pres s2) as [|hd0 r0] eqn:E; [discriminate|]. cbn in Q1. assert (hd0 = q1) as -> by congruence.
  destruct (woven_hd _ _ _ _ _ _ W eq_refl) as [->|IB]; [exact L|]. destruct (HB q1 IB) as (L1 & j & VJ).
  apply (o_tr A ok O p q1 pr); auto; eapply numbers_val; eassumption.
Qed.
Lemma sorted_filter (R : N -> N -> Prop) (f : N -> bool) l : StronglySorted R l -> StronglySorted R (filter f l).
Proof.
  induction 1 as [|a l S IH F]; [constructor|]. cbn [filter]. destruct (f a); [|exact IH]. constructor; [exact IH|].
  rewrite Forall_forall in *. intros x X. apply filter_In in X as [X _]. apply F, X.
Qed.
(** With the right size, they follow the surface level *)
Lemma below_follows ps n s p l : numbers ok ps -> ok p -> pinv p (p :: l) -> s_pres s = p :: l -> length (s_hght s) = length (s_pres s) ->
  forall pl, arr A ps "TTAA" PRES = Ok pl -> descending (skipn 1 pl) -> n = length pl ->
  forall s' sz, foldM (below_step A ps) (range 1 n) (s, Some (length (s_pres s))) = Ok (s', sz) ->
  s_pres s' = p :: filter (lt p) (skipn 1 pl) ++ l.
Proof.
  intros NB OP PI SP LE pl PL DS -> s' sz F.
  assert (OPL : Forall ok pl) by (eapply numbers_arr; eassumption).
  destruct (Nat.le_gt_cases 1 (length pl)) as [C|C].
  2:{ replace (range 1 (length pl)) with (@nil nat) in F by (unfold range; replace (length pl - 1)%nat with 0%nat by lia; reflexivity). cbn in F.
      assert (s' = s) as -> by congruence. destruct pl as [|a pl]; [|cbn in C; lia]. cbn. exact SP. }
  set (tl := skipn 1 pl) in *.
  apply (foldM_range' _ (fun k st => s_pres (fst st) = p :: filter (lt p) (firstn (k - 1) tl) ++ l /\ snd st = Some (length (s_pres (fst st)))) 1 (length pl)) in F.
  - destruct F as [F _]. cbn [fst] in F. rewrite firstn_all2 in F; [exact F|]. unfold tl. rewrite skipn_length. lia.
  - exact C.
  - cbn [fst snd Nat.sub firstn filter app]. split; [exact SP|reflexivity].
  - intros i [s2 z2] st' LI [E SZ] H. cbn [fst snd] in *. unfold below_step in H. apply bind_inv in H as (pr & PR & H). apply bind_inv in H as (q1 & Q1 & H).
    assert (q1 = p) as -> by (rewrite E in Q1; cbn in Q1; congruence).
    unfold val in PR. rewrite PL in PR. cbn [bind] in PR. apply at_ok in PR.
    assert (NT : nth_error tl (i - 1) = Some pr).
    { unfold tl. destruct pl as [|a pl']; [cbn in C; lia|]. cbn [skipn]. destruct i as [|i]; [lia|]. cbn in PR. replace (S i - 1)%nat with i by lia. exact PR. }
    assert (FS : firstn (S i - 1) tl = firstn (i - 1) tl ++ [pr]).
    { replace (S i - 1)%nat with (S (i - 1)) by lia. clear - NT. revert NT. generalize (i - 1)%nat as k. induction tl as [|a tl IH]; intros [|k] NT; cbn in NT; try discriminate.
      - cbn. congruence.
      - cbn [firstn app]. f_equal. apply IH, NT. }
    rewrite FS, filter_app. cbn [filter]. destruct (lt p pr) eqn:L.
    2:{ assert (st' = (s2, z2)) as -> by congruence. cbn [fst snd]. rewrite app_nil_r. split; [exact E|exact SZ]. }
    rewrite SZ in H. cbn [bound bind] in H. cbv zeta in H. do 5 (apply bind_inv in H as (? & _ & H)).
    match type of H with Ok ?x = _ => assert (st' = x) as -> by congruence end. cbn [fst snd insert_level s_pres].
    set (B := filter (lt p) (firstn (i - 1) tl)) in *.
    assert (OPR : ok pr) by (rewrite Forall_forall in OPL; eapply OPL, nth_error_In, PR).
    destruct PI as (D & OK & G & _ & _). apply StronglySorted_inv in D as [D DP]. rewrite Forall_forall in DP. inversion_clear OK as [|? ? _ OKL].
    assert (OTL : forall y, In y tl -> ok y) by (intros y Y; rewrite Forall_forall in OPL; apply OPL; eapply in_skipn, Y).
    assert (BI : forall y, In y B -> In y tl /\ lt p y = true).
    { intros y Y. unfold B in Y. apply filter_In in Y as [Y LY]. split; [eapply in_firstn, Y|exact LY]. }
    assert (BP : forall y, In y B -> lt pr y = true).
    { intros y Y. unfold B in Y. apply filter_In in Y as [Y _]. apply In_nth_error in Y as (k & K).
      assert (KL : (k < length (firstn (i - 1) tl))%nat) by (apply nth_error_Some; congruence). rewrite firstn_length in KL.
      apply (sorted_nth _ _ DS k (i - 1)%nat y pr); [lia| |exact NT]. rewrite <- (firstn_skipn (i - 1) tl), nth_error_app1; [exact K|apply nth_error_Some; congruence]. }
    assert (DB : descending (B ++ l)).
    { apply sorted_app. split; [|split; [exact D|]].
      - unfold B. apply sorted_filter. rewrite <- (firstn_skipn (i - 1) tl) in DS. apply sorted_app in DS as [DS _]. exact DS.
      - intros y z Y Z1. destruct (BI y Y) as [IY LY]. apply (o_tr A ok O z p y); auto. rewrite Forall_forall in OKL. apply OKL, Z1. }
    assert (OB : Forall ok (B ++ l)) by (apply Forall_app; split; [apply Forall_forall; intros y Y; apply OTL, BI, Y|exact OKL]).
    assert (SK : skipn 1 (s_pres s2) = B ++ l) by (rewrite E; reflexivity). rewrite SK.
    destruct (place_spec (B ++ l) pr DB OB OPR) as (CL & PF & PS).
    assert (PB : place (B ++ l) pr = length B).
    { assert (NF : forall k y, nth_error (B ++ l) k = Some y -> (k < length B)%nat -> lt y pr = false).
      { intros k y K KB. rewrite nth_error_app1 in K by exact KB. apply nth_error_In in K. apply lt_asym; [exact OPR|apply OTL, BI, K|apply BP, K]. }
      assert (NS : forall k y, nth_error (B ++ l) k = Some y -> (length B <= k)%nat -> lt y pr = true).
      { intros k y K KB. rewrite nth_error_app2 in K by exact KB. apply nth_error_In in K. apply (o_tr A ok O y p pr); auto. rewrite Forall_forall in OKL. apply OKL, K. }
      assert (PLE : (place (B ++ l) pr <= length (B ++ l))%nat) by (unfold place; lia).
      destruct (Nat.lt_trichotomy (place (B ++ l) pr) (length B)) as [X|[X|X]]; [|exact X|]; exfalso.
      - destruct (nth_error (B ++ l) (place (B ++ l) pr)) as [y|] eqn:Y; [|apply nth_error_None in Y; rewrite app_length in Y; lia].
        pose proof (NF _ _ Y X) as F1. assert (In y (skipn (place (B ++ l) pr) (B ++ l))) as IY.
        { rewrite <- (firstn_skipn (place (B ++ l) pr) (B ++ l)) in Y at 1. rewrite nth_error_app2 in Y by (rewrite firstn_length; lia). eapply nth_error_In, Y. }
        rewrite (PS y IY) in F1. discriminate.
      - destruct (nth_error (B ++ l) (length B)) as [y|] eqn:Y; [|apply nth_error_None in Y; lia].
        pose proof (NS _ _ Y (le_n _)) as F1. assert (In y (firstn (place (B ++ l) pr) (B ++ l))) as IY.
        { rewrite <- (firstn_skipn (place (B ++ l) pr) (B ++ l)) in Y at 1. rewrite nth_error_app1 in Y by (rewrite firstn_length; lia). eapply nth_error_In, Y. }
        rewrite (PF y IY) in F1. discriminate. }
    unfold place in PB. set (c := bisect_left lt (rev (B ++ l)) pr) in *. rewrite app_length in PB, CL.
    assert (LP : length (s_pres s2) = S (length B + length l)) by (rewrite E; cbn [length]; rewrite app_length; lia). rewrite LP.
    assert (R : insert_ (s_pres s2) (Z.of_nat (S (length B + length l)) - Z.of_nat c) pr = p :: (B ++ [pr]) ++ l).
    { unfold insert_, Zlen. rewrite LP. replace (Z.to_nat _) with (S (length B)) by (destruct (Z.ltb_spec (Z.of_nat (S (length B + length l)) - Z.of_nat c) 0); lia).
      rewrite E. cbn [firstn skipn app]. f_equal. rewrite firstn_app, firstn_all, Nat.sub_diag, skipn_app, skipn_all, Nat.sub_diag. cbn [firstn skipn app]. rewrite app_nil_r, <- app_assoc. reflexivity. }
    rewrite R. split; [reflexivity|]. cbn [length]. rewrite !app_length. cbn [length]. f_equal. lia.
Qed.

(** ** The whole *)
Lemma pinv_head p0 l : pinv p0 l -> exists p r, l = p :: r /\ ok p /\ given m p /\ (forall x, ok x -> lt p0 x = false -> lt p x = false) /\ (p = p0 \/ Q p) /\ pinv p (p :: r).
Proof.
  intros (D & OK & G & I & FR). destruct l as [|p r]; [destruct I|]. exists p, r. inversion OK; subst. inversion G; subst. split; [reflexivity|]. split; [assumption|]. split; [assumption|]. split.
  - intros x OX L. destruct I as [->|I]; [exact L|]. destruct (lt p x) eqn:E; [|reflexivity]. apply StronglySorted_inv in D as [_ D]. rewrite Forall_forall in D.
    assert (O1 : ok p0) by (rewrite Forall_forall in OK; apply OK; right; exact I). assert (O2 : ok p) by assumption.
    rewrite (o_tr A ok O p0 p x O1 O2 OX (D p0 I) E) in L. discriminate.
  - assert (O2 : ok p) by assumption. assert (DP := D). apply StronglySorted_inv in DP as [_ DP]. rewrite Forall_forall in DP. split.
    + pose proof (Forall_inv FR) as [F|[F|F]]; [left; exact F| |right; exact F]. exfalso. destruct I as [->|I]; [rewrite (o_irr A ok O p0 O2) in F; discriminate|].
      assert (O1 : ok p0) by (rewrite Forall_forall in OK; apply OK; right; exact I). specialize (DP p0 I). rewrite (lt_asym p p0 O2 O1 F) in DP. discriminate.
    + split; [exact D|]. split; [exact OK|]. split; [exact G|]. split; [left; reflexivity|]. apply Forall_cons; [left; reflexivity|]. apply Forall_forall. intros x X. right. left. apply DP, X.
Qed.
Theorem merge_order fuel (ps : parts_t A) selv (s : sounding N) :
  numbers ok ps -> dictionary ps "TTAA" -> dictionary ps "TTCC" -> surface_reported m ps -> on_pressure m ps "PPBB" -> on_pressure m ps "PPDD" ->
  (forall name l x, In name others -> arr A ps name PRES = Ok l \/ arr A ps name HGHT = Ok l -> In x l -> Q (n_abs A x)) ->
  merge_sounding A m fuel ps selv = Ok (Some s) ->
  exists p l b, (val A ps "TTAA" PRES 0 = Ok p \/ val A ps "TTBB" PRES 0 = Ok p \/ Q p) /\ descending (p :: l) /\ Forall (given m) (p :: l) /\ woven (p :: l) b (s_pres s) /\
    forall y, In y b -> lt p y = true /\ exists i, val A ps "TTAA" PRES i = Ok y.
Proof.
  intros NB D1 D2 SR OB OD QH H. destruct (merge_stages _ _ _ _ NB D1 D2 SR OB OD QH H) as (ps' & n & bgl & size & s0 & p0 & T & C0 & LV & PI & B0 & SZ & NB' & BG).
  destruct (pinv_head _ _ PI) as (p & l & E & OP & GP & _ & CH & (D & _ & G & _)). destruct (below_woven _ _ _ _ _ _ _ _ NB' OP E BG) as (b & W & HB).
  exists p, l, b. split; [destruct CH as [->|CH]; auto|]. split; [exact D|]. split; [exact G|]. split; [exact W|]. intros y Y. destruct (HB y Y) as (L & i & V). split; [exact L|]. exists i. rewrite <- (val_other ps ps' _ _ _ T). exact V.
Qed.
Theorem merge_below fuel (ps : parts_t A) selv (s : sounding N) pl :
  numbers ok ps -> dictionary ps "TTAA" -> dictionary ps "TTCC" -> complete ps "TTCC" -> surface_reported m ps -> on_pressure m ps "PPBB" -> on_pressure m ps "PPDD" ->
  levels A ps "PPBB" SPED = Ok 0%nat \/ levels A ps "PPDD" SPED = Ok 0%nat ->
  arr A ps "TTAA" PRES = Ok pl -> descending (skipn 1 pl) ->
  (forall name l x, In name others -> arr A ps name PRES = Ok l \/ arr A ps name HGHT = Ok l -> In x l -> Q (n_abs A x)) ->
  merge_sounding A m fuel ps selv = Ok (Some s) ->
  exists p l, (val A ps "TTAA" PRES 0 = Ok p \/ val A ps "TTBB" PRES 0 = Ok p \/ Q p) /\ descending (p :: l) /\ Forall (given m) (p :: l) /\ s_pres s = p :: filter (lt p) (skipn 1 pl) ++ l.
Proof.
  intros NB D1 D2 C2 SR OB OD ZZ PL DS QH H. destruct (merge_stages _ _ _ _ NB D1 D2 SR OB OD QH H) as (ps' & n & bgl & size & s0 & p0 & T & C0 & LV & PI & B0 & SZ & NB' & BG).
  assert (PL' : arr A ps' "TTAA" PRES = Ok pl) by (unfold arr in *; rewrite T; exact PL).
  assert (n = length pl) as -> by (unfold levels in LV; unfold arr in PL; destruct (assoc "TTAA" ps) as [q|]; [|discriminate]; rewrite PL in LV; cbn in LV; congruence).
  destruct (pinv_head _ _ PI) as (p & l & E & OP & GP & HD & CH & PI'). exists p, l. split; [destruct CH as [->|CH]; auto|]. split; [apply PI'|]. split; [apply PI'|].
  unfold below_ground in BG. rewrite E in BG. cbn [at_ nth_error bind] in BG. unfold ne, ismiss in BG. rewrite GP in BG. cbn [negb andb] in BG.
  destruct (Nat.ltb_spec 0 bgl) as [C|C].
  - apply bind_inv in BG as ([s1 sz] & F & BG). assert (s1 = s) as -> by congruence.
    assert (LE : length (s_hght s0) = length (s_pres s0)).
    { pose proof (merge_EL m fuel ps selv s D1 D2 C2 H) as (k & AL). pose proof (AL PRES) as L1. pose proof (AL HGHT) as L2. cbn [get] in L1, L2.
      apply (foldM_plain _ (fun st => (length (s_hght s0) + length (s_pres (fst st)) = length (s_pres s0) + length (s_hght (fst st)))%nat)) in F; [cbn [fst] in F; lia|cbn [fst]; lia|].
      intros [s2 z2] i st' _ EQ HS. cbn [fst] in *. unfold below_step in HS. apply bind_inv in HS as (pr & _ & HS). apply bind_inv in HS as (q1 & _ & HS).
      destruct (n_lt A q1 pr); [|assert (st' = (s2, z2)) as -> by congruence; exact EQ].
      apply bind_inv in HS as (nn & _ & HS). cbv zeta in HS. do 5 (apply bind_inv in HS as (? & _ & HS)).
      match type of HS with Ok ?x = _ => assert (st' = x) as -> by congruence end. cbn [fst insert_level s_pres s_hght]. rewrite !insert_length. lia. }
    rewrite (SZ ZZ LE) in F. rewrite <- E in PI'.
    eapply below_follows; [exact NB'|exact OP|rewrite E in PI'; exact PI'|exact E|exact LE|exact PL'|exact DS|reflexivity|exact F].
  - assert (s0 = s) as <- by congruence. rewrite E. f_equal. assert (bgl = 0%nat) as Z0 by lia. specialize (B0 Z0).
    assert (FN : filter (lt p) (skipn 1 pl) = []).
    { assert (FA : forall x, In x (skipn 1 pl) -> lt p x = false).
      { intros x X. assert (OX : ok x) by (pose proof (numbers_arr _ _ _ _ NB PL) as F; rewrite Forall_forall in F; apply F; eapply in_skipn, X).
        apply HD; [exact OX|]. apply In_nth_error in X as (k & K). assert (K' : nth_error pl (S k) = Some x) by (destruct pl; [destruct k; discriminate|exact K]).
        apply (B0 (S k) x); [assert (S k < length pl)%nat by (apply nth_error_Some; congruence); lia|]. unfold val. rewrite PL. cbn [bind]. apply at_ok, K'. }
      induction (skipn 1 pl) as [|a r IH]; [reflexivity|]. cbn [filter]. rewrite FA by (left; reflexivity). apply IH. 
      - inversion DS; assumption.
      - intros x X. apply FA. right. exact X. }
    rewrite FN. reflexivity.
Qed.
End O.
