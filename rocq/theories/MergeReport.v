(** Tropopause, significant and maximum wind levels in a merged sounding. *)
From Coq Require Import Lia ZifyBool ZifyNat String.
From Verif Require Import Base Calc SpecCalc CalcFacts Merge SpecMerge MergeFacts SpecMergeOrder MergeOrder SpecMergeKeep MergeKeep SpecMergeReport.
From Coq Require Import List ZArith Bool.
Import ListNotations.
Open Scope string_scope.
Open Scope list_scope.
Open Scope Z_scope.

Definition place (loc : Z) (n : nat) : nat := Z.to_nat (if loc <? 0 then Z.max 0 (loc + Z.of_nat n) else Z.min loc (Z.of_nat n)).
Lemma place_le loc n : (place loc n <= n)%nat.
Proof. unfold place. destruct (Z.ltb_spec loc 0); lia. Qed.
Lemma insert_at {N} (l : list N) loc x n : length l = n -> nth_error (insert_ l loc x) (place loc n) = Some x.
Proof.
  intros L. unfold insert_, Zlen. rewrite L. fold (place loc n). pose proof (place_le loc n). rewrite nth_error_app2; rewrite firstn_length, L; [|lia].
  replace (place loc n - Nat.min (place loc n) n)%nat with 0%nat by lia. reflexivity.
Qed.
Lemma insert_back {N} (l : list N) loc x n j y : length l = n -> j <> place loc n -> nth_error (insert_ l loc x) j = Some y ->
  nth_error l (if (j <? place loc n)%nat then j else (j - 1)%nat) = Some y.
Proof.
  intros L NE. unfold insert_, Zlen. rewrite L. fold (place loc n). pose proof (place_le loc n). destruct (Nat.ltb_spec j (place loc n)) as [LT|GE].
  - rewrite nth_error_app1 by (rewrite firstn_length; lia). intros E.
    assert (X : nth_error (firstn (place loc n) l) j = nth_error l j); [|congruence].
    clear - LT. revert l j LT. generalize (place loc n). induction n0 as [|k IH]; intros l j LT; [lia|]. destruct l, j; cbn; try reflexivity. apply IH. lia.
  - rewrite nth_error_app2 by (rewrite firstn_length; lia). rewrite firstn_length, L. replace (j - Nat.min (place loc n) n)%nat with (S (j - 1 - place loc n)) by lia.
    cbn [nth_error]. intros E. assert (X : forall (l : list N) a b, nth_error (skipn a l) b = nth_error l (a + b)).
    { clear. induction l as [|z l IH]; intros a b; destruct a; [reflexivity|destruct b; reflexivity|reflexivity|apply IH]. }
    rewrite X in E. replace (place loc n + (j - 1 - place loc n))%nat with (j - 1)%nat in E by lia. exact E.
Qed.

Section R.
Context {A : arith}.
Notation N := (num A).
Variable m : N.
Hypothesis EQT : forall x y z : N, n_eq A x y = true -> n_eq A x z = true -> n_eq A y z = true.
Hypothesis MM : n_eq A m m = true.
Variable w : bool.        (* winds or temperatures *)
Definition k1 : key := if w then DRCT else TEMP.
Definition k2 : key := if w then SPED else DWPT.
Variable ps : parts_t A.
Variable p : N.
Hypothesis PM : n_eq A p m = false.
Hypothesis PP : n_eq A p p = true.
Hypothesis ABSE : forall x : N, n_eq A x p = true -> n_eq A (n_abs A x) p = true.
(** A report at the pressure *)
Definition rep (a b : N) : Prop := exists name i x, val A ps name PRES i = Ok x /\ n_eq A (n_abs A x) p = true /\ val A ps name k1 i = Ok a /\ val A ps name k2 i = Ok b.
(** All values at the pressure are reported ones *)
Definition Src (s : sounding N) : Prop := forall j y a b, nth_error (get s PRES) j = Some y -> n_eq A y p = true ->
  nth_error (get s k1) j = Some a -> nth_error (get s k2) j = Some b -> given m a -> rep a b.
Definition G (s : sounding N) : Prop := EL s /\ Src s.
Lemma k12 : k1 <> PRES /\ k2 <> PRES /\ k1 <> k2 /\ k1 <> HGHT /\ k2 <> HGHT.
Proof. unfold k1, k2. destruct w; repeat split; discriminate. Qed.

Lemma set_get s k i x s' : set_key A s k i x = Ok s' -> exists l, set_ (get s k) i x = Ok l /\ get s' k = l /\ forall k', k' <> k -> get s' k' = get s k'.
Proof.
  intros H. unfold set_key in H. apply bind_inv in H as (l & E & H). assert (s' = put s k l) as -> by congruence. exists l. split; [exact E|]. split; [apply get_put|].
  intros k' NE. apply get_put_other, NE.
Qed.
Lemma set_nth (l l' : list N) i x : set_ l i x = Ok l' -> nth_error l' i = Some x /\ forall j, j <> i -> nth_error l' j = nth_error l j.
Proof. intros H. apply set_ok in H as (L & _ & E & O). split; [exact E|exact O]. Qed.
Lemma G_other s k i x s' : k <> PRES -> k <> k1 -> k <> k2 -> G s -> set_key A s k i x = Ok s' -> G s'.
Proof.
  intros N1 N2 N3 [E SR] H. split; [eapply EL_set; eauto|]. apply set_get in H as (l & _ & _ & O). intros j y a b. rewrite !O by congruence. apply SR.
Qed.
Lemma G_pair s loc a b s1 s2 : G s -> set_key A s k1 loc a = Ok s1 -> set_key A s1 k2 loc b = Ok s2 ->
  (forall y, nth_error (get s PRES) loc = Some y -> n_eq A y p = true -> rep a b) -> G s2.
Proof.
  intros [E SR] H1 H2 R. split; [eapply EL_set; [eapply EL_set|]; eauto|]. destruct k12 as (N1 & N2 & N3 & _).
  apply set_get in H1 as (l1 & S1 & G1 & O1). apply set_get in H2 as (l2 & S2 & G2 & O2). apply set_nth in S1 as [X1 Y1]. apply set_nth in S2 as [X2 Y2].
  intros j y a' b'. rewrite (O2 PRES), (O1 PRES) by congruence. rewrite (O2 k1) by exact N3. rewrite G1, G2. intros P Q Ka Kb GV. destruct (Nat.eq_dec j loc) as [->|NE].
  - rewrite X1 in Ka. rewrite X2 in Kb. assert (a' = a) as -> by congruence. assert (b' = b) as -> by congruence. eapply R; eauto.
  - rewrite (Y1 j NE) in Ka. rewrite (Y2 j NE), (O1 k2) in Kb by congruence. eapply SR; eauto.
Qed.
Lemma G_insert s loc f : (n_eq A (f PRES) p = true -> given m (f k1) -> rep (f k1) (f k2)) -> G s -> G (insert_level A s loc f).
Proof.
  intros R [(n & AL) SR]. split; [exists (S n); apply aligned_insert, AL|]. intros j y a b.
  assert (IG : forall k, get (insert_level A s loc f) k = insert_ (get s k) loc (f k)) by (intros k; destruct k; reflexivity).
  rewrite !IG. intros P Q Ka Kb GV. destruct (Nat.eq_dec j (place loc n)) as [->|NE].
  - rewrite insert_at in P, Ka, Kb by apply AL. assert (y = f PRES) as -> by congruence. assert (a = f k1) as -> by congruence. assert (b = f k2) as -> by congruence. auto.
  - apply (insert_back _ _ _ n j) in P; [|apply AL|exact NE]. apply (insert_back _ _ _ n j) in Ka; [|apply AL|exact NE]. apply (insert_back _ _ _ n j) in Kb; [|apply AL|exact NE]. eapply SR; eauto.
Qed.

(** ** A level with values *)
Definition vof (y a b : N) (k : key) : N :=
  match k with PRES => y | HGHT => p | TEMP => if w then m else a | DWPT => if w then m else b | DRCT => if w then a else m | SPED => if w then b else m end.
Definition J (s : sounding N) : Prop := exists y a b, n_eq A y p = true /\ rep a b /\ given m a /\ (w = true -> given m b) /\ KE m False (w = true) (vof y a b) s.
Lemma given_y y : n_eq A y p = true -> given m y.
Proof. intros E. unfold given. destruct (n_eq A y m) eqn:M; [|reflexivity]. rewrite (EQT y p m E M) in PM. discriminate. Qed.
Lemma J_intro s j y a : G s -> nth_error (get s PRES) j = Some y -> n_eq A y p = true -> nth_error (get s k1) j = Some a -> given m a ->
  (w = true -> exists b, nth_error (get s k2) j = Some b /\ given m b) -> J s.
Proof.
  intros [E SR] P Q Ka GA WB. assert (exists b, nth_error (get s k2) j = Some b) as (b & Kb).
  { destruct E as (n & AL). assert (j < n)%nat by (rewrite <- (AL PRES); apply nth_error_Some; congruence). destruct (nth_error (get s k2) j) eqn:X; [eauto|]. apply nth_error_None in X. rewrite (AL k2) in X. lia. }
  exists y, a, b. split; [exact Q|]. split; [eapply SR; eauto|]. split; [exact GA|]. assert (GB : w = true -> given m b) by (intros W; destruct (WB W) as (b' & Kb' & GB); congruence).
  split; [exact GB|]. split; [exact E|]. exists j. intros k SV. unfold k1, k2 in *. assert (NM : ~ given m m) by (unfold given; congruence).
  destruct k; cbn [sv vof] in *; destruct w; try exact P; try assumption; try contradiction; try (destruct SV as (? & ? & ?); contradiction); destruct SV; contradiction.
Qed.
(** ** The level stays *)
Lemma J_map s s' : (forall v, given m (v PRES) -> given m (v HGHT) -> KE m False (w = true) v s -> KE m False (w = true) v s') -> J s -> J s'.
Proof. intros H (y & a & b & Q & R & GA & GB & K). exists y, a, b. repeat (split; [assumption|]). apply H; [apply given_y, Q|exact PM|exact K]. Qed.

(** ** Values filled in *)
Lemma fill_temp_G name loc i s s' x : G s -> val A ps name PRES i = Ok x -> (exists q, nth_error (s_pres s) loc = Some q /\ n_eq A q (n_abs A x) = true) ->
  fill_temp A m ps name s loc i = Ok s' -> G s'.
Proof.
  intros GS PX (q & PQ & EQ) S. unfold fill_temp in S. apply bind_inv in S as (t & T & S). destruct (ismiss A m t); [|assert (s' = s) as -> by congruence; exact GS].
  apply bind_inv in S as (t' & T' & S). apply bind_inv in S as (s1 & S1 & S). apply bind_inv in S as (d' & D' & S). destruct w eqn:W.
  - eapply G_other; [| | |eapply G_other; [| | |exact GS|exact S1]|exact S]; unfold k1, k2; try rewrite W; discriminate.
  - assert (K1 : k1 = TEMP) by (unfold k1; rewrite W; reflexivity). assert (K2 : k2 = DWPT) by (unfold k2; rewrite W; reflexivity).
    eapply G_pair; [exact GS|rewrite K1; exact S1|rewrite K2; exact S|]. intros y PY EY. exists name, i, x. rewrite K1, K2. split; [exact PX|]. split; [|auto].
    cbn [get] in PY. assert (q = y) as -> by congruence. exact (EQT _ _ _ EQ EY).
Qed.
Lemma winds_G name loc i s s1 s' x d' v' : G s -> val A ps name PRES i = Ok x -> (exists q, nth_error (s_pres s) loc = Some q /\ (n_eq A q (n_abs A x) = true \/ n_eq A q x = true)) ->
  val A ps name DRCT i = Ok d' -> val A ps name SPED i = Ok v' -> set_key A s DRCT loc d' = Ok s1 -> set_key A s1 SPED loc v' = Ok s' -> G s'.
Proof.
  intros GS PX (q & PQ & EQ) D' V' S1 S. destruct w eqn:W.
  - assert (K1 : k1 = DRCT) by (unfold k1; rewrite W; reflexivity). assert (K2 : k2 = SPED) by (unfold k2; rewrite W; reflexivity).
    eapply G_pair; [exact GS|rewrite K1; exact S1|rewrite K2; exact S|]. intros y PY EY. exists name, i, x. rewrite K1, K2. split; [exact PX|]. split; [|auto].
    cbn [get] in PY. assert (q = y) as -> by congruence. destruct EQ as [EQ|EQ]; [exact (EQT _ _ _ EQ EY)|]. apply ABSE. exact (EQT _ _ _ EQ EY).
  - eapply G_other; [| | |eapply G_other; [| | |exact GS|exact S1]|exact S]; unfold k1, k2; try rewrite W; discriminate.
Qed.
Lemma fill_dir_G name loc i s s' x : G s -> val A ps name PRES i = Ok x -> (exists q, nth_error (s_pres s) loc = Some q /\ n_eq A q (n_abs A x) = true) ->
  fill_dir A m ps name s loc i = Ok s' -> G s'.
Proof.
  intros GS PX (q & PQ & EQ) S. unfold fill_dir in S. apply bind_inv in S as (t & T & S). destruct (ismiss A m t); [|assert (s' = s) as -> by congruence; exact GS].
  apply bind_inv in S as (t' & T' & S). apply bind_inv in S as (s1 & S1 & S). apply bind_inv in S as (d' & D' & S). eapply winds_G; eauto.
Qed.
Lemma fill_wind_G name loc i s s' x : G s -> val A ps name PRES i = Ok x -> (exists q, nth_error (s_pres s) loc = Some q /\ n_eq A q (n_abs A x) = true) ->
  fill_wind A m ps name s loc i = Ok s' -> G s'.
Proof.
  intros GS PX (q & PQ & EQ) S. unfold fill_wind in S. apply bind_inv in S as (t & T & S). apply bind_inv in S as (fu & _ & S). destruct fu; [assert (s' = s) as -> by congruence; exact GS|].
  apply bind_inv in S as (t' & T' & S). apply bind_inv in S as (s1 & S1 & S). apply bind_inv in S as (d' & D' & S). eapply winds_G; eauto.
Qed.
Lemma trop_found_G name loc i s s' x : G s -> val A ps name PRES i = Ok x -> (exists q, nth_error (s_pres s) loc = Some q /\ n_eq A q (n_abs A x) = true) ->
  (s <- fill_temp A m ps name s loc i ;; s <- fill_dir A m ps name s loc i ;; set_key A s HGHT loc m) = Ok s' -> G s'.
Proof.
  intros GS PX EQ S. apply bind_inv in S as (s1 & S1 & S). apply bind_inv in S as (s2 & S2 & S). destruct k12 as (_ & _ & _ & N1 & N2).
  apply (G_other s2 HGHT loc m s'); [discriminate|congruence|congruence| |exact S]. eapply fill_dir_G; [|exact PX| |exact S2]; [eapply fill_temp_G; eauto|]. rewrite (fill_temp_pres m _ _ _ _ _ _ S1). exact EQ.
Qed.
(** What they do at the level *)
Lemma fill_temp_given name loc i s s' t : val A ps name TEMP i = Ok t -> given m t -> fill_temp A m ps name s loc i = Ok s' ->
  exists a, nth_error (s_temp s') loc = Some a /\ given m a.
Proof.
  intros V GV S. unfold fill_temp in S. apply bind_inv in S as (t0 & T & S). destruct (ismiss A m t0) eqn:M; [|assert (s' = s) as -> by congruence; exists t0; split; [apply at_ok, T|exact M]].
  apply bind_inv in S as (t' & T' & S). apply bind_inv in S as (s1 & S1 & S). apply bind_inv in S as (d' & D' & S). assert (t' = t) as -> by congruence. exists t. split; [|exact GV].
  apply set_get in S as (l & _ & _ & O). apply set_get in S1 as (l1 & E1 & G1 & _). change (s_temp s') with (get s' TEMP). rewrite O by discriminate. rewrite G1. apply set_nth in E1 as [X _]. exact X.
Qed.
Lemma fill_wind_given name loc i s s' d v : val A ps name DRCT i = Ok d -> val A ps name SPED i = Ok v -> given m d -> given m v -> fill_wind A m ps name s loc i = Ok s' ->
  (exists a, nth_error (s_drct s') loc = Some a /\ given m a) /\ (exists b, nth_error (s_sped s') loc = Some b /\ given m b).
Proof.
  intros V1 V2 GV1 GV2 S. unfold fill_wind in S. apply bind_inv in S as (t0 & T & S). apply at_ok in T. apply bind_inv in S as (fu & F & S). destruct fu.
  - assert (s' = s) as -> by congruence. destruct (ismiss A m t0) eqn:M; [discriminate|]. apply bind_inv in F as (v0 & V0 & F). apply at_ok in V0. split; [exists t0; auto|]. exists v0. split; [exact V0|].
    assert (NE : ne A m v0 = true) by congruence. apply negb_true_iff in NE. exact NE.
  - apply bind_inv in S as (t' & T' & S). apply bind_inv in S as (s1 & S1 & S). apply bind_inv in S as (d' & D' & S). assert (t' = d) as -> by congruence. assert (d' = v) as -> by congruence.
    apply set_get in S as (l & E & G2 & O). apply set_get in S1 as (l1 & E1 & G1 & _). apply set_nth in E as [X _]. apply set_nth in E1 as [X1 _].
    change (s_drct s') with (get s' DRCT). change (s_sped s') with (get s' SPED). rewrite O by discriminate. rewrite G1, G2. split; eauto.
Qed.

(** ** One part, level by level *)
Section Part.
Variables (name : string) (u : nat -> res bool) (f : sounding N -> nat -> nat -> res (sounding N)) (g : nat -> res (key -> N)).
Hypothesis FG : forall s loc i s' x, G s -> val A ps name PRES i = Ok x -> (exists q, nth_error (s_pres s) loc = Some q /\ n_eq A q (n_abs A x) = true) -> f s loc i = Ok s' -> G s'.
Hypothesis FP : forall s loc i s', f s loc i = Ok s' -> s_pres s' = s_pres s.
Hypothesis GG : forall i h, g i = Ok h -> (h k1 = m /\ h k2 = m) \/ val A ps name k1 i = Ok (h k1) /\ val A ps name k2 i = Ok (h k2).
Lemma step_G pl st i st' : arr A ps name PRES = Ok pl -> G (in_s A st) -> insert_step A m pl u f g st i = Ok st' -> G (in_s A st').
Proof.
  intros PL GS S. unfold insert_step in S. apply bind_inv in S as (raw & R & S). cbv zeta in S. apply bind_inv in S as (b & _ & S).
  assert (V : val A ps name PRES i = Ok raw) by (unfold val; rewrite PL; exact R).
  destruct b; [|match type of S with Ok ?x = _ => assert (st' = x) as -> by congruence end; exact GS].
  destruct (n_lt A (in_pbot A st) _) in S; [assert (st' = st) as -> by congruence; exact GS|]. destruct (existsb _ _) in S.
  - apply bind_inv in S as (loc & I & S). apply bind_inv in S as (s' & S' & S). match type of S with Ok ?x = _ => assert (st' = x) as -> by congruence end.
    cbn [in_s]. apply index_ok in I. eapply FG; eauto.
  - apply bind_inv in S as (fr & F & S). match type of S with Ok ?x = _ => assert (st' = x) as -> by congruence end. cbn [in_s]. apply G_insert; [|exact GS].
    destruct k12 as (N1 & N2 & _). intros Q GV. assert (E1 : match k1 with PRES => n_abs A raw | _ => fr k1 end = fr k1) by (destruct k1; congruence). assert (E2 : match k2 with PRES => n_abs A raw | _ => fr k2 end = fr k2) by (destruct k2; congruence).
    rewrite E1 in *. rewrite E2. destruct (GG _ _ F) as [[M _]|[V1 V2]]; [rewrite M in GV; unfold given in GV; congruence|]. exists name, i, raw. auto.
Qed.
Lemma step_pbot pl st i st' : arr A ps name PRES = Ok pl -> insert_step A m pl u f g st i = Ok st' -> in_pbot A st' = in_pbot A st \/ exists x, val A ps name PRES i = Ok x /\ in_pbot A st' = n_abs A x.
Proof.
  intros PL S. unfold insert_step in S. apply bind_inv in S as (raw & R & S). cbv zeta in S. apply bind_inv in S as (b & _ & S).
  assert (V : val A ps name PRES i = Ok raw) by (unfold val; rewrite PL; exact R).
  destruct b; [|match type of S with Ok ?x = _ => assert (st' = x) as -> by congruence end; right; eauto].
  destruct (n_lt A (in_pbot A st) _) in S; [assert (st' = st) as -> by congruence; auto|]. right. exists raw. split; [exact V|]. destruct (existsb _ _) in S.
  - apply bind_inv in S as (loc & I & S). apply bind_inv in S as (s' & S' & S). match type of S with Ok ?x = _ => assert (st' = x) as -> by congruence end. reflexivity.
  - apply bind_inv in S as (fr & F & S). match type of S with Ok ?x = _ => assert (st' = x) as -> by congruence end. reflexivity.
Qed.
Lemma part_G n st st' : G (in_s A st) -> insert_part A m ps name n u f g st = Ok st' -> G (in_s A st').
Proof.
  intros GS S. unfold insert_part in S. destruct n; [assert (st' = st) as -> by congruence; exact GS|]. apply bind_inv in S as (pl & P & S).
  apply (foldM_plain _ (fun st => G (in_s A st))) in S; [exact S|exact GS|]. intros s1 i s2 _ E1 S1. eapply step_G; eauto.
Qed.
Lemma part_pbot n st st' : (forall j x, val A ps name PRES j = Ok x -> n_lt A (n_abs A x) p = false) -> n_lt A (in_pbot A st) p = false -> insert_part A m ps name n u f g st = Ok st' -> n_lt A (in_pbot A st') p = false.
Proof.
  intros B B0 S. unfold insert_part in S. destruct n; [assert (st' = st) as -> by congruence; exact B0|]. apply bind_inv in S as (pl & P & S).
  apply (foldM_plain _ (fun st => n_lt A (in_pbot A st) p = false)) in S; [exact S|exact B0|]. intros s1 i s2 _ E1 S1. destruct (step_pbot _ _ _ _ P S1) as [->|(x & V & ->)]; [exact E1|eapply B, V].
Qed.
(** The level itself *)
Variables (i : nat) (x : N).
Hypothesis VX : val A ps name PRES i = Ok x.
Hypothesis PX : p = n_abs A x.
Hypothesis PZ : n_eq A p (lit_ 0) = false.
Hypothesis US : u i = Ok true.
Hypothesis FJ : forall s loc s', f s loc i = Ok s' -> (exists a, nth_error (get s' k1) loc = Some a /\ given m a) /\ (w = true -> exists b, nth_error (get s' k2) loc = Some b /\ given m b).
Hypothesis GJ : forall h, g i = Ok h -> given m (h k1) /\ (w = true -> given m (h k2)).
Lemma step_takes pl st st' : arr A ps name PRES = Ok pl -> G (in_s A st) -> n_lt A (in_pbot A st) p = false -> insert_step A m pl u f g st i = Ok st' -> J (in_s A st').
Proof.
  intros PL GS B S. pose proof (step_G _ _ _ _ PL GS S) as GS'. unfold insert_step in S. apply bind_inv in S as (raw & R & S). cbv zeta in S.
  assert (raw = x) as -> by (unfold val in VX; rewrite PL in VX; cbn [bind] in VX; congruence). rewrite <- PX in S.
  unfold ne, ismiss in S. rewrite PM in S. cbn [negb] in S. rewrite US in S. cbn [bind] in S. unfold l_ in S. fold (lit_ (A := A) 0) in S. rewrite PZ in S. cbn [negb andb] in S. rewrite B in S. destruct (existsb _ _) in S.
  - apply bind_inv in S as (loc & I & S). apply bind_inv in S as (s' & S' & S). match type of S with Ok ?x = _ => assert (st' = x) as -> by congruence end. cbn [in_s] in *.
    apply index_ok in I as (y & PY & EY). destruct (FJ _ _ _ S') as [(a & Ka & GA) WB]. rewrite <- (FP _ _ _ _ S') in PY. eapply J_intro; [exact GS'|exact PY|exact EY|exact Ka|exact GA|exact WB].
  - apply bind_inv in S as (fr & F & S). match type of S with Ok ?x = _ => assert (st' = x) as -> by congruence end. cbn [in_s] in *. destruct (GJ _ F) as [GA GB]. destruct GS as [(n & AL) _].
    match type of GS' with G (insert_level A ?s ?loc ?h) => assert (IG : forall k, nth_error (get (insert_level A s loc h) k) (place loc n) = Some (h k))
      by (intros k; destruct k; cbn [get insert_level s_pres s_hght s_temp s_dwpt s_drct s_sped]; apply insert_at; [apply (AL PRES)|apply (AL HGHT)|apply (AL TEMP)|apply (AL DWPT)|apply (AL DRCT)|apply (AL SPED)]) end.
    destruct k12 as (N1 & N2 & _). assert (E1 : match k1 with PRES => p | _ => fr k1 end = fr k1) by (destruct k1; congruence). assert (E2 : match k2 with PRES => p | _ => fr k2 end = fr k2) by (destruct k2; congruence).
    eapply J_intro; [exact GS'|apply IG| |rewrite IG, E1; reflexivity|exact GA|intros W; exists (fr k2); split; [rewrite IG, E2; reflexivity|apply GB, W]]. cbv beta iota.
    exact PP.
Qed.
Lemma part_takes n st st' : n <> 0%nat -> (forall j y, (j < i)%nat -> val A ps name PRES j = Ok y -> n_lt A (n_abs A y) p = false) -> G (in_s A st) -> n_lt A (in_pbot A st) p = false ->
  (forall v st i st' pl, given m (v PRES) -> given m (v HGHT) -> KE m False (w = true) v (in_s A st) -> insert_step A m pl u f g st i = Ok st' -> KE m False (w = true) v (in_s A st')) ->
  insert_part A m ps name n u f g st = Ok st' -> J (in_s A st').
Proof.
  intros NZ B GS B0 KS S. unfold insert_part in S. destruct n; [congruence|]. apply bind_inv in S as (pl & P & S).
  assert (LI : (i < length pl)%nat) by (apply nth_error_Some; unfold val in VX; rewrite P in VX; cbn [bind] in VX; apply at_ok in VX; congruence).
  apply (foldM_range' _ (fun k st => G (in_s A st) /\ ((k <= i)%nat -> n_lt A (in_pbot A st) p = false) /\ ((i < k)%nat -> J (in_s A st)))) in S; [apply S; exact LI|lia|split; [exact GS|split; [intros _; exact B0|lia]]|].
  intros k s1 s2 LK (G1 & B1 & J1) S1. split; [eapply step_G; eauto|]. split.
  - intros LE. destruct (step_pbot _ _ _ _ P S1) as [->|(y & V & ->)]; [apply B1; lia|]. eapply B; [|exact V]. lia.
  - intros LE. destruct (Nat.eq_dec k i) as [->|NE]; [eapply step_takes; eauto|]. assert (JJ : J (in_s A s1)) by (apply J1; lia). revert JJ. apply J_map. intros v GP GZ K. eapply KS; eauto.
Qed.
End Part.
Lemma fresh_trop_GG name i h : fresh_trop A m ps name i = Ok h -> (h k1 = m /\ h k2 = m) \/ val A ps name k1 i = Ok (h k1) /\ val A ps name k2 i = Ok (h k2).
Proof.
  unfold fresh_trop. intros H. apply bind_inv in H as (t & T & H). apply bind_inv in H as (d & D & H). apply bind_inv in H as (r & R & H). apply bind_inv in H as (v & V & H).
  match type of H with Ok ?z = _ => assert (h = z) as -> by congruence end. right. unfold k1, k2. destruct w; auto.
Qed.
Lemma fresh_sigt_GG name i h : fresh_sigt A m ps name i = Ok h -> (h k1 = m /\ h k2 = m) \/ val A ps name k1 i = Ok (h k1) /\ val A ps name k2 i = Ok (h k2).
Proof.
  unfold fresh_sigt. intros H. apply bind_inv in H as (t & T & H). apply bind_inv in H as (d & D & H).
  match type of H with Ok ?z = _ => assert (h = z) as -> by congruence end. unfold k1, k2. destruct w; auto.
Qed.
Lemma fresh_wind_GG name i h : fresh_wind A m ps name i = Ok h -> (h k1 = m /\ h k2 = m) \/ val A ps name k1 i = Ok (h k1) /\ val A ps name k2 i = Ok (h k2).
Proof.
  unfold fresh_wind. intros H. apply bind_inv in H as (t & T & H). apply bind_inv in H as (d & D & H).
  match type of H with Ok ?z = _ => assert (h = z) as -> by congruence end. unfold k1, k2. destruct w; auto.
Qed.
Lemma trop_G name n st st' : G (in_s A st) -> trop_part A m ps name n st = Ok st' -> G (in_s A st').
Proof. apply part_G; [intros; eapply trop_found_G; eauto|apply fresh_trop_GG]. Qed.
Lemma sigt_G name n st st' : G (in_s A st) -> sigt_part A m ps name n st = Ok st' -> G (in_s A st').
Proof. apply part_G; [intros; eapply fill_temp_G; eauto|apply fresh_sigt_GG]. Qed.
Lemma wind_G name n st st' : G (in_s A st) -> wind_part A m ps name n st = Ok st' -> G (in_s A st').
Proof. apply part_G; [intros; eapply fill_wind_G; eauto|apply fresh_wind_GG]. Qed.
Lemma trop_J name n st st' : J (in_s A st) -> trop_part A m ps name n st = Ok st' -> J (in_s A st').
Proof. intros H S. revert H. apply J_map. intros v GP GZ K. eapply trop_keep; [exact GP|exact GZ|intros []|exact K|exact S]. Qed.
Lemma sigt_J name n st st' : J (in_s A st) -> sigt_part A m ps name n st = Ok st' -> J (in_s A st').
Proof. intros H S. revert H. apply J_map. intros v GP GZ K. eapply sigt_part_keep; [exact GP|exact GZ|exact K|exact S]. Qed.
Lemma wind_J name n st st' : J (in_s A st) -> wind_part A m ps name n st = Ok st' -> J (in_s A st').
Proof. intros H S. revert H. apply J_map. intros v GP GZ K. eapply wind_part_keep; [exact GP|exact GZ|exact K|exact S]. Qed.
(** The level of the part that is looked for *)
Definition target (name : string) (i : nat) : Prop :=
  (exists x, val A ps name PRES i = Ok x /\ p = n_abs A x) /\ n_eq A p (lit_ 0) = false /\
  (exists a b, val A ps name k1 i = Ok a /\ val A ps name k2 i = Ok b /\ given m a /\ (w = true -> given m b)) /\
  (forall j y, (j < i)%nat -> val A ps name PRES j = Ok y -> n_lt A (n_abs A y) p = false).
Lemma temp_target name i : w = false -> target name i -> has_temp A m ps name i = Ok true /\ exists t, val A ps name TEMP i = Ok t /\ given m t.
Proof.
  intros W (_ & _ & (a & b & V1 & V2 & GA & _) & _). unfold k1 in V1. rewrite W in V1. split; [|eauto]. unfold has_temp. rewrite V1. cbn [bind]. unfold ne, ismiss. unfold given in GA. rewrite GA. reflexivity.
Qed.
Lemma wind_target name i : w = true -> target name i -> has_wind A m ps name i = Ok true /\ exists d v, val A ps name DRCT i = Ok d /\ val A ps name SPED i = Ok v /\ given m d /\ given m v.
Proof.
  intros W (_ & _ & (a & b & V1 & V2 & GA & GB) & _). specialize (GB W). unfold k1 in V1. unfold k2 in V2. rewrite W in V1, V2. split; [|exists a, b; auto]. unfold has_wind. rewrite V1. cbn [bind]. unfold ne, ismiss. unfold given in *. rewrite GA. cbn [negb].
  rewrite V2. cbn [bind]. rewrite GB. reflexivity.
Qed.
Lemma trop_takes name i n st st' : w = false -> target name i -> n <> 0%nat -> G (in_s A st) -> n_lt A (in_pbot A st) p = false -> trop_part A m ps name n st = Ok st' -> J (in_s A st').
Proof.
  intros W T NZ GS B S. destruct (temp_target _ _ W T) as (U & t & VT & GT). destruct T as ((x & VX & PX) & PZ & _ & OR). assert (K1 : k1 = TEMP) by (unfold k1; rewrite W; reflexivity).
  eapply part_takes with (i := i) (x := x); [| | |exact VX|exact PX|exact PZ|exact U| | |exact NZ|exact OR|exact GS|exact B| |exact S].
  - intros; eapply trop_found_G; eauto.
  - intros s loc j s' HS. cbv beta in HS. apply bind_inv in HS as (s1 & S1 & HS). apply bind_inv in HS as (s2 & S2 & HS).
    apply set_pres in HS; [|discriminate]. apply fill_temp_pres in S1. apply fill_dir_pres in S2. congruence.
  - apply fresh_trop_GG.
  - intros s loc s' HS. apply bind_inv in HS as (s1 & S1 & HS). apply bind_inv in HS as (s2 & S2 & HS). rewrite K1. split; [|congruence]. destruct (fill_temp_given _ _ _ _ _ _ VT GT S1) as (a & Ka & GA). exists a. split; [|exact GA].
    apply set_get in HS as (? & _ & _ & O). rewrite O by discriminate. assert (E : get s2 TEMP = get s1 TEMP); [|rewrite E; exact Ka].
    unfold fill_dir in S2. apply bind_inv in S2 as (d & _ & S2). destruct (ismiss A m d); [|congruence]. apply bind_inv in S2 as (d' & _ & S2). apply bind_inv in S2 as (s3 & S3 & S2). apply bind_inv in S2 as (v' & _ & S2).
    apply set_get in S2 as (? & _ & _ & O2). apply set_get in S3 as (? & _ & _ & O3). rewrite O2, O3 by discriminate. reflexivity.
  - intros h F. unfold fresh_trop in F. apply bind_inv in F as (t' & T' & F). do 3 (apply bind_inv in F as (? & _ & F)). match type of F with Ok ?z = _ => assert (h = z) as -> by congruence end. rewrite K1. split; [congruence|congruence].
  - intros v st0 j st0' pl GP GZ K S1. eapply insert_step_keep; [exact GP|exact GZ| |exact K|exact S1]. intros s a b s' y K0 _ _ HS. cbv beta in HS.
    apply bind_inv in HS as (s1 & H1 & HS). apply bind_inv in HS as (s2 & H2 & HS).
    destruct (fill_temp_keep m False (w = true) v GP GZ _ _ _ _ _ _ K0 H1) as [Ka L1]. destruct (fill_dir_keep m False (w = true) v GP GZ _ _ _ _ _ _ Ka H2) as [Kb L2].
    split; [eapply EL_set; [apply Kb|exact HS]|]. destruct K0 as [_ (jj & L)]. exists jj. eapply lev_set; [exact GP|exact GZ|apply L2, L1, L|exact HS|]. intros [[] _].
Qed.
Lemma sigt_takes name i n st st' : w = false -> target name i -> n <> 0%nat -> G (in_s A st) -> n_lt A (in_pbot A st) p = false -> sigt_part A m ps name n st = Ok st' -> J (in_s A st').
Proof.
  intros W T NZ GS B S. destruct (temp_target _ _ W T) as (U & t & VT & GT). destruct T as ((x & VX & PX) & PZ & _ & OR). assert (K1 : k1 = TEMP) by (unfold k1; rewrite W; reflexivity).
  eapply part_takes with (i := i) (x := x); [| | |exact VX|exact PX|exact PZ|exact U| | |exact NZ|exact OR|exact GS|exact B| |exact S].
  - intros; eapply fill_temp_G; eauto.
  - intros s loc j s' HS. eapply fill_temp_pres, HS.
  - apply fresh_sigt_GG.
  - intros s loc s' HS. rewrite K1. split; [|congruence]. exact (fill_temp_given _ _ _ _ _ _ VT GT HS).
  - intros h F. unfold fresh_sigt in F. apply bind_inv in F as (t' & T' & F). do 1 (apply bind_inv in F as (? & _ & F)). match type of F with Ok ?z = _ => assert (h = z) as -> by congruence end. rewrite K1. split; [congruence|congruence].
  - intros v st0 j st0' pl GP GZ K S1. eapply insert_step_keep; [exact GP|exact GZ| |exact K|exact S1]. intros s a b s' y K0 _ _ HS. eapply fill_temp_keep; eauto.
Qed.
Lemma wind_takes name i n st st' : w = true -> target name i -> n <> 0%nat -> G (in_s A st) -> n_lt A (in_pbot A st) p = false -> wind_part A m ps name n st = Ok st' -> J (in_s A st').
Proof.
  intros W T NZ GS B S. destruct (wind_target _ _ W T) as (U & d & v & VD & VV & GD & GV). destruct T as ((x & VX & PX) & PZ & _ & OR).
  assert (K1 : k1 = DRCT) by (unfold k1; rewrite W; reflexivity). assert (K2 : k2 = SPED) by (unfold k2; rewrite W; reflexivity).
  eapply part_takes with (i := i) (x := x); [| | |exact VX|exact PX|exact PZ|exact U| | |exact NZ|exact OR|exact GS|exact B| |exact S].
  - intros; eapply fill_wind_G; eauto.
  - intros s loc j s' HS. eapply fill_wind_pres, HS.
  - apply fresh_wind_GG.
  - intros s loc s' HS. rewrite K1, K2. destruct (fill_wind_given _ _ _ _ _ _ _ VD VV GD GV HS) as [X Y]. split; [exact X|intros _; exact Y].
  - intros h F. unfold fresh_wind in F. apply bind_inv in F as (t' & T' & F). apply bind_inv in F as (t2 & T2 & F). match type of F with Ok ?z = _ => assert (h = z) as -> by congruence end. rewrite K1, K2. split; [congruence|intros _; congruence].
  - intros v0 st0 j st0' pl GP GZ K S1. eapply insert_step_keep; [exact GP|exact GZ| |exact K|exact S1]. intros s a b s' y K0 _ _ HS. eapply fill_wind_keep; eauto.
Qed.
Lemma trop_pbot name n st st' : (forall j x, val A ps name PRES j = Ok x -> n_lt A (n_abs A x) p = false) -> n_lt A (in_pbot A st) p = false -> trop_part A m ps name n st = Ok st' -> n_lt A (in_pbot A st') p = false.
Proof. apply part_pbot. Qed.
Lemma sigt_pbot name n st st' : (forall j x, val A ps name PRES j = Ok x -> n_lt A (n_abs A x) p = false) -> n_lt A (in_pbot A st) p = false -> sigt_part A m ps name n st = Ok st' -> n_lt A (in_pbot A st') p = false.
Proof. apply part_pbot. Qed.
Lemma wind_pbot name n st st' : (forall j x, val A ps name PRES j = Ok x -> n_lt A (n_abs A x) p = false) -> n_lt A (in_pbot A st) p = false -> wind_part A m ps name n st = Ok st' -> n_lt A (in_pbot A st') p = false.
Proof. apply part_pbot. Qed.

(** ** Both parts of a kind *)
Definition target2 (n1 n2 : string) (c1 c2 : nat) (name : string) (i : nat) : Prop :=
  target name i /\ (name = n1 /\ c1 <> 0%nat \/ name = n2 /\ c2 <> 0%nat /\ forall j y, val A ps n1 PRES j = Ok y -> n_lt A (n_abs A y) p = false).
Lemma trop_pass n1 n2 c1 c2 name i st st1 st2 : w = false -> target2 n1 n2 c1 c2 name i -> G (in_s A st) -> n_lt A (in_pbot A st) p = false ->
  trop_part A m ps n1 c1 st = Ok st1 -> trop_part A m ps n2 c2 st1 = Ok st2 -> J (in_s A st2).
Proof.
  intros W (T & [(-> & C)|(-> & C & B)]) GS B0 S1 S2; [eapply trop_J; [|exact S2]; eapply trop_takes; eauto|].
  eapply trop_takes; [exact W|exact T|exact C|eapply trop_G; eauto|eapply trop_pbot; eauto|exact S2].
Qed.
Lemma sigt_pass n1 n2 c1 c2 name i st st1 st2 : w = false -> target2 n1 n2 c1 c2 name i -> G (in_s A st) -> n_lt A (in_pbot A st) p = false ->
  sigt_part A m ps n1 c1 st = Ok st1 -> sigt_part A m ps n2 c2 st1 = Ok st2 -> J (in_s A st2).
Proof.
  intros W (T & [(-> & C)|(-> & C & B)]) GS B0 S1 S2; [eapply sigt_J; [|exact S2]; eapply sigt_takes; eauto|].
  eapply sigt_takes; [exact W|exact T|exact C|eapply sigt_G; eauto|eapply sigt_pbot; eauto|exact S2].
Qed.
Lemma wind_pass n1 n2 c1 c2 name i st st1 st2 : w = true -> target2 n1 n2 c1 c2 name i -> G (in_s A st) -> n_lt A (in_pbot A st) p = false ->
  wind_part A m ps n1 c1 st = Ok st1 -> wind_part A m ps n2 c2 st1 = Ok st2 -> J (in_s A st2).
Proof.
  intros W (T & [(-> & C)|(-> & C & B)]) GS B0 S1 S2; [eapply wind_J; [|exact S2]; eapply wind_takes; eauto|].
  eapply wind_takes; [exact W|exact T|exact C|eapply wind_G; eauto|eapply wind_pbot; eauto|exact S2].
Qed.

(** ** What comes before *)
Lemma G_single s q : EL s -> s_pres s = [q] -> n_eq A q p = false -> G s.
Proof.
  intros E P NE. split; [exact E|]. intros j y a b PY EY. cbn [get] in PY. rewrite P in PY. destruct j as [|j]; [|destruct j; discriminate]. cbn in PY. assert (y = q) as -> by congruence. congruence.
Qed.
Lemma G_append name (q : part A) i (s s' : sounding N) pr : assoc name ps = Some q -> NoDup (map fst q) -> (forall k, In (key_name k) (map fst q)) -> val A ps name PRES i = Ok pr ->
  G s -> EL s' -> append_level A q i s = Ok s' -> G s'.
Proof.
  intros Q ND C VP [(n & AL) SR] (n' & AL') S. split; [exists n'; exact AL'|]. pose proof (append_get m False True (fun _ => p) PM PM _ _ _ _ ND S) as AG.
  assert (N' : n' = Datatypes.S n).
  { rewrite <- (AL' PRES), (AG PRES), app_length, (AL PRES). unfold val, arr, arr_of in VP. rewrite Q in VP. destruct (assoc (key_name PRES) q) as [l|]; [|discriminate]. cbn [bind] in VP. apply at_ok in VP. rewrite VP. cbn. lia. }
  assert (V : forall k, exists x, get s' k = get s k ++ [x] /\ val A ps name k i = Ok x).
  { intros k. specialize (AG k). unfold val, arr, arr_of. rewrite Q. destruct (assoc (key_name k) q) as [l|] eqn:AS.
    - cbn [bind]. destruct (nth_error l i) as [x|] eqn:X.
      + exists x. split; [exact AG|]. unfold at_. rewrite X. reflexivity.
      + exfalso. pose proof (AL' k) as L. rewrite AG, app_length, (AL k) in L. cbn in L. lia.
    - exfalso. pose proof (AL' k) as L. rewrite AG, app_length, (AL k) in L. cbn in L. lia. }
  intros j y a b PY EY Ka Kb GA. destruct (V PRES) as (x & GX & VX). destruct (V k1) as (x1 & G1 & V1). destruct (V k2) as (x2 & G2 & V2). rewrite GX in PY. rewrite G1 in Ka. rewrite G2 in Kb.
  assert (LJ : (j < n \/ j = n)%nat).
  { assert (j < length (get s PRES ++ [x]))%nat by (apply nth_error_Some; congruence). rewrite app_length, (AL PRES) in H. cbn in H. lia. }
  destruct LJ as [LJ| ->].
  - rewrite nth_error_app1 in PY, Ka, Kb by (rewrite AL; exact LJ). eapply SR; eauto.
  - rewrite nth_error_app2, AL, Nat.sub_diag in PY, Ka, Kb by (rewrite AL; lia). cbn in PY, Ka, Kb. exists name, i, x. assert (a = x1) as -> by congruence. assert (b = x2) as -> by congruence. assert (y = x) as -> by congruence.
    split; [exact VX|]. split; [apply ABSE, EY|auto].
Qed.
Lemma man_step_G name (q : part A) count st i st' : assoc name ps = Some q -> NoDup (map fst q) -> (forall k, In (key_name k) (map fst q)) ->
  G (fst (fst st)) -> man_step A m q count st i = Ok st' -> G (fst (fst st')).
Proof.
  intros Q ND C GS S. pose proof (man_step_EL _ _ _ _ _ _ ND C (proj1 GS) S) as E'. destruct st as [[s plast] bgl]. unfold man_step in S. cbn [fst] in *.
  apply bind_inv in S as (pl & PL & S). apply bind_inv in S as (pr & PR & S). apply bind_inv in S as (b & _ & S). destruct b.
  - apply bind_inv in S as (s' & S1 & S). apply bind_inv in S as (last & _ & S). assert (st' = (s', last, bgl)) as -> by congruence. eapply G_append; eauto.
    unfold val, arr. rewrite Q, PL. exact PR.
  - destruct count.
    + apply bind_inv in S as (p0 & _ & S). match type of S with Ok ?x = _ => assert (st' = x) as -> by congruence end. exact GS.
    + assert (st' = (s, plast, bgl)) as -> by congruence. exact GS.
Qed.
Lemma mandatory_G n n' (s s' : sounding N) bgl : (n <> 0%nat -> exists q, assoc "TTAA" ps = Some q /\ NoDup (map fst q) /\ forall k, In (key_name k) (map fst q)) ->
  (n' <> 0%nat -> exists q, assoc "TTCC" ps = Some q /\ NoDup (map fst q) /\ forall k, In (key_name k) (map fst q)) ->
  G s -> mandatory A m ps n n' s = Ok (s', bgl) -> G s'.
Proof.
  intros CA CC GS S. unfold mandatory in S. apply bind_inv in S as (p0 & _ & S). cbv zeta in S. apply bind_inv in S as ([[sa pa] ba] & FA & S). apply bind_inv in S as ([[sc pc] bc] & FC & S). assert (s' = sc) as -> by congruence. clear S.
  assert (GA : G sa).
  { destruct n; [cbn in FA; assert (sa = s) as -> by congruence; exact GS|]. destruct (CA ltac:(discriminate)) as (q & Q & ND & C). unfold part_of in FA. rewrite Q in FA.
    apply (foldM_plain _ (fun st => G (fst (fst st)))) in FA; [exact FA|exact GS|]. intros; eapply man_step_G; eauto. }
  destruct n'; [cbn in FC; assert (sc = sa) as -> by congruence; exact GA|]. destruct (CC ltac:(discriminate)) as (q & Q & ND & C). unfold part_of in FC. rewrite Q in FC.
  apply (foldM_plain _ (fun st => G (fst (fst st)))) in FC; [exact FC|exact GA|]. intros; eapply man_step_G; eauto.
Qed.
Lemma man_wind_G name n n' s s' : G s -> man_wind A m ps name n n' s = Ok s' -> G s'.
Proof.
  intros K S. unfold man_wind in S. destruct (_ && _) in S; [|assert (s' = s) as -> by congruence; exact K]. apply bind_inv in S as (pl & PL & S).
  apply (foldM_plain _ G) in S; [exact S|exact K|]. clear K S s s'. intros s i s' _ GS S. apply bind_inv in S as (pr & PR & S).
  destruct (existsb _ _) in S; [|assert (s' = s) as -> by congruence; exact GS].
  apply bind_inv in S as (loc & I & S). apply bind_inv in S as (d & _ & S).
  destruct (ismiss A m d) eqn:M; [|assert (s' = s) as -> by congruence; exact GS].
  apply bind_inv in S as (d' & D' & S). apply bind_inv in S as (s1 & S1 & S). apply bind_inv in S as (v' & V' & S). apply index_ok in I as (q & IQ & EQ).
  eapply (winds_G name loc i s s1 s' pr); eauto. unfold val. rewrite PL. exact PR.
Qed.
Lemma moist_G s s' : G s -> interp_moist_height A s m = Ok s' -> G s'.
Proof.
  intros [E SR] S. split; [eapply moist_EL; eauto|]. apply moist_height_spec in S as (n & K & _). destruct k12 as (N1 & N2 & _ & N3 & N4).
  intros j y a b. rewrite !K by congruence. apply SR.
Qed.
Lemma moist_J s s' : J s -> interp_moist_height A s m = Ok s' -> J s'.
Proof. intros K S. revert K. apply J_map. intros v GP GZ K. eapply moist_keep; eauto. Qed.
Lemma logp_J fuel s s' : J s -> interp_logp_height A fuel s m = Ok s' -> J s'.
Proof. intros K S. revert K. apply J_map. intros v GP GZ K. eapply logp_keep; eauto. Qed.
Lemma logpp_J s s' : J s -> interp_logp_pressure A s m = Ok s' -> J s'.
Proof. intros K S. revert K. apply J_map. intros v GP GZ K. eapply logpp_keep; eauto. Qed.
Lemma miss_J s s' : J s -> interp_missing_data A s m = Ok s' -> J s'.
Proof. intros K S. revert K. apply J_map. intros v GP GZ K. eapply miss_keep; eauto. Qed.
Lemma below_J b n size s s' : J s -> below_ground A m ps b n size s = Ok s' -> J s'.
Proof. intros K S. revert K. apply J_map. intros v GP GZ K. eapply below_keep; eauto. Qed.
Lemma J_level s : J s -> exists a b, rep a b /\ given m a /\ (w = true -> given m b) /\ level_with m s p k1 k2 a b.
Proof.
  intros (y & a & b & Q & R & GA & GB & _ & (j & L)). exists a, b. repeat (split; [assumption|]). exists j, y. split; [apply (L PRES I)|]. split; [exact Q|].
  unfold k1, k2, lev, sv, vof in *. destruct w.
  - specialize (GB eq_refl). split; [apply (L DRCT); cbn; auto|intros _; apply (L SPED); cbn; auto].
  - split; [apply (L TEMP); cbn; auto|intros GB'; apply (L DWPT); cbn; auto].
Qed.
End R.

(** ** Pressures stored as heights *)
Section Coord.
Context {A : arith}.
Notation N := (num A).
Variable m : N.
Lemma coord_cases (ps ps' : parts_t A) name n b : wind_coord A m ps name n = Ok (b, ps') ->
  ps' = ps /\ (b = true \/ exists p l, assoc name ps = Some p /\ assoc "PRES" p = Some l) \/
  exists p h, assoc name ps = Some p /\ assoc "PRES" p = None /\ assoc "HGHT" p = Some h /\ assoc name ps' = Some (p ++ [("PRES", h)]).
Proof.
  intros H. unfold wind_coord in H. destruct n; [left; split; [congruence|left; congruence]|]. destruct (assoc name ps) as [p|] eqn:P; [|discriminate].
  destruct (assoc "PRES" p) as [l|] eqn:PP; [left; split; [congruence|right; eauto]|]. apply bind_inv in H as (h & HH & H).
  destruct (existsb _ h) in H; [|left; split; [congruence|left; congruence]]. match type of H with Ok (_, ?x) = _ => assert (ps' = x) as -> by congruence end. clear H.
  right. exists p, h. split; [reflexivity|]. split; [exact PP|]. split; [unfold arr_of in HH; cbn [key_name] in HH; destruct (@assoc (list (num A)) "HGHT" p); [f_equal; congruence|discriminate]|].
  clear - P. unfold assoc in *. induction ps as [|[nm q] ps IH]; [discriminate|]. cbn [map find fst snd] in *. destruct (String.eqb nm name) eqn:N1; cbn [fst snd] in *; rewrite N1; [cbn [snd]; injection P as ->; reflexivity|apply IH, P].
Qed.
Lemma assoc_snoc (q : part A) k h : assoc k (q ++ [("PRES", h)]) = match assoc k q with Some l => Some l | None => if String.eqb "PRES" k then Some h else None end.
Proof. unfold assoc. induction q as [|[a c] q IH]; cbn [find app fst snd]; [destruct (String.eqb "PRES" k); reflexivity|]. destruct (String.eqb a k); [reflexivity|exact IH]. Qed.
(** The other values are as before, the pressures those of [pressure] *)
Definition same_values (ps ps2 : parts_t A) : Prop := forall name k i, k <> PRES -> val A ps2 name k i = val A ps name k i.
Lemma coord_values (ps ps' : parts_t A) name n b : wind_coord A m ps name n = Ok (b, ps') -> same_values ps ps'.
Proof.
  intros H o k i NE. destruct (string_dec o name) as [->|NO]; [|apply val_other; eapply wind_coord_other; eauto].
  destruct (coord_cases _ _ _ _ _ H) as [(-> & _)|(p & h & P & _ & _ & P')]; [reflexivity|]. unfold val, arr, arr_of. rewrite P, P', assoc_snoc.
  destruct (assoc (key_name k) p); [reflexivity|]. destruct k; try reflexivity. congruence.
Qed.
Lemma coord_back (ps ps1 ps2 : parts_t A) n1 n2 b1 b2 name i x : wind_coord A m ps "PPBB" n1 = Ok (b1, ps1) -> wind_coord A m ps1 "PPDD" n2 = Ok (b2, ps2) ->
  val A ps2 name PRES i = Ok x -> pressure ps name i x.
Proof.
  intros W1 W2 V. unfold val, arr in V.
  assert (K : forall pp : part A, assoc name ps = Some pp -> (l <- arr_of A pp PRES ;; at_ l i) = Ok x -> pressure ps name i x).
  { intros pp P HV. apply bind_inv in HV as (l & AR & HV). apply at_ok in HV. exists pp, l. split; [exact P|]. split; [exact HV|]. left. unfold arr_of in AR. cbn [key_name] in AR. destruct (assoc "PRES" pp); congruence. }
  assert (D : forall o ps0 ps0' n b, (o = "PPBB" \/ o = "PPDD") -> wind_coord A m ps0 o n = Ok (b, ps0') -> assoc o ps0 = assoc o ps -> name = o ->
     (l <- match assoc o ps0' with Some p => arr_of A p PRES | None => Err KeyError end ;; at_ l i) = Ok x -> pressure ps name i x).
  { clear V. intros o ps0 ps0' n b OO W E -> V. destruct (coord_cases _ _ _ _ _ W) as [(-> & _)|(p & h & P & PN & PH & P')].
    - rewrite E in V. destruct (assoc o ps) as [pp|] eqn:P; [|discriminate]. eapply K; eauto.
    - rewrite P' in V. unfold arr_of in V. cbn [key_name] in V. rewrite assoc_snoc, PN in V. cbn in V. exists p, h. split; [congruence|]. split; [apply at_ok, V|]. right. auto. }
  destruct (string_dec name "PPDD") as [->|ND].
  - eapply (D "PPDD"); [auto|exact W2|eapply wind_coord_other; [exact W1|discriminate]|reflexivity|exact V].
  - rewrite (wind_coord_other m _ _ _ _ _ name W2 ND) in V. destruct (string_dec name "PPBB") as [->|NB]; [eapply (D "PPBB"); [auto|exact W1|reflexivity|reflexivity|exact V]|].
    rewrite (wind_coord_other m _ _ _ _ _ name W1 NB) in V. destruct (assoc name ps) as [pp|] eqn:P; [|discriminate]. eapply K; eauto.
Qed.
Lemma coord_forth (ps ps1 ps2 : parts_t A) n1 n2 b1 b2 name i x : wind_coord A m ps "PPBB" n1 = Ok (b1, ps1) -> wind_coord A m ps1 "PPDD" n2 = Ok (b2, ps2) ->
  (name = "PPBB" -> b1 = false) -> (name = "PPDD" -> b2 = false) -> pressure ps name i x -> val A ps2 name PRES i = Ok x.
Proof.
  intros W1 W2 B1 B2 (p & l & P & X & C).
  assert (K : forall q, assoc name ps2 = Some q -> assoc "PRES" q = Some l -> val A ps2 name PRES i = Ok x).
  { intros q Q PQ. unfold val, arr, arr_of. rewrite Q. cbn [key_name]. rewrite PQ. cbn [bind]. unfold at_. rewrite X. reflexivity. }
  assert (D : forall o ps0 ps0' n b, wind_coord A m ps0 o n = Ok (b, ps0') -> b = false -> assoc o ps0 = Some p -> (assoc "PRES" p = Some l \/ assoc "PRES" p = None /\ assoc "HGHT" p = Some l) -> exists q, assoc o ps0' = Some q /\ assoc "PRES" q = Some l).
  { clear - m. intros o ps0 ps0' n b W B P C. destruct (coord_cases _ _ _ _ _ W) as [(-> & [E|(p' & l' & P' & L')])|(p' & h & P' & PN & PH & E)]; [congruence| |].
    - exists p. split; [exact P|]. destruct C as [C|[C _]]; [exact C|congruence].
    - assert (p' = p) as -> by congruence. eexists. split; [exact E|]. rewrite assoc_snoc, PN. cbn. destruct C as [C|[_ C]]; congruence. }
  destruct (string_dec name "PPDD") as [->|ND].
  - destruct (D "PPDD" _ _ _ _ W2 (B2 eq_refl)) as (q & Q & PQ); [rewrite (wind_coord_other m _ _ _ _ _ "PPDD" W1) by discriminate; exact P|tauto|eapply K; eauto].
  - destruct (string_dec name "PPBB") as [->|NB].
    + destruct (D "PPBB" _ _ _ _ W1 (B1 eq_refl)) as (q & Q & PQ); [exact P|tauto|]. eapply K; [|exact PQ]. rewrite (wind_coord_other m _ _ _ _ _ "PPBB" W2) by discriminate. exact Q.
    + eapply K; [rewrite (wind_coord_other m _ _ _ _ _ name W2 ND), (wind_coord_other m _ _ _ _ _ name W1 NB); exact P|]. tauto.
Qed.
End Coord.

(** ** The whole *)
Section Main.
Context {A : arith} {ok : num A -> Prop} (O : ordered A ok).
Notation N := (num A).
Variable m : N.
Hypothesis OM : ok m.
Hypothesis ABSM : forall x, ok x -> n_eq A (n_abs A x) m = false.
Hypothesis M0 : n_lt A m (lit_ 0) = true.
Hypothesis O0 : ok (lit_ 0).
Hypothesis EQT : forall x y z : N, n_eq A x y = true -> n_eq A x z = true -> n_eq A y z = true.
Hypothesis ABSE : forall x r : N, n_eq A x (n_abs A r) = true -> n_eq A (n_abs A x) (n_abs A r) = true.
Let QT : N -> Prop := fun _ => True.
Let PI := pinv (ok := ok) m QT.
Lemma levels_nz (ps : parts_t A) name k n i x : levels A ps name k = Ok n -> val A ps name k i = Ok x -> n <> 0%nat.
Proof. clear. intros L V. pose proof (levels_pos _ _ _ _ _ _ L V). lia. Qed.
Lemma sum_nz a b : (1 <=? a + b)%nat = false -> a = 0%nat /\ b = 0%nat.
Proof. clear. intros H. apply Nat.leb_gt in H. lia. Qed.
Lemma head_not_lower p0 p l h : ok p -> PI p0 l -> n_lt A p p0 = true -> at_ l 0 = Ok h -> given m h /\ n_lt A h p = false.
Proof.
  intros OP (D & OK & GV & I & _) L H. apply at_ok in H. destruct l as [|y l]; [discriminate|]. cbn in H. assert (y = h) as -> by congruence.
  inversion_clear OK as [|? ? OH OK']. inversion_clear GV as [|? ? GH GV']. split; [exact GH|]. destruct I as [->|I]; [apply (MergeOrder.lt_asym O); auto|].
  inversion_clear D as [|? ? _ F]. rewrite Forall_forall in F, OK'. pose proof (F _ I) as L2. apply (MergeOrder.lt_asym O); auto. eapply (o_tr A ok O); [exact OP|apply OK', I|exact OH|exact L|exact L2].
Qed.
Lemma start_pbot_not_lower ps name p0 p s pb : ok p -> PI p0 (s_pres s) -> n_lt A p p0 = true -> start_pbot A m ps name s = Ok pb -> n_lt A pb p = false.
Proof.
  intros OP PV L H. unfold start_pbot in H. apply bind_inv in H as (h & HH & H). destruct (head_not_lower _ _ _ _ OP PV L HH) as [GH LH]. unfold ne, ismiss in H. unfold given in GH. rewrite GH in H. cbn in H. congruence.
Qed.
Lemma start_wind_not_lower p0 p s pb : ok p -> PI p0 (s_pres s) -> n_lt A p p0 = true -> start_wind A m s = Ok pb -> n_lt A pb p = false.
Proof.
  intros OP PV L H. unfold start_wind in H. apply bind_inv in H as (h & HH & H). destruct (head_not_lower _ _ _ _ OP PV L HH) as [GH LH]. unfold ne, ismiss in H. unfold given in GH. rewrite GH in H. cbn in H. congruence.
Qed.
Lemma eq_refl_ok y : ok y -> n_eq A y y = true.
Proof. intros OY. apply (o_tot A ok O); auto; apply (o_irr A ok O), OY. Qed.
Lemma lower_not_equal p y : ok p -> ok y -> n_lt A p y = true -> n_eq A y p = false.
Proof.
  intros OP OY L. destruct (n_eq A y p) eqn:E; [|reflexivity]. pose proof (EQT _ _ _ E (eq_refl_ok y OY)) as E'. rewrite (o_eq A ok O p y OP OY E') in L. discriminate.
Qed.

Theorem merge_report (w : bool) fuel (ps : parts_t A) selv (s : sounding N) parts name i p a b :
  numbers ok ps -> dictionary ps "TTAA" -> dictionary ps "TTCC" -> complete ps "TTCC" -> surface_reported m ps -> (w = true -> on_pressure m ps "PPBB") -> (w = true -> on_pressure m ps "PPDD") ->
  In parts (if w then wind_parts else temperature_parts) -> in_order ps parts name i p -> n_eq A p (lit_ 0) = false -> above_surface m ps p ->
  val A ps name (k1 w) i = Ok a -> val A ps name (k2 w) i = Ok b -> given m a -> (w = true -> given m b) ->
  merge_sounding A m fuel ps selv = Ok (Some s) ->
  exists a' b', reported ps p (k1 w) (k2 w) a' b' /\ given m a' /\ (w = true -> given m b') /\ level_with m s p (k1 w) (k2 w) a' b'.
Proof.
  intros NB D1 D2 C2 SR OB OD IP ((x & PX & EX) & IN & IO) PZ AS VA VB GA GB H. unfold merge_sounding in H.
  apply bind_inv in H as (n_man & LM & H). do 1 (apply bind_inv in H as (? & _ & H)). apply bind_inv in H as (n_trop & LTR & H). apply bind_inv in H as (n_mx & LMX & H). apply bind_inv in H as (n_sigt & LT & H). apply bind_inv in H as (n_sigw & LB & H).
  apply bind_inv in H as (n_above & LA & H). apply bind_inv in H as (n_trc & LTC & H). apply bind_inv in H as (n_mxc & LMC & H). apply bind_inv in H as (n_ttdd & LTD & H). apply bind_inv in H as (n_dd & LD & H). do 1 (apply bind_inv in H as (? & _ & H)).
  destruct (_ =? 0)%nat in H; [discriminate|].
  apply bind_inv in H as ([bbz ps1] & W1 & H). apply bind_inv in H as ([ddz ps2] & W2 & H).
  assert (SA : forall o, o <> "PPBB" -> o <> "PPDD" -> assoc o ps2 = assoc o ps).
  { intros o O1 O2. rewrite (wind_coord_other m _ _ _ _ _ o W2 O2). apply (wind_coord_other m _ _ _ _ _ o W1 O1). }
  assert (T1 := SA "TTAA" ltac:(discriminate) ltac:(discriminate)). assert (T2 := SA "TTCC" ltac:(discriminate) ltac:(discriminate)). assert (T3 := SA "TTBB" ltac:(discriminate) ltac:(discriminate)).
  assert (TD : assoc "PPDD" ps1 = assoc "PPDD" ps) by (apply (wind_coord_other m _ _ _ _ _ "PPDD" W1); discriminate).
  assert (LD1 : levels A ps1 "PPDD" SPED = Ok n_dd) by (unfold levels; rewrite TD; exact LD).
  assert (ZB : w = true -> bbz = true -> n_sigw = 0%nat) by (intros CW; exact (coord_on_pressure m _ _ _ _ _ _ LB (OB CW) W1)).
  assert (ZD : w = true -> ddz = true -> n_dd = 0%nat) by (intros CW; exact (coord_on_pressure m _ _ _ _ _ _ LD1 (on_pressure_other m _ _ _ TD (OD CW)) W2)).
  assert (BB : bbz = false -> on_pressure m ps "PPBB") by (intros ->; exact (coord_false m _ _ _ _ W1)).
  pose proof (numbers_coord m _ _ _ _ _ NB W1) as NB1. pose proof (numbers_coord m _ _ _ _ _ NB1 W2) as NB2.
  assert (DA : dictionary ps2 "TTAA") by (intros q Q; apply D1; congruence). assert (DC : dictionary ps2 "TTCC") by (intros q Q; apply D2; congruence).
  assert (SV : same_values ps ps2) by (intros o k j NE; rewrite (coord_values m _ _ _ _ _ W2 o k j NE); apply (coord_values m _ _ _ _ _ W1 o k j NE)).
  assert (K12 := k12 w). destruct K12 as (N1 & N2 & _).
  (* where the level is *)
  assert (VX : val A ps2 name PRES i = Ok x).
  { eapply (coord_forth m ps ps1 ps2); [exact W1|exact W2| | |exact PX]; intros ->.
    - destruct bbz; [|reflexivity]. exfalso. destruct w; cbn in VB; [pose proof (levels_pos _ _ _ _ _ _ LB VB) as L; rewrite (ZB eq_refl eq_refl) in L; lia|]. cbn in IP. destruct IP as [<-|[<-|[]]]; cbn in IN; destruct IN as [?|[? _]]; discriminate.
    - destruct ddz; [|reflexivity]. exfalso. destruct w; cbn in VB; [pose proof (levels_pos _ _ _ _ _ _ LD VB) as L; rewrite (ZD eq_refl eq_refl) in L; lia|]. cbn in IP. destruct IP as [<-|[<-|[]]]; cbn in IN; destruct IN as [?|[? _]]; discriminate. }
  assert (OX : ok x) by (eapply numbers_val; eassumption). assert (OP : ok p) by (rewrite EX; apply (o_abs A ok O), OX).
  assert (PM : n_eq A p m = false) by (rewrite EX; apply ABSM, OX). assert (PP := eq_refl_ok p OP). assert (MM := eq_refl_ok m OM).
  assert (AB : forall y, n_eq A y p = true -> n_eq A (n_abs A y) p = true) by (rewrite EX; intros y; apply ABSE).
  assert (BK : forall nm j y, val A ps2 nm PRES j = Ok y -> pressure ps nm j y) by (intros nm j y; eapply (coord_back m ps ps1 ps2); [exact W1|exact W2]).
  assert (TG : target m w ps2 p name i).
  { split; [exists x; auto|]. split; [exact PZ|]. split; [exists a, b; rewrite !SV by assumption; auto|]. intros j y LJ V. eapply IO; [exact LJ|apply BK, V]. }
  assert (TG2 : forall c1 c2, (name = fst parts -> c1 <> 0%nat) -> (name = snd parts -> c2 <> 0%nat) -> target2 m w ps2 p (fst parts) (snd parts) c1 c2 name i).
  { intros c1 c2 Z1 Z2. split; [exact TG|]. destruct IN as [->|[-> IN]]; [left; auto|right; split; [reflexivity|]; split; [auto|]; intros j y V; eapply IN, BK, V]. }
  assert (VP : name <> "PPBB" -> name <> "PPDD" -> val A ps name PRES i = Ok x).
  { intros NN1 NN2. rewrite <- (val_other ps ps2 name PRES i (SA name NN1 NN2)). exact VX. }
  (* the surface *)
  apply bind_inv in H as (s1 & S1 & H). apply bind_inv in H as (s2 & S2 & H). apply bind_inv in H as (s3 & S3 & H).
  assert (P1 : exists p, s_pres s1 = [p] /\ ok p).
  { destruct (surface_pres m _ _ _ _ S1) as [E|(q & E & V)]; [exists m; auto|exists q; split; [exact E|eapply numbers_val; eassumption]]. }
  assert (P2 : exists p, s_pres s2 = [p] /\ ok p /\ given m p).
  { destruct SR as [SR|SR].
    - assert (SR2 : surface_in_TTAA m ps2).
      { destruct SR as (q & V & GG & Q0 & Q1 & HI). exists q. rewrite (val_other ps ps2 _ _ _ T1). repeat (split; [assumption|]). intros j q' t z. rewrite !(val_other ps ps2 _ _ _ T1). apply HI. }
      assert (Z0 : (0 < n_man)%nat) by (destruct SR as (q & V & _); exact (levels_pos _ _ _ _ _ _ LM V)).
      destruct (surface_TTAA O m OM ABSM QT M0 O0 _ _ _ _ NB2 SR2 Z0 S1) as (q & E & OQ & GQ & VQ). destruct (sigt_keep m _ _ _ _ _ NB2 E OQ S2) as (p' & ? & ? & G' & _). exists p'. auto.
    - assert (SR2 : surface_in_TTBB m ps2).
      { destruct SR as (q & t & V1 & V2 & GG). exists q, t. rewrite !(val_other ps ps2 _ _ _ T3). auto. }
      assert (Z0 : (0 < n_sigt)%nat) by (destruct SR as (q & t & V & _); exact (levels_pos _ _ _ _ _ _ LT V)).
      destruct P1 as (q & E & OQ). destruct (sigt_TTBB m ABSM QT M0 _ _ _ _ _ NB2 SR2 Z0 E OQ S2) as (p' & E' & O' & G' & _). exists p'. auto. }
  destruct P2 as (p2 & E2 & O2 & G2). destruct (sigw_keep O m ABSM _ _ _ _ _ _ NB2 E2 O2 S3) as (p0 & E3 & O3 & G3 & _). specialize (G3 G2).
  pose proof (surface_EL _ _ _ _ _ S1) as L1. pose proof (sigt_EL _ _ _ _ _ L1 S2) as L2. pose proof (sigw_EL _ _ _ _ _ _ L2 S3) as L3.
  assert (LP : n_lt A p p0 = true).
  { destruct (surface_from1 m (on_pressure m ps "PPBB") _ _ _ _ MM S1) as (q1 & Q1 & F1). destruct (surface_from2 m _ _ _ _ _ _ Q1 F1 S2) as (q2 & Q2 & F2). destruct (surface_from3 m _ _ _ _ _ _ _ BB Q2 F2 S3) as (q3 & Q3 & F3).
    assert (q3 = p0) as -> by congruence. destruct AS as (_ & A1 & A2). unfold given in G3. destruct F3 as [F3|[[F3 GF]|(OB' & q & VQ & GQ & ->)]]; [congruence| |].
    - rewrite (val_other ps ps2 _ _ _ T1), (val_other ps ps2 _ _ _ T3) in F3. destruct F3 as [F3|F3]; [exact (A1 "TTAA" _ (or_introl eq_refl) F3 GF)|exact (A1 "TTBB" _ (or_intror eq_refl) F3 GF)].
    - apply (A2 OB'); [|exact GQ]. unfold val in VQ. apply bind_inv in VQ as (l & AR & VQ). unfold arr in AR. rewrite (wind_coord_other m _ _ _ _ _ "PPBB" W2) in AR by discriminate.
      destruct (coord_arr m _ _ _ _ _ _ _ W1 AR) as [X|X]; [left|right]; unfold val; rewrite X; exact VQ. }
  assert (GS3 : G m w ps2 p s3) by (eapply (G_single m MM w ps2 p PM PP); [exact L3|exact E3|apply lower_not_equal; assumption]).
  (* mandatory levels *)
  apply bind_inv in H as ([s4 bgl] & S4 & H). destruct (mandatory_pinv O m OM ABSM QT M0 _ _ _ _ _ _ _ NB2 DA DC E3 O3 G3 S4) as [I4 _].
  assert (GS4 : G m w ps2 p s4).
  { eapply (mandatory_G m EQT MM w ps2 p PM PP AB n_man n_above); [| |exact GS3|exact S4].
    - intros NZ. destruct n_man; [congruence|]. destruct (surface_complete _ _ _ _ _ S1) as (q & Q & C). exists q. split; [exact Q|]. split; [apply DA, Q|exact C].
    - intros NZ. destruct (assoc "TTCC" ps) as [q|] eqn:Q; [|unfold levels in LA; rewrite Q in LA; congruence]. exists q. split; [rewrite T2; reflexivity|]. split; [apply D2, Q|exact (fun k => C2 _ k Q)]. }
  apply bind_inv in H as (s5 & S5 & H). pose proof (man_wind_pres m _ _ _ _ _ _ S5) as M5. apply bind_inv in H as (s6 & S6 & H). pose proof (man_wind_pres m _ _ _ _ _ _ S6) as M6.
  assert (I6 : PI p0 (s_pres s6)) by (rewrite M6, M5; exact I4).
  pose proof (man_wind_G m EQT w ps2 p AB _ _ _ _ _ GS4 S5) as GS5. pose proof (man_wind_G m EQT w ps2 p AB _ _ _ _ _ GS5 S6) as GS6.
  clear S1 S2 S3 S4 S5 S6 GS3 GS4 GS5 E2 E3 M5 M6 I4.
  assert (QQ : forall nm pl y, arr A ps2 nm PRES = Ok pl -> In y pl -> QT (n_abs A y)) by (intros; exact I).
  (* tropopauses *)
  apply bind_inv in H as (st7 & S7 & H).
  assert (GS7 : G m w ps2 p (in_s A st7) /\ PI p0 (s_pres (in_s A st7)) /\ (w = false -> parts = ("TRPA", "TRPC") -> J m w ps2 p (in_s A st7))).
  { destruct (1 <=? n_trop + n_trc)%nat eqn:C in S7.
    - apply bind_inv in S7 as (pb & PB & S7). apply bind_inv in S7 as (st & S & S7). pose proof (start_pbot_not_lower _ _ _ _ _ _ OP I6 LP PB) as BP. split; [|split].
      + eapply (trop_G m EQT MM w ps2 p PM PP AB); [|exact S7]. eapply (trop_G m EQT MM w ps2 p PM PP AB); [|exact S]. exact GS6.
      + eapply (trop_pinv O); [exact NB2|apply QQ| |exact S7]. eapply (trop_pinv O); [exact NB2|apply QQ| |exact S]. exact I6.
      + intros WF ->. cbn [fst snd] in *. eapply (trop_pass m EQT MM w ps2 p PM PP AB); [exact WF|apply TG2| | |exact S|exact S7]; [| |exact GS6|exact BP]; intros ->; specialize (VP ltac:(discriminate) ltac:(discriminate));
          [exact (levels_nz _ _ _ _ _ _ LTR VP)|exact (levels_nz _ _ _ _ _ _ LTC VP)].
    - assert (st7 = mk_ins A s6 m None) as -> by congruence. split; [exact GS6|]. split; [exact I6|]. intros _ ->. exfalso. cbn [fst snd] in IN. apply sum_nz in C as [C1 C2']. destruct IN as [->|[-> _]]; specialize (VP ltac:(discriminate) ltac:(discriminate));
        [exact (levels_nz _ _ _ _ _ _ LTR VP C1)|exact (levels_nz _ _ _ _ _ _ LTC VP C2')]. }
  clear S7 GS6 I6. destruct GS7 as (GS7 & I7 & J7).
  (* significant temperatures *)
  apply bind_inv in H as (st8 & S8 & H).
  assert (GS8 : G m w ps2 p (in_s A st8) /\ PI p0 (s_pres (in_s A st8)) /\ (w = false -> J m w ps2 p (in_s A st8))).
  { destruct (1 <=? n_sigt + n_ttdd)%nat eqn:C in S8.
    - apply bind_inv in S8 as (pb & PB & S8). apply bind_inv in S8 as (st & S & S8). pose proof (start_pbot_not_lower _ _ _ _ _ _ OP I7 LP PB) as BP. split; [|split].
      + eapply (sigt_G m EQT MM w ps2 p PM PP); [|exact S8]. eapply (sigt_G m EQT MM w ps2 p PM PP); [|exact S]. exact GS7.
      + eapply (sigt_part_pinv O); [exact NB2|apply QQ| |exact S8]. eapply (sigt_part_pinv O); [exact NB2|apply QQ| |exact S]. exact I7.
      + intros WF. rewrite WF in IP. cbn in IP. destruct IP as [<-|[<-|[]]].
        * eapply (sigt_J m EQT w ps2 p PM); [|exact S8]. eapply (sigt_J m EQT w ps2 p PM); [|exact S]. apply J7; [exact WF|reflexivity].
        * cbn [fst snd] in *. eapply (sigt_pass m EQT MM w ps2 p PM PP AB); [exact WF|apply TG2| | |exact S|exact S8]; [| |exact GS7|exact BP]; intros ->; specialize (VP ltac:(discriminate) ltac:(discriminate));
          [exact (levels_nz _ _ _ _ _ _ LT VP)|exact (levels_nz _ _ _ _ _ _ LTD VP)].
    - assert (st8 = st7) as -> by congruence. split; [exact GS7|]. split; [exact I7|]. intros WF. rewrite WF in IP. cbn in IP. destruct IP as [<-|[<-|[]]]; [apply J7; [exact WF|reflexivity]|].
      exfalso. cbn [fst snd] in IN. apply sum_nz in C as [C1 C2']. destruct IN as [->|[-> _]]; specialize (VP ltac:(discriminate) ltac:(discriminate));
        [exact (levels_nz _ _ _ _ _ _ LT VP C1)|exact (levels_nz _ _ _ _ _ _ LTD VP C2')]. }
  clear S8 GS7 I7 J7. destruct GS8 as (GS8 & I8 & J8).
  apply bind_inv in H as (s9 & S9 & H). cbv zeta in H. cbn [in_s in_size in_pbot] in H.
  pose proof (moist_G m w ps2 p _ _ GS8 S9) as GS9. assert (J9 : w = false -> J m w ps2 p s9) by (intros WF; eapply (moist_J m EQT w ps2 p PM); [apply J8, WF|exact S9]).
  assert (I9 : PI p0 (s_pres s9)) by (rewrite (moist_pres m _ _ S9); exact I8). clear S9 GS8 I8 J8.
  (* significant winds *)
  apply bind_inv in H as (st10 & S10 & H).
  assert (GS10 : G m w ps2 p (in_s A st10) /\ PI p0 (s_pres (in_s A st10)) /\ (w = false \/ parts = ("PPBB", "PPDD") -> J m w ps2 p (in_s A st10))).
  { assert (CW : parts = ("PPBB", "PPDD") -> w = true) by (intros ->; destruct w; [reflexivity|]; cbn in IP; destruct IP as [?|[?|[]]]; discriminate).
    assert (VS : w = true -> val A ps name SPED i = Ok b) by (intros ->; exact VB).
    destruct (_ && _) eqn:C in S10.
    - apply bind_inv in S10 as (pb & PB & S10). apply bind_inv in S10 as (st & S & S10). pose proof (start_wind_not_lower _ _ _ _ OP I9 LP PB) as BP. split; [|split].
      + eapply (wind_G m EQT MM w ps2 p PM PP AB); [|exact S10]. eapply (wind_G m EQT MM w ps2 p PM PP AB); [|exact S]. exact GS9.
      + eapply (wind_part_pinv O); [exact NB2|apply QQ| |exact S10]. eapply (wind_part_pinv O); [exact NB2|apply QQ| |exact S]. exact I9.
      + intros [WF|EP].
        * eapply (wind_J m EQT w ps2 p PM); [|exact S10]. eapply (wind_J m EQT w ps2 p PM); [|exact S]. apply J9, WF.
        * specialize (CW EP). rewrite EP in *. cbn [fst snd] in *. specialize (VS CW). eapply (wind_pass m EQT MM w ps2 p PM PP AB); [exact CW|apply TG2| | |exact S|exact S10]; [| |exact GS9|exact BP]; intros ->.
          -- pose proof (levels_nz _ _ _ _ _ _ LB VS) as LL. destruct bbz; [exfalso; exact (LL (ZB CW eq_refl))|exact LL].
          -- pose proof (levels_nz _ _ _ _ _ _ LD VS) as LL. destruct ddz; [exfalso; exact (LL (ZD CW eq_refl))|exact LL].
    - match type of S10 with Ok ?x = _ => assert (st10 = x) as -> by congruence end. split; [exact GS9|]. split; [exact I9|]. intros [WF|EP]; [apply J9, WF|].
      exfalso. specialize (CW EP). rewrite EP in *. specialize (VS CW). cbn [fst snd] in IN. apply andb_false_iff in C. destruct IN as [->|[-> _]].
      + pose proof (levels_nz _ _ _ _ _ _ LB VS) as LL. destruct bbz; [exact (LL (ZB CW eq_refl))|]. destruct C as [C|C]; [discriminate|]. exact (LL (proj1 (sum_nz _ _ C))).
      + pose proof (levels_nz _ _ _ _ _ _ LD VS) as LL. destruct ddz; [exact (LL (ZD CW eq_refl))|]. destruct C as [C|C]; [rewrite orb_true_r in C; discriminate|]. exact (LL (proj2 (sum_nz _ _ C))). }
  clear S10 GS9 I9 J9. destruct GS10 as (GS10 & I10 & J10).
  (* winds of maximum speed *)
  apply bind_inv in H as (st11 & S11 & H).
  assert (J11 : J m w ps2 p (in_s A st11)).
  { assert (PC : (w = false \/ parts = ("PPBB", "PPDD")) \/ w = true /\ parts = ("MXWA", "MXWC")).
    { destruct w; [|left; left; reflexivity]. cbn in IP. destruct IP as [<-|[<-|[]]]; auto. }
    assert (VS : w = true -> val A ps name SPED i = Ok b) by (intros ->; exact VB).
    destruct (1 <=? _)%nat eqn:C in S11.
    - apply bind_inv in S11 as (pb & PB & S11). apply bind_inv in S11 as (st & S & S11). pose proof (start_wind_not_lower _ _ _ _ OP I10 LP PB) as BP. destruct PC as [PC|[CW EP]].
      + eapply (wind_J m EQT w ps2 p PM); [|exact S11]. eapply (wind_J m EQT w ps2 p PM); [|exact S]. apply J10, PC.
      + rewrite EP in *. cbn [fst snd] in *. specialize (VS CW). eapply (wind_pass m EQT MM w ps2 p PM PP AB); [exact CW|apply TG2| | |exact S|exact S11]; [| |exact GS10|exact BP]; intros ->.
        * specialize (VP ltac:(discriminate) ltac:(discriminate)). exact (levels_nz _ _ _ _ _ _ LMX VP).
        * exact (levels_nz _ _ _ _ _ _ LMC VS).
    - assert (st11 = st10) as -> by congruence. destruct PC as [PC|[CW EP]]; [apply J10, PC|]. exfalso. rewrite EP in *. specialize (VS CW). cbn [fst snd] in IN. apply sum_nz in C as [C1 C2']. destruct IN as [->|[-> _]].
      + specialize (VP ltac:(discriminate) ltac:(discriminate)). exact (levels_nz _ _ _ _ _ _ LMX VP C1).
      + exact (levels_nz _ _ _ _ _ _ LMC VS C2'). }
  clear S11 GS10 I10 J10.
  apply bind_inv in H as (s12 & S12 & H). pose proof (logp_J m EQT w ps2 p PM _ _ _ J11 S12) as J12.
  apply bind_inv in H as ([s13 size] & S13 & H).
  assert (J13 : J m w ps2 p s13).
  { destruct (_ || _) in S13; [|assert (s13 = s12) as -> by congruence; exact J12].
    apply bind_inv in S13 as ([sa za] & SA1 & S13). apply bind_inv in S13 as (sb & SB & S13). assert (s13 = sb) as -> by congruence.
    refine (logpp_J m EQT w ps2 p PM _ _ _ SB). assert (CW : w = true \/ ~ w = true) by (destruct w; auto). destruct CW as [CW|CW].
    - apply height_winds_none in SA1 as [-> _]; [exact J12|exact (ZB CW)|exact (ZD CW)].
    - revert J12. apply J_map; [exact EQT|exact PM|]. intros v GP GZ K. exact (height_winds_keep m False (w = true) v GP GZ _ _ _ _ _ _ _ _ CW K SA1). }
  apply bind_inv in H as (s14 & S14 & H). pose proof (miss_J m EQT w ps2 p PM _ _ J13 S14) as J14.
  apply bind_inv in H as (s15 & S15 & H). assert (s = s15) as -> by congruence. pose proof (below_J m EQT w ps2 p PM _ _ _ _ _ J14 S15) as J15.
  apply J_level in J15 as (a' & b' & (nm & j & y & V1 & V2 & V3 & V4) & GA' & GB' & LW). exists a', b'. split; [|auto]. exists nm, j, y. split; [apply BK, V1|]. split; [exact V2|]. rewrite <- !SV by assumption. auto.
Qed.
End Main.
