(** Facts about filling missing values. *)
From Coq Require Import Lia ZifyBool ZifyNat.
From Verif Require Import Base Calc SpecCalc.
From Coq Require Import List ZArith Bool.
Import ListNotations.
Open Scope Z_scope.

Lemma bind_inv {X Y} (m : res X) (f : X -> res Y) y : bind m f = Ok y -> exists x, m = Ok x /\ f x = Ok y.
Proof. destruct m; [eauto|discriminate]. Qed.
Lemma at_ok {N} (l : list N) i x : at_ l i = Ok x <-> nth_error l i = Some x.
Proof. unfold at_. destruct (nth_error l i); split; congruence. Qed.
Lemma set_ok {N} (l : list N) i x l' : set_ l i x = Ok l' ->
  (i < length l)%nat /\ length l' = length l /\ nth_error l' i = Some x /\ forall j, j <> i -> nth_error l' j = nth_error l j.
Proof.
  unfold set_. destruct (Nat.ltb_spec i (length l)) as [L|L]; [|discriminate]. intros H. assert (l' = firstn i l ++ x :: skipn (S i) l) as -> by congruence. clear H.
  assert (LF : length (firstn i l) = i) by (rewrite firstn_length; lia).
  split; [exact L|]. split; [|split].
  - rewrite app_length, LF. change (length (x :: skipn (S i) l)) with (S (length (skipn (S i) l))). rewrite skipn_length. lia.
  - rewrite nth_error_app2 by lia. rewrite LF, Nat.sub_diag. reflexivity.
  - intros j J. destruct (Nat.lt_ge_cases j i) as [C|C].
    + rewrite nth_error_app1 by lia. rewrite <- (firstn_skipn i l) at 2. rewrite nth_error_app1 by lia. reflexivity.
    + rewrite nth_error_app2 by lia. rewrite LF. destruct (j - i)%nat as [|k] eqn:E; [lia|]. cbn [nth_error].
      rewrite <- (firstn_skipn (S i) l) at 2. rewrite nth_error_app2; rewrite firstn_length_le by lia; [|lia].
      f_equal. lia.
Qed.
Lemma get_put {N} (s : sounding N) k l : get (put s k l) k = l.
Proof. destruct k; reflexivity. Qed.
Lemma get_put_other {N} (s : sounding N) k k' l : k' <> k -> get (put s k l) k' = get s k'.
Proof. intros H. destruct k, k'; try reflexivity; congruence. Qed.
Lemma key_dec (a b : key) : {a = b} + {a <> b}.
Proof. decide equality. Qed.

(** A loop over a range *)
Lemma foldM_range {St} (f : St -> nat -> res St) (I : nat -> St -> Prop) :
  forall n a st st', I a st -> (forall i s s', (a <= i < a + n)%nat -> I i s -> f s i = Ok s' -> I (S i) s') ->
  foldM f (seq a n) st = Ok st' -> I (a + n)%nat st'.
Proof.
  induction n as [|n IH]; intros a st st' H STEP F.
  - cbn in F. injection F as <-. rewrite Nat.add_0_r. exact H.
  - cbn [seq foldM] in F. apply bind_inv in F as (s1 & F1 & F2).
    replace (a + S n)%nat with (S a + n)%nat by lia. apply (IH (S a) s1 st'); [|intros i s s' L; apply STEP; lia|exact F2].
    apply (STEP a st s1); [lia|exact H|exact F1].
Qed.
Lemma foldM_range' {St} (f : St -> nat -> res St) (I : nat -> St -> Prop) a b st st' : (a <= b)%nat ->
  I a st -> (forall i s s', (a <= i < b)%nat -> I i s -> f s i = Ok s' -> I (S i) s') ->
  foldM f (range a b) st = Ok st' -> I b st'.
Proof.
  intros L H STEP F. unfold range in F. replace b with (a + (b - a))%nat by lia.
  apply (foldM_range f I (b - a) a st st' H); [|exact F]. intros i s s' LI. apply STEP. lia.
Qed.
(** Without regard to where it stands *)
Lemma foldM_plain {X St} (f : St -> X -> res St) (I : St -> Prop) : forall l st st', I st ->
  (forall s x s', In x l -> I s -> f s x = Ok s' -> I s') -> foldM f l st = Ok st' -> I st'.
Proof.
  induction l as [|x l IH]; intros st st' H STEP F; [cbn in F; injection F as <-; exact H|].
  cbn [foldM] in F. apply bind_inv in F as (s1 & F1 & F2). apply (IH s1 st'); [|intros s y s' Y; apply STEP; right; exact Y|exact F2].
  apply (STEP st x s1); [left; reflexivity|exact H|exact F1].
Qed.

Section Facts.
Context {A : arith}.
Notation N := (num A).

Lemma present_absent (m : N) l i : present m l i -> absent m l i -> False.
Proof. intros (x & X & E) (y & Y & F). congruence. Qed.
Lemma filled_refl (m : N) l : filled m l l.
Proof. split; [reflexivity|]. intros i _. reflexivity. Qed.
Lemma filled_trans (m : N) l l' l'' : filled m l l' -> filled m l' l'' -> filled m l l''.
Proof.
  intros [L F] [L' F']. split; [lia|]. intros i P. unfold same_at in *. rewrite F'; [apply F, P|].
  destruct P as (x & X & E). exists x. rewrite F by (exists x; auto). auto.
Qed.
(** Setting an entry that is missing in the current list *)
Lemma filled_set (m : N) l i x l' : absent m l i -> set_ l i x = Ok l' -> filled m l l'.
Proof.
  intros AB S. apply set_ok in S as (_ & L & _ & O). split; [exact L|]. intros j P. unfold same_at.
  destruct (Nat.eq_dec j i) as [->|NE]; [destruct (present_absent _ _ _ P AB)|]. apply O, NE.
Qed.

(** ** interp_logp_height *)
Lemma logp_step_filled fuel pr m st i st' : logp_step A fuel pr m st i = Ok st' -> filled m (lg_h A st) (lg_h A st').
Proof.
  intros H. unfold logp_step in H. apply bind_inv in H as (pres & _ & H). apply bind_inv in H as (hg & HG & H).
  destruct (n_eq A pres m); [injection H as <-; apply filled_refl|]. destruct (n_eq A hg m) eqn:E; cbn [negb] in H; [|injection H as <-; apply filled_refl].
  destruct (n_eq A (lg_pbot A st) m); [injection H as <-; apply filled_refl|].
  apply bind_inv in H as (p0 & _ & H). apply bind_inv in H as ([ptop ztop] & _ & H).
  apply bind_inv in H as (zb & _ & H). apply bind_inv in H as (zt & _ & H). apply bind_inv in H as (h & S & H). injection H as <-.
  cbn [lg_h]. eapply filled_set; [|exact S]. exists hg. split; [apply at_ok, HG|exact E].
Qed.
Lemma above_step_filled s m st i st' : above_step A s m st i = Ok st' -> filled m (ab_h A st) (ab_h A st').
Proof.
  intros H. unfold above_step in H. apply bind_inv in H as (z & Z & H). apply bind_inv in H as (h & HH & H).
  assert (F : filled m (ab_h A st) h).
  { destruct (n_eq A z m) eqn:E; [|injection HH as <-; apply filled_refl].
    apply bind_inv in HH as (tt & _ & HH). apply bind_inv in HH as (tdt & _ & HH). apply bind_inv in HH as (pt & _ & HH).
    eapply filled_set; [|exact HH]. exists z. split; [apply at_ok, Z|exact E]. }
  apply bind_inv in H as (t & _ & H). apply bind_inv in H as (z' & _ & H). destruct (isin A m [t; z']); cbn [negb] in H.
  - injection H as <-. exact F.
  - apply bind_inv in H as (pb & _ & H). apply bind_inv in H as (tdb & _ & H). injection H as <-. exact F.
Qed.
Lemma logp_height_filled fuel s m s' : interp_logp_height A fuel s m = Ok s' ->
  filled m (s_hght s) (s_hght s') /\ forall k, k <> HGHT -> get s' k = get s k.
Proof.
  intros H. unfold interp_logp_height in H. apply bind_inv in H as (ml & _ & H). apply bind_inv in H as (st & ST & H).
  assert (F : filled m (s_hght s) (lg_h A st)).
  { revert ST. apply (foldM_plain _ (fun st => filled m (s_hght s) (lg_h A st))); [apply filled_refl|].
    intros x i y _ IH E. eapply filled_trans; [exact IH|]. eapply logp_step_filled, E. }
  destruct (_ <? _)%nat.
  - apply bind_inv in H as (st0 & S0 & H). apply bind_inv in H as (ab & AB & H). injection H as <-.
    split; [|intros k K; apply get_put_other, K]. change (s_hght (put s HGHT (ab_h A ab))) with (ab_h A ab).
    assert (E0 : ab_h A st0 = lg_h A st).
    { destruct ml as [k|]; [|injection S0 as <-; reflexivity].
      apply bind_inv in S0 as (a & _ & S0). apply bind_inv in S0 as (b & _ & S0). apply bind_inv in S0 as (c & _ & S0).
      apply bind_inv in S0 as (d & _ & S0). injection S0 as <-. reflexivity. }
    revert AB. apply (foldM_plain _ (fun ab => filled m (s_hght s) (ab_h A ab))); [rewrite E0; exact F|].
    intros x i y _ IH E. eapply filled_trans; [exact IH|]. eapply above_step_filled, E.
  - injection H as <-. split; [exact F|]. intros k K. apply get_put_other, K.
Qed.

(** ** interp_logp_pressure *)
(** What is known before round [i]: above [lo] nothing has changed, and no level from [lo] up to
    [i] is complete. *)
Definition press_inv (m : N) (hg orig : list N) (i : nat) (st : press_state A) : Prop :=
  filled m orig (pr_p A st) /\ pr_ilev A st = pr_klev A st /\
  (forall k, pr_klev A st = Some k -> (k < i)%nat) /\
  (forall j, (match pr_klev A st with Some k => k < j | None => True end)%nat -> nth_error (pr_p A st) j = nth_error orig j) /\
  (forall j, (match pr_klev A st with Some k => k < j < i | None => j < i end)%nat -> present m orig j -> present m hg j -> False).
Lemma press_fill_step (m : N) hg pb pt zb zt p j p' : press_fill A hg m pb pt zb zt p j = Ok p' ->
  (present m p j -> present m hg j -> False) ->
  filled m p p' /\ forall k, k <> j -> nth_error p' k = nth_error p k.
Proof.
  intros H NB. unfold press_fill in H. apply bind_inv in H as (z & Z & H). apply at_ok in Z.
  destruct (n_eq A z m) eqn:E; cbn [negb andb] in H; [injection H as <-; split; [apply filled_refl|auto]|].
  destruct (negb (n_eq A zb m) && _); [|injection H as <-; split; [apply filled_refl|auto]].
  pose proof (set_ok _ _ _ _ H) as (L & _ & _ & O). split; [|exact O]. eapply filled_set; [|exact H].
  destruct (nth_error p j) as [x|] eqn:X; [|apply nth_error_None in X; lia]. exists x. split; [exact X|].
  destruct (n_eq A x m) eqn:EX; [reflexivity|]. destruct NB; [exists x; auto|exists z; auto].
Qed.
Lemma press_step_inv (m : N) hg orig i st st' : press_inv m hg orig i st -> press_step A hg m st i = Ok st' -> press_inv m hg orig (S i) st'.
Proof.
  intros (F & IK & LT & SM & NC) H. unfold press_step in H. apply bind_inv in H as (p & P & H). apply bind_inv in H as (z & Z & H).
  apply at_ok in P, Z. cbv zeta in H. apply bind_inv in H as (ps & PS & H). injection H as <-.
  assert (PO : nth_error orig i = Some p).
  { rewrite <- P. symmetry. apply SM. destruct (pr_klev A st) as [k|] eqn:K; [apply LT; reflexivity|exact I]. }
  destruct (negb (n_eq A p m) && negb (n_eq A z m)) eqn:FULL.
  - assert (KL : filled m orig ps /\ forall j, (i <= j)%nat -> nth_error ps j = nth_error orig j).
    { rewrite IK in PS. destruct (pr_klev A st) as [k|] eqn:K; [|injection PS as <-; split; [exact F|intros j _; apply SM; exact I]].
      assert (Lk : (k < i)%nat) by (apply LT; reflexivity).
      revert PS. apply (foldM_range' _ (fun n ps => filled m orig ps /\ forall j, (n <= j)%nat -> nth_error ps j = nth_error orig j) (S k) i).
      - lia.
      - split; [exact F|]. intros j J. apply SM. lia.
      - intros j q q' LJ [FQ SQ] E. apply press_fill_step in E as [FE SE].
        + split; [eapply filled_trans; eauto|]. intros j' J'. rewrite SE by lia. apply SQ. lia.
        + intros (x & X & EX) PH. apply (NC j ltac:(lia)); [|exact PH]. exists x. split; [|exact EX]. rewrite <- SQ by lia. exact X. }
    destruct KL as [KF KS]. unfold press_inv. cbn [pr_p pr_ilev pr_klev].
    split; [exact KF|]. split; [reflexivity|]. split; [intros k [= <-]; lia|]. split; [intros j J; apply KS; lia|]. intros j J. lia.
  - assert (KE : ps = pr_p A st).
    { rewrite IK in PS. destruct (pr_klev A st) as [k|] eqn:K; [|congruence]. unfold range in PS. replace (k - S k)%nat with 0%nat in PS by lia.
      cbn in PS. congruence. }
    subst ps. unfold press_inv. cbn [pr_p pr_ilev pr_klev].
    split; [exact F|]. split; [reflexivity|]. split; [intros k K; specialize (LT k K); lia|]. split; [exact SM|].
    intros j J PJ HJ. destruct (Nat.eq_dec j i) as [->|NE].
    + destruct PJ as (x & X & EX), HJ as (y & Y & EY). assert (x = p) as -> by congruence. assert (y = z) as -> by congruence.
      rewrite EX, EY in FULL. discriminate.
    + apply (NC j); [destruct (pr_klev A st); lia|exact PJ|exact HJ].
Qed.
Lemma logp_pressure_filled s m s' : interp_logp_pressure A s m = Ok s' ->
  filled m (s_pres s) (s_pres s') /\ forall k, k <> PRES -> get s' k = get s k.
Proof.
  intros H. unfold interp_logp_pressure in H. apply bind_inv in H as (st & ST & H). injection H as <-.
  split; [|intros k K; apply get_put_other, K]. change (s_pres (put s PRES (pr_p A st))) with (pr_p A st).
  assert (G : press_inv m (s_hght s) (s_pres s) (length (s_pres s)) st).
  { revert ST. apply (foldM_range' _ (press_inv m (s_hght s) (s_pres s)) 0); [lia| |].
    - unfold press_inv. cbn [pr_p pr_ilev pr_klev]. split; [apply filled_refl|]. split; [reflexivity|]. split; [discriminate|]. split; [reflexivity|]. intros j J. lia.
    - intros i x y _ IX E. eapply press_step_inv; eauto. }
  apply G.
Qed.

(** ** interp_moist_height *)
Lemma layer_spec (m : N) s nlev ilev : forall fuel j tb tdb pb zb hl j' next hl',
  layer A s m nlev ilev fuel j tb tdb pb zb hl = Ok (j', next, hl') ->
  (j < j')%nat /\ (forall k, (j < k < j')%nat -> present m (s_temp s) k -> present m (s_hght s) k -> False) /\
  (next = None \/ (j' < nlev)%nat) /\ length hl' = length hl.
Proof.
  induction fuel as [|f IH]; intros j tb tdb pb zb hl j' next hl' H; [discriminate|]. cbn [layer] in H.
  destruct (nlev <=? S j)%nat eqn:LE.
  { assert (j' = S j /\ next = None /\ hl' = hl) as (-> & -> & ->) by (repeat split; congruence). split; [lia|]. split; [intros k K; lia|]. auto. }
  apply bind_inv in H as (pt & _ & H). apply bind_inv in H as (tt & T & H). apply bind_inv in H as (tdt & _ & H).
  apply bind_inv in H as (zt & Z & H). apply bind_inv in H as (pi & _ & H). apply bind_inv in H as (ti & _ & H). cbv zeta in H.
  apply bind_inv in H as (hl1 & S1 & H). apply set_ok in S1 as (_ & L1 & _). apply at_ok in T, Z.
  destruct (negb (n_eq A zt m) && negb (n_eq A tt m)) eqn:M.
  { assert (j' = S j /\ hl' = hl1) as (-> & ->) by (split; congruence). split; [lia|]. split; [intros k K; lia|]. split; [right; lia|exact L1]. }
  assert (G : (S j < j')%nat /\ (forall k, (S j < k < j')%nat -> present m (s_temp s) k -> present m (s_hght s) k -> False) /\
    (next = None \/ (j' < nlev)%nat) /\ length hl' = length hl1).
  { match type of H with (if ?c then _ else _) = _ => destruct c end; eapply IH; exact H. }
  destruct G as (G1 & G2 & G3 & G4). split; [lia|]. split; [|split; [exact G3|lia]]. intros k K PT PH.
  destruct (Nat.eq_dec k (S j)) as [->|NE]; [|apply (G2 k); auto; lia].
  destruct PT as (x & X & EX), PH as (y & Y & EY). assert (x = tt) as -> by congruence. assert (y = zt) as -> by congruence.
  rewrite EX, EY in M. discriminate.
Qed.
Lemma moist_fill_range pr hl : forall a b h z p h' z' p', (a <= b)%nat ->
  foldM (moist_fill A pr hl) (range a b) (h, z, p) = Ok (h', z', p') ->
  length h' = length h /\ forall k, (k < a \/ b <= k)%nat -> nth_error h' k = nth_error h k.
Proof.
  intros a b h z p h' z' p' L H.
  apply (foldM_range' _ (fun n st => length (fst (fst st)) = length h /\ forall k, (k < a \/ n <= k)%nat -> nth_error (fst (fst st)) k = nth_error h k) a b) in H;
    [exact H|exact L|split; [reflexivity|auto]|].
  intros i [[g y] q] [[g' y'] q'] LI [LG SG] E. cbn [fst] in *. unfold moist_fill in E.
  apply bind_inv in E as (p1 & _ & E). apply bind_inv in E as (sz & _ & E). apply bind_inv in E as (h1 & S1 & E).
  apply set_ok in S1 as (_ & L1 & _ & O1). assert (g' = h1) as -> by congruence. split; [lia|]. intros k K. rewrite O1 by lia. apply SG. lia.
Qed.
Definition moist_inv (m : N) (s0 s : sounding N) (ilev : nat) : Prop :=
  (forall k, k <> HGHT -> get s k = get s0 k) /\ length (s_hght s) = length (s_hght s0) /\
  (forall i, present m (s_temp s0) i -> present m (s_hght s0) i -> same_at (s_hght s0) (s_hght s) i) /\
  (forall i, (ilev <= i)%nat -> same_at (s_hght s0) (s_hght s) i).
Lemma moist_loop_inv (m : N) nlev s0 : forall fuel s ilev hl s', moist_inv m s0 s ilev -> moist_loop A m nlev fuel s ilev hl = Ok s' ->
  exists n, moist_inv m s0 s' n.
Proof.
  induction fuel as [|f IH]; intros s ilev hl s' (KO & LE & SM & UP) H; [discriminate|]. cbn [moist_loop] in H.
  apply bind_inv in H as (plev & _ & H). apply bind_inv in H as (tb & _ & H). apply bind_inv in H as (tdb & _ & H).
  apply bind_inv in H as (zlev & _ & H). apply bind_inv in H as ([[j next] hl1] & LA & H). apply bind_inv in H as (hl2 & _ & H).
  apply bind_inv in H as ([[h z'] p'] & FI & H). cbv zeta in H. apply layer_spec in LA as (J & NB & _ & _).
  apply moist_fill_range in FI as [LH SH]; [|lia].
  assert (TE : s_temp s = s_temp s0) by (apply (KO TEMP); discriminate).
  assert (INV : moist_inv m s0 (put s HGHT h) j).
  { split; [intros k K; rewrite get_put_other by exact K; apply KO, K|]. change (s_hght (put s HGHT h)) with h. split; [lia|].
    assert (UP' : forall i, (j <= i)%nat -> same_at (s_hght s0) h i).
    { intros i LI. unfold same_at. rewrite SH by lia. apply UP. lia. }
    split; [|exact UP']. intros i PT PH. unfold same_at. destruct (Nat.le_gt_cases i ilev) as [C|C]; [rewrite SH by lia; apply SM; auto|].
    destruct (Nat.le_gt_cases j i) as [D|D]; [apply UP'; exact D|]. exfalso. apply (NB i); [lia|rewrite TE; exact PT|].
    destruct PH as (x & X & EX). exists x. split; [|exact EX]. rewrite (UP i) by lia. exact X. }
  destruct next as [[zt zn]|]; [exact (IH _ _ _ _ INV H)|]. assert (s' = put s HGHT h) as -> by congruence. eauto.
Qed.
Lemma moist_height_spec s m s' : interp_moist_height A s m = Ok s' -> exists n, moist_inv m s s' n.
Proof.
  intros H. unfold interp_moist_height in H. apply bind_inv in H as (f & _ & H). destruct f as [i|].
  - apply moist_loop_inv with (s0 := s) in H; [exact H|]. repeat split; reflexivity.
  - assert (s' = s) as -> by congruence. exists 0%nat. repeat split; reflexivity.
Qed.

(** ** interp_missing_data *)
Definition pass_inv (m : N) (v1 : key) (v2 : option key) (s s' : sounding N) : Prop :=
  (forall k, length (get s' k) = length (get s k)) /\ filled m (get s v1) (get s' v1) /\
  (forall v, v2 = Some v -> forall i, present m (get s v1) i -> same_at (get s v) (get s' v) i) /\
  (forall k, k <> v1 -> v2 <> Some k -> get s' k = get s k).
Lemma pass_refl m v1 v2 s : pass_inv m v1 v2 s s.
Proof. repeat split; reflexivity. Qed.
Lemma pass_trans m v1 v2 s s' s'' : pass_inv m v1 v2 s s' -> pass_inv m v1 v2 s' s'' -> pass_inv m v1 v2 s s''.
Proof.
  intros (L & F & V & O) (L' & F' & V' & O'). split; [intros k; rewrite L'; apply L|]. split; [eapply filled_trans; eauto|].
  split; [|intros k K1 K2; rewrite O', O by auto; reflexivity]. intros v E i P. unfold same_at. rewrite (V' v E).
  - apply (V v E i P).
  - destruct P as (x & X & EX). exists x. split; [|exact EX]. rewrite (proj2 F); [exact X|]. exists x. auto.
Qed.
Lemma miss_step_inv m size v1 v2 s ia i s' ia' more : v2 <> Some v1 ->
  miss_step A m size v1 v2 s ia i = Ok (s', ia', more) -> pass_inv m v1 v2 s s'.
Proof.
  intros NV H. unfold miss_step in H. apply bind_inv in H as (x & X & H). destruct (n_eq A x m) eqn:EX.
  2: { assert (s' = s) as -> by congruence. apply pass_refl. }
  apply bind_inv in H as ([ia1 mo1] & _ & H). apply bind_inv in H as (ia2 & _ & H). destruct (ia2 =? 0)%nat.
  { assert (s' = s) as -> by congruence. apply pass_refl. }
  apply bind_inv in H as (ad & _ & H). apply bind_inv in H as (bd & _ & H). apply bind_inv in H as (vl & _ & H).
  apply bind_inv in H as (out & _ & H). apply bind_inv in H as (l1 & L1 & H). cbv zeta in H. apply bind_inv in H as (s2 & S2 & H).
  assert (s' = s2) as -> by congruence. clear H. apply at_ok in X.
  assert (AB : absent m (get s v1) i) by (exists x; auto). pose proof (filled_set _ _ _ _ _ AB L1) as F1.
  apply set_ok in L1 as (_ & LL1 & _ & O1).
  destruct v2 as [v|].
  - assert (VN : v <> v1) by congruence. apply bind_inv in S2 as (l2 & L2 & S2). assert (s2 = put (put s v1 l1) v l2) as -> by congruence. clear S2.
    rewrite get_put_other in L2 by exact VN. apply set_ok in L2 as (_ & LL2 & _ & O2).
    split; [|split; [|split]].
    + intros k. destruct (key_dec k v) as [->|K1]; [rewrite get_put; exact LL2|]. rewrite get_put_other by exact K1.
      destruct (key_dec k v1) as [->|K2]; [rewrite get_put; exact LL1|]. rewrite get_put_other by exact K2. reflexivity.
    + rewrite get_put_other by congruence. rewrite get_put. exact F1.
    + intros v' [= <-] j P. unfold same_at. rewrite get_put. apply O2. intros ->. destruct (present_absent _ _ _ P AB).
    + intros k K1 K2. rewrite !get_put_other by congruence. reflexivity.
  - assert (s2 = put s v1 l1) as -> by congruence. split; [|split; [|split]].
    + intros k. destruct (key_dec k v1) as [->|K2]; [rewrite get_put; exact LL1|]. rewrite get_put_other by exact K2. reflexivity.
    + rewrite get_put. exact F1.
    + discriminate.
    + intros k K1 K2. rewrite get_put_other by congruence. reflexivity.
Qed.
Lemma miss_loop_inv m size v1 v2 : v2 <> Some v1 -> forall rem s ia i s',
  miss_loop A m size v1 v2 s ia i rem = Ok s' -> pass_inv m v1 v2 s s'.
Proof.
  intros NV. induction rem as [|r IH]; intros s ia i s' H; cbn [miss_loop] in H; [assert (s' = s) as -> by congruence; apply pass_refl|].
  apply bind_inv in H as ([[s1 ia1] more] & S1 & H). apply miss_step_inv in S1; [|exact NV].
  destruct more; [|assert (s' = s1) as -> by congruence; exact S1]. eapply pass_trans; [exact S1|]. eapply IH, H.
Qed.
Lemma missing_data_spec s m s' : interp_missing_data A s m = Ok s' ->
  (forall k, length (get s' k) = length (get s k)) /\ s_pres s' = s_pres s /\ s_hght s' = s_hght s /\
  filled m (s_temp s) (s_temp s') /\ filled m (s_drct s) (s_drct s') /\
  (forall i, present m (s_drct s) i -> same_at (s_sped s) (s_sped s') i) /\
  (forall i, present m (s_temp s) i -> present m (s_dwpt s) i -> same_at (s_dwpt s) (s_dwpt s') i).
Proof.
  intros H. unfold interp_missing_data, recipe in H. cbn [foldM] in H.
  apply bind_inv in H as (s1 & S1 & H). apply bind_inv in H as (s2 & S2 & H). apply bind_inv in H as (s3 & S3 & H).
  assert (s' = s3) as -> by congruence. clear H.
  apply miss_loop_inv in S1 as (L1 & F1 & V1 & O1); [|discriminate]. apply miss_loop_inv in S2 as (L2 & F2 & V2 & O2); [|discriminate].
  apply miss_loop_inv in S3 as (L3 & F3 & V3 & O3); [|discriminate]. cbn [get] in *.
  pose proof (O1 PRES ltac:(discriminate) ltac:(discriminate)) as P1. pose proof (O2 PRES ltac:(discriminate) ltac:(discriminate)) as P2. pose proof (O3 PRES ltac:(discriminate) ltac:(discriminate)) as P3.
  pose proof (O1 HGHT ltac:(discriminate) ltac:(discriminate)) as H1. pose proof (O2 HGHT ltac:(discriminate) ltac:(discriminate)) as H2. pose proof (O3 HGHT ltac:(discriminate) ltac:(discriminate)) as H3.
  pose proof (O2 TEMP ltac:(discriminate) ltac:(discriminate)) as T2. pose proof (O3 TEMP ltac:(discriminate) ltac:(discriminate)) as T3.
  pose proof (O2 DWPT ltac:(discriminate) ltac:(discriminate)) as D2.
  pose proof (O1 DRCT ltac:(discriminate) ltac:(discriminate)) as R1. pose proof (O3 DRCT ltac:(discriminate) ltac:(discriminate)) as R3.
  pose proof (O1 SPED ltac:(discriminate) ltac:(discriminate)) as W1. pose proof (O3 SPED ltac:(discriminate) ltac:(discriminate)) as W3.
  cbn [get] in *. split; [intros k; rewrite L3, L2; apply L1|]. split; [congruence|]. split; [congruence|].
  split; [rewrite T3, T2; exact F1|]. split; [rewrite R3; rewrite R1 in F2; exact F2|].
  split.
  - intros i P. unfold same_at. rewrite W3. rewrite <- W1. apply (V2 SPED eq_refl). rewrite R1. exact P.
  - intros i PT PD. unfold same_at. assert (E : same_at (s_dwpt s) (s_dwpt s1) i) by (apply (V1 DWPT eq_refl); exact PT).
    rewrite (proj2 F3 i); [rewrite D2; exact E|]. rewrite D2. destruct PD as (x & X & EX). exists x. split; [|exact EX]. rewrite E. exact X.
Qed.

(** ** Loops end *)
Definition ends {X} (r : res X) : Prop := r <> Err OutOfFuel.
Lemma ends_ok {X} (x : X) : ends (Ok x).
Proof. discriminate. Qed.
Lemma ends_bind {X Y} (r : res X) (f : X -> res Y) : ends r -> (forall x, r = Ok x -> ends (f x)) -> ends (bind r f).
Proof. unfold ends. destruct r as [x|e]; cbn [bind]; intros H G; [apply G; reflexivity|congruence]. Qed.
Lemma ends_at {X} (l : list X) i : ends (at_ l i).
Proof. unfold at_. destruct (nth_error l i); discriminate. Qed.
Lemma ends_set {X} (l : list X) i x : ends (set_ l i x).
Proof. unfold set_. destruct (_ <? _)%nat; discriminate. Qed.
Lemma ends_bound {X} (o : option X) : ends (bound o).
Proof. destruct o; discriminate. Qed.
Lemma ends_foldM {X St} (f : St -> X -> res St) : forall l st, (forall s x, In x l -> ends (f s x)) -> ends (foldM f l st).
Proof.
  induction l as [|x l IH]; intros st H; [discriminate|]. cbn [foldM]. apply ends_bind; [apply H; left; reflexivity|].
  intros s _. apply IH. intros s' y Y. apply H. right. exact Y.
Qed.
End Facts.
Ltac ends_tac := repeat first
  [ apply ends_ok | apply ends_at | apply ends_set | apply ends_bound
  | apply ends_bind; [|intros ? ?] | progress cbv zeta
  | match goal with
    | |- ends (Err _) => discriminate
    | |- ends (if ?c then _ else _) => destruct c
    | |- ends (match ?o with Some _ => _ | None => _ end) => destruct o
    | |- ends (let '(_, _) := ?p in _) => destruct p
    | |- ends (match ?o with O => _ | S _ => _ end) => destruct o
    | |- ends (foldM _ _ _) => apply ends_foldM; intros ? ? ?
    end ].

Section Ends.
Context {A : arith}.
Notation N := (num A).
Lemma layer_ends (m : N) s nlev ilev : forall fuel j tb tdb pb zb hl, (0 < fuel)%nat -> (nlev <= fuel + j)%nat -> ends (layer A s m nlev ilev fuel j tb tdb pb zb hl).
Proof.
  induction fuel as [|f IH]; intros j tb tdb pb zb hl F L; [lia|].
  cbn [layer]. destruct (nlev <=? S j)%nat eqn:LE; [apply ends_ok|]. ends_tac; apply IH; lia.
Qed.
Lemma moist_loop_ends (m : N) nlev : forall fuel s ilev hl, (ilev < nlev)%nat -> (nlev < fuel + ilev)%nat -> ends (moist_loop A m nlev fuel s ilev hl).
Proof.
  induction fuel as [|f IH]; intros s ilev hl I F; [lia|]. cbn [moist_loop].
  do 4 (apply ends_bind; [apply ends_at|intros ? _]). apply ends_bind; [apply layer_ends; lia|].
  intros [[j next] hl1] LA. apply layer_spec in LA as (J & _ & NX & _).
  apply ends_bind; [ends_tac|]. intros hl2 _. apply ends_bind.
  - apply ends_foldM. intros [[h z] p] ii _. unfold moist_fill. ends_tac.
  - intros [[h z] p] _. cbv zeta. destruct next as [zz|]; [|apply ends_ok]. destruct NX as [|NX]; [discriminate|]. apply IH; lia.
Qed.
Lemma first_full_ends (m : N) s : forall rem i, ends (first_full A s m i rem).
Proof. induction rem as [|r IH]; intros i; [apply ends_ok|]. cbn [first_full]. ends_tac. apply IH. Qed.
Lemma first_full_lt (m : N) s : forall rem i k, first_full A s m i rem = Ok (Some k) -> (i <= k < i + rem)%nat.
Proof.
  induction rem as [|r IH]; intros i k H; [discriminate|]. cbn [first_full] in H. apply bind_inv in H as (p & _ & H).
  apply bind_inv in H as (ok & _ & H). destruct ok; [assert (k = i) by congruence; lia|]. apply IH in H. lia.
Qed.
Lemma moist_height_ends s (m : N) : ends (interp_moist_height A s m).
Proof.
  unfold interp_moist_height. apply ends_bind; [apply first_full_ends|]. intros [i|] F; [|apply ends_ok].
  apply first_full_lt in F. apply moist_loop_ends; lia.
Qed.
Lemma find_above_ends (l : list N) m : forall rem j, ends (find_above A l m j rem).
Proof. induction rem as [|r IH]; intros j; [apply ends_ok|]. cbn [find_above]. ends_tac. apply IH. Qed.
Lemma interp_parameters_ends v a b (m : N) : ends (interp_parameters A v a b m).
Proof. unfold interp_parameters. ends_tac. Qed.
Lemma miss_step_ends m size v1 v2 s ia i : ends (miss_step A m size v1 v2 s ia i).
Proof.
  unfold miss_step, level_at. apply ends_bind; [apply ends_at|intros x _]. destruct (n_eq A x m); [|apply ends_ok].
  apply ends_bind; [ends_tac; apply find_above_ends|]. intros [ia1 mo] _. ends_tac. apply interp_parameters_ends.
Qed.
Lemma miss_loop_ends m size v1 v2 : forall rem s ia i, ends (miss_loop A m size v1 v2 s ia i rem).
Proof.
  induction rem as [|r IH]; intros s ia i; [apply ends_ok|]. cbn [miss_loop]. apply ends_bind; [apply miss_step_ends|].
  intros [[s' ia'] more] _. destruct more; [apply IH|apply ends_ok].
Qed.
Lemma missing_data_ends s (m : N) : ends (interp_missing_data A s m).
Proof. unfold interp_missing_data. apply ends_foldM. intros s' [v1 v2] _. apply miss_loop_ends. Qed.
Lemma logp_pressure_ends s (m : N) : ends (interp_logp_pressure A s m).
Proof.
  unfold interp_logp_pressure. apply ends_bind; [|intros; apply ends_ok]. apply ends_foldM. intros st i _. unfold press_step. ends_tac.
Qed.

(** ** The search for the level above *)
Lemma climb_ends (pr h : list N) m pres : forall fuel ilev ptop ztop,
  (length h + 2 <= fuel + ilev)%nat -> (2 <= fuel)%nat ->
  (forall j, (ilev <= j)%nat -> present m h j -> (forall k, (ilev <= k < j)%nat -> absent m h k) ->
     forall q, nth_error pr j = Some q -> n_le A pres q = false) ->
  ends (climb A fuel pr h m pres ilev ptop ztop).
Proof.
  induction fuel as [|f IH]; intros ilev ptop ztop L F C; [lia|]. cbn [climb]. destruct (n_le A pres ptop); [|apply ends_ok].
  apply ends_bind; [apply ends_at|]. intros z Z. apply at_ok in Z. destruct (n_eq A z m) eqn:EZ; cbn [negb].
  - assert (LI : (ilev < length h)%nat) by (apply nth_error_Some; congruence). apply IH; [lia|lia|]. intros j LJ P AB. apply C; [lia|exact P|].
    intros k K. destruct (Nat.eq_dec k ilev) as [->|NE]; [exists z; auto|apply AB; lia].
  - apply ends_bind; [apply ends_at|]. intros p Pp. apply at_ok in Pp. destruct f as [|f']; [lia|]. cbn [climb].
    rewrite (C ilev) with (q := p); [apply ends_ok|lia|exists z; auto|intros; lia|exact Pp].
Qed.
Lemma foldM_range_ends {St} (f : St -> nat -> res St) (P : nat -> St -> Prop) : forall n a st,
  P a st -> (forall i st, (a <= i)%nat -> P i st -> ends (f st i)) ->
  (forall i st st', (a <= i)%nat -> P i st -> f st i = Ok st' -> P (S i) st') -> ends (foldM f (seq a n) st).
Proof.
  induction n as [|n IH]; intros a st P0 E T; [apply ends_ok|]. cbn [seq foldM]. apply ends_bind; [apply E; [lia|exact P0]|].
  intros st' S1. apply IH; [eapply T; [|exact P0|exact S1]; lia|intros; apply E; [lia|assumption]|intros i s1 s2 L P1 E1; eapply T; [|exact P1|exact E1]; lia].
Qed.
Lemma logp_step_keeps fuel pr (m : N) st i st' : logp_step A fuel pr m st i = Ok st' ->
  length (lg_h A st') = length (lg_h A st) /\ forall k, k <> i -> nth_error (lg_h A st') k = nth_error (lg_h A st) k.
Proof.
  intros H. unfold logp_step in H. apply bind_inv in H as (p & _ & H). apply bind_inv in H as (z & _ & H).
  destruct (n_eq A p m); [assert (st' = st) as -> by congruence; auto|]. destruct (n_eq A z m); cbn [negb] in H.
  2: { match type of H with Ok ?x = _ => assert (st' = x) as -> by congruence end. cbn. auto. }
  destruct (n_eq A (lg_pbot A st) m); [assert (st' = st) as -> by congruence; auto|].
  apply bind_inv in H as (p0 & _ & H). apply bind_inv in H as ([pt zt] & _ & H). apply bind_inv in H as (zb & _ & H). apply bind_inv in H as (zt' & _ & H).
  apply bind_inv in H as (h & S1 & H). match type of H with Ok ?x = _ => assert (st' = x) as -> by congruence end. cbn [lg_h].
  apply set_ok in S1 as (_ & L1 & _ & O1). auto.
Qed.
Lemma top_height_ends (h : list N) m : forall j, ends (top_height A h m j).
Proof. induction j as [|k IH]; [apply ends_ok|]. cbn [top_height]. ends_tac. exact IH. Qed.
Lemma logp_height_ends fuel s (m : N) : above_lower m (s_pres s) (s_hght s) -> (length (s_hght s) + 2 <= fuel)%nat ->
  ends (interp_logp_height A fuel s m).
Proof.
  intros AL F. unfold interp_logp_height. cbv zeta. apply ends_bind.
  { unfold max_level. destruct (length (s_hght s)); [discriminate|apply top_height_ends]. }
  intros ml _. apply ends_bind.
  - apply (foldM_range_ends _ (fun n st => length (lg_h A st) = length (s_hght s) /\ forall k, (n <= k)%nat -> nth_error (lg_h A st) k = nth_error (s_hght s) k)).
    + split; reflexivity.
    + intros i st _ [LL UP]. unfold logp_step. apply ends_bind; [apply ends_at|intros p P]. apply ends_bind; [apply ends_at|intros z Zz].
      destruct (n_eq A p m) eqn:EP; [apply ends_ok|]. destruct (n_eq A z m) eqn:EZ; cbn [negb]; [|apply ends_ok].
      destruct (n_eq A (lg_pbot A st) m); [apply ends_ok|]. apply ends_bind; [apply ends_bound|intros p0 _]. apply ends_bind; [|intros [pt zt] _; ends_tac].
      apply at_ok in P, Zz. rewrite UP in Zz by lia. apply climb_ends; [lia|lia|]. intros j LJ PJ AJ q Q.
      apply (AL i j p q P EP); [exists z; auto| |exact Q]. split; [lia|].
      split; [destruct PJ as (x & X & EX); exists x; rewrite UP in X by lia; auto|]. intros k K.
      destruct (AJ k) as (x & X & EX); [lia|]. rewrite UP in X by lia. exists x. auto.
    + intros i st st' _ [LL UP] E. apply logp_step_keeps in E as [L1 O1]. split; [lia|]. intros k K. rewrite O1 by lia. apply UP. lia.
  - intros st _. destruct ((match ml with Some m0 => S m0 | None => 0 end) <? length (s_hght s))%nat; [|apply ends_ok].
    apply ends_bind; [ends_tac|]. intros st0 _. apply ends_bind; [|intros; apply ends_ok]. apply ends_foldM. intros st1 i _. unfold above_step. ends_tac.
Qed.

(** ** What interp_logp_height computes *)
Lemma climb_finds (pr h : list N) m pres : forall fuel ilev ptop ztop j q z,
  (j + 3 <= fuel + ilev)%nat -> (ilev <= j)%nat -> nth_error h j = Some z -> n_eq A z m = false ->
  (forall k, (ilev <= k < j)%nat -> absent m h k) -> nth_error pr j = Some q -> n_le A pres q = false ->
  n_le A pres ptop = true -> climb A fuel pr h m pres ilev ptop ztop = Ok (q, Some z).
Proof.
  induction fuel as [|f IH]; intros ilev ptop ztop j q z F L Z EZ AB Q LQ LP; [lia|]. cbn [climb]. rewrite LP.
  destruct (Nat.eq_dec ilev j) as [->|NE].
  - rewrite (proj2 (at_ok h j z) Z). cbn [bind]. rewrite EZ. cbn [negb]. rewrite (proj2 (at_ok pr j q) Q). cbn [bind].
    destruct f as [|f']; [lia|]. cbn [climb]. rewrite LQ. reflexivity.
  - destruct (AB ilev) as (x & X & EX); [lia|]. rewrite (proj2 (at_ok h ilev x) X). cbn [bind]. rewrite EX. cbn [negb].
    apply IH with (j := j); auto; [lia|lia|]. intros k K. apply AB. lia.
Qed.
Lemma set_some {X} (l : list X) i x : (i < length l)%nat -> exists l', set_ l i x = Ok l'.
Proof. intros L. unfold set_. rewrite (proj2 (Nat.ltb_lt _ _) L). eauto. Qed.
Lemma at_some {X} (l : list X) i : (i < length l)%nat -> exists x, at_ l i = Ok x /\ nth_error l i = Some x.
Proof. intros L. destruct (nth_error l i) as [x|] eqn:E; [exists x; split; [apply at_ok; exact E|reflexivity]|]. apply nth_error_None in E. lia. Qed.
Lemma foldM_seq_ok {St} (f : St -> nat -> res St) (P : nat -> St -> Prop) : forall n a st, P a st ->
  (forall i st, (a <= i < a + n)%nat -> P i st -> exists st', f st i = Ok st' /\ P (S i) st') ->
  exists st', foldM f (seq a n) st = Ok st' /\ P (a + n)%nat st'.
Proof.
  induction n as [|n IH]; intros a st P0 T; [exists st; rewrite Nat.add_0_r; auto|]. cbn [seq foldM].
  destruct (T a st) as (s1 & E & P1); [lia|exact P0|]. rewrite E. cbn [bind].
  replace (a + S n)%nat with (S a + n)%nat by lia. apply IH; [exact P1|]. intros i s2 L. apply T. lia.
Qed.
Lemma top_height_spec (h : list N) m : forall j, (j < length h)%nat ->
  exists o, top_height A h m j = Ok o /\
    match o with
    | Some t => (0 < t <= j)%nat /\ present m h t /\ forall k, (t < k <= j)%nat -> absent m h k
    | None => forall k, (0 < k <= j)%nat -> absent m h k
    end.
Proof.
  induction j as [|j IH]; intros L; [exists None; split; [reflexivity|intros; lia]|]. cbn [top_height].
  destruct (at_some h (S j) L) as (x & EX & X). rewrite EX. cbn [bind]. destruct (n_eq A x m) eqn:E; cbn [negb].
  - destruct IH as (o & EO & SO); [lia|]. exists o. split; [exact EO|].
    assert (AS : absent m h (S j)) by (exists x; auto). destruct o as [t|].
    + destruct SO as (T1 & T2 & T3). split; [lia|]. split; [exact T2|]. intros k K. destruct (Nat.eq_dec k (S j)) as [->|]; [exact AS|apply T3; lia].
    + intros k K. destruct (Nat.eq_dec k (S j)) as [->|]; [exact AS|apply SO; lia].
  - exists (Some (S j)). split; [reflexivity|]. split; [lia|]. split; [exists x; auto|intros; lia].
Qed.

Section Logp.
Variables (s : sounding N) (m : N) (fuel len : nat).
Notation h0 := (s_hght s).
Notation pr := (s_pres s).
Hypothesis LEN : aligned s len.
Hypothesis MM : n_eq A m m = true.
Hypothesis PP : forall k, present m h0 k -> present m pr k.
Hypothesis AL : above_lower m pr h0.
Hypothesis P2 : forall p, In p pr -> n_eq A p m = false -> n_le A p (lit A 2000 0) = true.
Hypothesis FU : (len + 2 <= fuel)%nat.
Definition good (h : list N) (i : nat) : Prop :=
  forall p a pa za j pj zj, nth_error pr i = Some p -> n_eq A p m = false -> absent m h0 i ->
    last_height m h0 i a -> nth_error pr a = Some pa -> nth_error h0 a = Some za ->
    next_height m h0 i j -> nth_error pr j = Some pj -> nth_error h0 j = Some zj ->
    nth_error h i = Some (log_between A p pa za pj zj).
Definition linv (n : nat) (st : logp_state A) : Prop :=
  length (lg_h A st) = len /\ (forall k, (n <= k)%nat -> nth_error (lg_h A st) k = nth_error h0 k) /\
  (((forall k, (k < n)%nat -> absent m h0 k) /\ n_eq A (lg_pbot A st) m = true) \/
   (exists a pa za, last_height m h0 n a /\ nth_error pr a = Some pa /\ nth_error h0 a = Some za /\
      lg_pbot A st = pa /\ lg_zbot A st = Some za /\
      (lg_ptop A st = Some (lit A 2000 0) \/
       exists j pj zj, next_height m h0 a j /\ (n <= j)%nat /\ nth_error pr j = Some pj /\ nth_error h0 j = Some zj /\
         lg_ptop A st = Some pj /\ lg_ztop A st = Some zj))) /\
  forall i, (i < n)%nat -> good (lg_h A st) i.
Lemma len_h : length h0 = len. Proof. exact (LEN HGHT). Qed.
Lemma len_p : length pr = len. Proof. exact (LEN PRES). Qed.
Lemma len_t : length (s_temp s) = len. Proof. exact (LEN TEMP). Qed.
Lemma len_d : length (s_dwpt s) = len. Proof. exact (LEN DWPT). Qed.
Lemma last_unique i a b : last_height m h0 i a -> last_height m h0 i b -> a = b.
Proof.
  intros (L1 & P1 & A1) (L2 & Q2 & A2). destruct (Nat.lt_trichotomy a b) as [C|[C|C]]; [|exact C|]; exfalso.
  - apply (present_absent m h0 b Q2). apply A1. lia.
  - apply (present_absent m h0 a P1). apply A2. lia.
Qed.
Lemma next_unique i a b : next_height m h0 i a -> next_height m h0 i b -> a = b.
Proof.
  intros (L1 & P1 & A1) (L2 & Q2 & A2). destruct (Nat.lt_trichotomy a b) as [C|[C|C]]; [|exact C|]; exfalso.
  - apply (present_absent m h0 a P1). apply A2. lia.
  - apply (present_absent m h0 b Q2). apply A1. lia.
Qed.
(** Some level with a height below [n], or none *)
Lemma find_next : forall d i t, (t = i + S d)%nat -> (t < len)%nat -> present m h0 t -> exists j, next_height m h0 i j /\ (j <= t)%nat.
Proof.
  induction d as [|d IH]; intros i t T L P.
  - exists t. split; [|lia]. split; [lia|]. split; [exact P|intros; lia].
  - destruct (at_some h0 (S i)) as (x & _ & X); [rewrite len_h; lia|]. destruct (n_eq A x m) eqn:E.
    + destruct (IH (S i) t) as (j & (J1 & J2 & J3) & JT); [lia|exact L|exact P|]. exists j. split; [|exact JT]. split; [lia|]. split; [exact J2|].
      intros k K. destruct (Nat.eq_dec k (S i)) as [->|]; [exists x; auto|apply J3; lia].
    + exists (S i). split; [|lia]. split; [lia|]. split; [exists x; auto|intros; lia].
Qed.
Lemma logp_step_ok n t st : (n < t)%nat -> (t < len)%nat -> present m h0 t -> linv n st ->
  exists st', logp_step A fuel pr m st n = Ok st' /\ linv (S n) st'.
Proof.
  intros NT TL PT (L & UP & B & G). unfold logp_step.
  destruct (at_some pr n) as (p & EP & NP); [rewrite len_p; lia|]. destruct (at_some h0 n) as (z & _ & NZ); [rewrite len_h; lia|].
  assert (EZ : at_ (lg_h A st) n = Ok z) by (apply at_ok; rewrite UP by lia; exact NZ). rewrite EP, EZ. cbn [bind].
  assert (UPS : forall k, (S n <= k)%nat -> nth_error (lg_h A st) k = nth_error h0 k) by (intros; apply UP; lia).
  destruct (n_eq A z m) eqn:ZM.
  - (* a missing height *)
    assert (AN : absent m h0 n) by (exists z; auto).
    destruct (find_next (t - S n) n t) as (j & NJ & JT); [lia|exact TL|exact PT|].
    (* whatever is done at this level, the state about the levels around it stays *)
    assert (BS : forall h pt zt,
      (lg_ptop A st = pt /\ lg_ztop A st = zt \/
       exists pj zj, pt = Some pj /\ zt = Some zj /\ nth_error pr j = Some pj /\ nth_error h0 j = Some zj) ->
      ((forall k, (k < S n)%nat -> absent m h0 k) /\ n_eq A (lg_pbot A st) m = true) \/
      (exists a pa za, last_height m h0 (S n) a /\ nth_error pr a = Some pa /\ nth_error h0 a = Some za /\
        lg_pbot A (mk_logp A h (lg_pbot A st) (lg_zbot A st) pt zt) = pa /\ lg_zbot A (mk_logp A h (lg_pbot A st) (lg_zbot A st) pt zt) = Some za /\
        (lg_ptop A (mk_logp A h (lg_pbot A st) (lg_zbot A st) pt zt) = Some (lit A 2000 0) \/
         exists j pj zj, next_height m h0 a j /\ (S n <= j)%nat /\ nth_error pr j = Some pj /\ nth_error h0 j = Some zj /\
           lg_ptop A (mk_logp A h (lg_pbot A st) (lg_zbot A st) pt zt) = Some pj /\ lg_ztop A (mk_logp A h (lg_pbot A st) (lg_zbot A st) pt zt) = Some zj))).
    { intros h pt zt HT. cbn [lg_pbot lg_zbot lg_ptop lg_ztop]. destruct B as [[B1 B2]|(a & pa & za & (LA1 & LA2 & LA3) & PA & ZA & E1 & E2 & E3)]; [left|right].
      - split; [|exact B2]. intros k K. destruct (Nat.eq_dec k n) as [->|]; [exact AN|apply B1; lia].
      - assert (AJ : next_height m h0 a j).
        { destruct NJ as (J1 & J2 & J3). split; [lia|]. split; [exact J2|]. intros k K. destruct (Nat.lt_trichotomy k n) as [C|[->|C]]; [apply LA3; lia|exact AN|apply J3; lia]. }
        exists a, pa, za. split; [split; [lia|split; [exact LA2|intros k K; destruct (Nat.eq_dec k n) as [->|]; [exact AN|apply LA3; lia]]]|].
        do 4 (split; [assumption|]). destruct HT as [[<- <-]|(pj & zj & -> & -> & PJ & ZJ)].
        + destruct E3 as [E3|(j' & pj & zj & J1 & J2 & J3 & J4 & J5 & J6)]; [left; exact E3|right]. exists j', pj, zj.
          rewrite (next_unique _ _ _ J1 AJ) in *. destruct NJ as [NJ _]. repeat split; auto; apply AJ.
        + right. exists j, pj, zj. destruct NJ as [NJ _]. repeat split; auto; apply AJ. }
    destruct (n_eq A p m) eqn:PM.
    + exists st. split; [reflexivity|]. split; [exact L|]. split; [exact UPS|]. split.
      * destruct st as [h pb zb pt zt]. apply (BS h pt zt). left. auto.
      * intros i LI. destruct (Nat.eq_dec i n) as [->|]; [|apply G; lia]. intros p' a pa za j' pj zj NP' PM'. congruence.
    + case_eq (n_eq A (lg_pbot A st) m); intros PB; cbn [negb].
      * exists st. split; [reflexivity|]. split; [exact L|]. split; [exact UPS|]. split; [destruct st as [h pb zb pt zt]; apply (BS h pt zt); left; auto|].
        intros i LI. destruct (Nat.eq_dec i n) as [->|]; [|apply G; lia]. intros p' a pa za j' pj zj _ _ _ (A1 & A2 & _).
        destruct B as [[B1 _]|(b & pb & zb & (B1 & B2 & _) & PBn & _ & E1 & _)].
        { destruct (present_absent m h0 a A2). apply B1. lia. }
        { exfalso. destruct (PP _ B2) as (x & X & EX). assert (x = pb) by congruence. congruence. }
      * destruct B as [[_ B2]|(a & pa & za & LA & PA & ZA & E1 & E2 & E3)]; [congruence|].
        assert (NJ' := NJ). destruct NJ' as (J1 & (zj & ZJ & EJ) & J3). destruct (at_some pr j) as (pj & _ & PJ); [rewrite len_p; lia|].
        assert (LQ : n_le A p pj = false) by (apply (AL n j p pj); auto).
        assert (CL : exists p0, lg_ptop A st = Some p0 /\ climb A fuel pr (lg_h A st) m p (S n) p0 (lg_ztop A st) = Ok (pj, Some zj)).
        { destruct E3 as [E3|(j' & pj' & zj' & K1 & K2 & K3 & K4 & K5 & K6)].
          - exists (lit A 2000 0). split; [exact E3|]. apply climb_finds with (j := j); auto; [lia|rewrite UP by lia; exact ZJ| |].
            + intros k K. destruct (J3 k) as (x & X & EX); [lia|]. exists x. rewrite UP by lia. auto.
            + apply P2; [eapply nth_error_In; exact NP|exact PM].
          - exists pj'. split; [exact K5|]. assert (j' = j) as ->.
            { apply (next_unique a); [exact K1|]. destruct LA as (LA1 & LA2 & LA3). split; [lia|]. split; [exists zj; auto|]. intros k K.
              destruct (Nat.lt_trichotomy k n) as [C|[->|C]]; [apply LA3; lia|exact AN|apply J3; lia]. }
            assert (pj' = pj) as -> by congruence. assert (zj' = zj) as -> by congruence. destruct fuel as [|f]; [lia|]. cbn [climb]. rewrite LQ, K6. reflexivity. }
        destruct CL as (p0 & EP0 & CL). rewrite EP0. cbn [bound bind]. rewrite CL. cbn [bind]. rewrite E2. cbn [bound bind].
        match goal with |- context [set_ ?l n ?v] => destruct (set_some l n v) as (h1 & S1); [lia|rewrite S1; cbn [bind]; pose proof (set_ok _ _ _ _ S1) as (_ & L1 & N1 & O1)] end.
        eexists. split; [reflexivity|]. cbn [lg_h]. split; [cbn [lg_h]; lia|]. split; [cbn [lg_h]; intros k K; rewrite O1 by lia; apply UP; lia|]. split.
        { rewrite <- E2. apply BS. right. exists pj, zj. auto. }
        { cbn [lg_h]. intros i LI. destruct (Nat.eq_dec i n) as [->|NE].
          - intros p' a' pa' za' j' pj' zj' NP' _ _ LA' PA' ZA' NJ' PJ' ZJ'. rewrite N1. f_equal.
            rewrite (last_unique _ _ _ LA' LA) in *. rewrite (next_unique _ _ _ NJ' NJ) in *.
            assert (p' = p) as -> by congruence. assert (pa' = pa) as -> by congruence. assert (za' = za) as -> by congruence.
            assert (pj' = pj) as -> by congruence. assert (zj' = zj) as -> by congruence. rewrite E1. reflexivity.
          - intros p' a' pa' za' j' pj' zj' H1 H2 H3 H4 H5 H6 H7 H8 H9. rewrite O1 by exact NE. eapply G; eauto. lia. }
  - (* a height *)
    assert (PN : present m h0 n) by (exists z; auto). destruct (PP _ PN) as (x & X & EX). assert (x = p) as -> by congruence. rewrite EX. cbn [negb].
    eexists. split; [reflexivity|]. split; [exact L|]. split; [exact UPS|]. cbn [lg_h lg_pbot lg_zbot lg_ptop lg_ztop]. split.
    + right. exists n, p, z. split; [split; [lia|split; [exact PN|intros; lia]]|]. do 4 (split; [auto|]). left. reflexivity.
    + intros i LI. destruct (Nat.eq_dec i n) as [->|]; [|apply G; lia]. intros p' a pa za j pj zj _ _ AB. destruct (present_absent m h0 n PN AB).
Qed.
Lemma above_step_ok n st : (n < len)%nat -> length (ab_h A st) = len ->
  exists st', above_step A s m st n = Ok st' /\ length (ab_h A st') = len /\ forall k, k <> n -> nth_error (ab_h A st') k = nth_error (ab_h A st) k.
Proof.
  intros NL L. unfold above_step. destruct (at_some (ab_h A st) n) as (z & EZ & _); [lia|].
  destruct (at_some (s_temp s) n) as (t & ET & _); [rewrite len_t; exact NL|].
  destruct (at_some (s_dwpt s) n) as (td & ED & _); [rewrite len_d; exact NL|].
  destruct (at_some pr n) as (p & EP & _); [rewrite len_p; exact NL|].
  rewrite EZ. cbn [bind].
  assert (H : exists h, (if n_eq A z m then tt <- at_ (s_temp s) n;; tdt <- at_ (s_dwpt s) n;; pt <- at_ pr n;;
      set_ (ab_h A st) n (moist_hydrostatic_height A (ab_z A st) (ab_p A st) pt (scale_height A (ab_t A st) tt (ab_td A st) tdt (ab_p A st) pt m) (dflt A))
      else Ok (ab_h A st)) = Ok h /\ length h = len /\ forall k, k <> n -> nth_error h k = nth_error (ab_h A st) k).
  { destruct (n_eq A z m); [|exists (ab_h A st); auto]. rewrite ET, ED, EP. cbn [bind].
    match goal with |- context [set_ ?l n ?v] => destruct (set_some l n v) as (h1 & S1); [lia|] end. exists h1. split; [exact S1|].
    apply set_ok in S1 as (_ & L1 & _ & O1). split; [lia|exact O1]. }
  destruct H as (h & EH & LH & OH). cbv zeta. rewrite EH. cbn [bind]. rewrite ET. cbn [bind].
  destruct (at_some h n) as (z' & EZ' & _); [lia|]. rewrite EZ'. cbn [bind]. rewrite EP, ED. cbn [bind].
  destruct (negb _); eexists; (split; [reflexivity|]); cbn [ab_h]; auto.
Qed.
Lemma logp_height_ok : (0 < len)%nat -> exists s', interp_logp_height A fuel s m = Ok s' /\ forall i, good (s_hght s') i.
Proof.
  intros L0. unfold interp_logp_height. cbv zeta. rewrite len_h.
  assert (ML : exists o, max_level A h0 m = Ok o /\ match o with
     | Some t => (0 < t < len)%nat /\ present m h0 t /\ forall k, (t < k < len)%nat -> absent m h0 k
     | None => forall k, (0 < k < len)%nat -> absent m h0 k end).
  { destruct (top_height_spec h0 m (len - 1)) as (o & EO & SO); [rewrite len_h; lia|].
    exists o. split; [unfold max_level; rewrite len_h; replace len with (S (len - 1)) by lia; exact EO|].
    destruct o as [t|]; [destruct SO as (S1 & S2 & S3); split; [lia|]; split; [exact S2|]; intros k K; apply S3; lia|intros k K; apply SO; lia]. }
  destruct ML as (o & EO & SO). rewrite EO. cbn [bind].
  assert (FO : exists st, foldM (logp_step A fuel pr m) (range 0 (match o with Some t => t | None => 0%nat end)) (mk_logp A h0 m None None None) = Ok st /\
     linv (match o with Some t => t | None => 0%nat end) st).
  { destruct o as [t|].
    - destruct SO as (S1 & S2 & S3). unfold range. rewrite Nat.sub_0_r. apply (foldM_seq_ok _ linv t 0).
      + split; [apply len_h|]. split; [reflexivity|]. split; [left; split; [intros; lia|exact MM]|intros; lia].
      + intros i st LI. apply (logp_step_ok i t); [lia|lia|exact S2].
    - eexists. split; [reflexivity|]. split; [apply len_h|]. split; [reflexivity|]. split; [left; split; [intros; lia|exact MM]|intros; lia]. }
  destruct FO as (st & EF & L & UP & _ & G). rewrite EF. cbn [bind].
  set (first := match o with Some t => S t | None => 0%nat end) in *.
  assert (GG : forall h, (forall k, (k < first)%nat -> nth_error h k = nth_error (lg_h A st) k) -> forall i, good h i).
  { intros h SH i p a pa za j pj zj H1 H2 H3 H4 H5 H6 H7 H8 H9. destruct o as [t|]; subst first; cbv beta iota in *.
    - destruct SO as (S1 & S2 & S3). destruct (Nat.lt_ge_cases i t) as [C|C]; [rewrite SH by lia; eapply G; eauto|].
      exfalso. destruct H7 as (J1 & J2 & _). apply (present_absent m h0 j J2). apply S3. split; [lia|]. rewrite <- len_h. apply nth_error_Some. congruence.
    - exfalso. destruct H7 as (J1 & J2 & _). apply (present_absent m h0 j J2). apply SO. split; [lia|]. rewrite <- len_h. apply nth_error_Some. congruence. }
  destruct (first <? len)%nat eqn:FL.
  - assert (ST : exists st0, match o with
        | Some m0 => pb <- at_ pr m0;; zb <- at_ (lg_h A st) m0;; tb <- at_ (s_temp s) m0;; tdb <- at_ (s_dwpt s) m0;; Ok (mk_above A (lg_h A st) pb tb tdb zb)
        | None => Ok (mk_above A (lg_h A st) m m m m) end = Ok st0 /\ ab_h A st0 = lg_h A st).
    { destruct o as [t|]; [|eauto]. destruct SO as (S1 & _ & _).
      destruct (at_some pr t) as (x1 & X1 & _); [rewrite len_p; lia|]. destruct (at_some (lg_h A st) t) as (x2 & X2 & _); [lia|].
      destruct (at_some (s_temp s) t) as (x3 & X3 & _); [rewrite len_t; lia|]. destruct (at_some (s_dwpt s) t) as (x4 & X4 & _); [rewrite len_d; lia|].
      rewrite X1, X2, X3, X4. cbn [bind]. eauto. }
    destruct ST as (st0 & E0 & H0). rewrite E0. cbn [bind]. unfold range.
    destruct (foldM_seq_ok (above_step A s m) (fun _ ab => length (ab_h A ab) = len /\ forall k, (k < first)%nat -> nth_error (ab_h A ab) k = nth_error (lg_h A st) k)
      (len - first) first st0) as (ab & EA & LA & OA).
    + rewrite H0. auto.
    + intros i ab LI [LA OA]. destruct (above_step_ok i ab) as (ab' & E' & L' & O'); [lia|exact LA|]. exists ab'. split; [exact E'|]. split; [exact L'|].
      intros k K. rewrite O' by lia. apply OA, K.
    + rewrite EA. cbn [bind]. eexists. split; [reflexivity|]. intros i. apply GG. exact OA.
  - eexists. split; [reflexivity|]. intros i. apply GG. reflexivity.
Qed.
End Logp.
End Ends.

(** ** interp_missing_data returns *)
Section Miss.
Context {A : arith}.
Notation N := (num A).
Lemma find_above_ok (l : list N) m : forall rem j, (j + rem <= length l)%nat ->
  exists o, find_above A l m j rem = Ok o /\ match o with Some k => (j <= k < j + rem)%nat | None => True end.
Proof.
  induction rem as [|r IH]; intros j L; [exists None; cbn; auto|]. cbn [find_above]. destruct (at_some l j) as (x & EX & _); [lia|].
  rewrite EX. cbn [bind]. destruct (n_eq A x m); cbn [negb].
  - destruct (IH (S j)) as (o & EO & SO); [lia|]. exists o. split; [exact EO|]. destruct o; [lia|exact I].
  - exists (Some j). split; [reflexivity|lia].
Qed.
Lemma level_at_ok (s : sounding N) n i : aligned s n -> (i < n)%nat -> exists d, level_at A s i = Ok d /\ nth_error (s_pres s) i = Some (d PRES).
Proof.
  intros AL L. unfold level_at.
  assert (G : forall k, exists x, at_ (get s k) i = Ok x /\ nth_error (get s k) i = Some x) by (intros k; apply at_some; rewrite AL; exact L).
  destruct (G PRES) as (p & E1 & N1), (G HGHT) as (h & E2 & _), (G TEMP) as (t & E3 & _), (G DWPT) as (d & E4 & _), (G DRCT) as (r & E5 & _), (G SPED) as (v & E6 & _).
  cbn [get] in *. rewrite E1, E2, E3, E4, E5, E6. cbn [bind]. eexists. split; [reflexivity|]. exact N1.
Qed.
Lemma miss_step_ok m n v1 v2 (s : sounding N) ia i : aligned s n -> falling (s_pres s) -> v1 <> PRES -> v2 <> Some PRES ->
  (1 <= i)%nat -> (S i < n)%nat -> (ia < n)%nat ->
  exists s' ia' more, miss_step A m n v1 v2 s ia i = Ok (s', ia', more) /\ aligned s' n /\ s_pres s' = s_pres s /\ (ia' < n)%nat.
Proof.
  intros AL FA V1 V2 I1 I2 IA. unfold miss_step.
  destruct (at_some (get s v1) i) as (x & EX & _); [rewrite AL; lia|]. rewrite EX. cbn [bind].
  destruct (n_eq A x m); [|exists s, ia, true; auto].
  assert (F : exists ia1 mo, (if (ia <=? i)%nat then f <- find_above A (get s v1) m (S i) (n - S i);; Ok (match f with Some j => (j, true) | None => (0%nat, false) end) else Ok (ia, true)) = Ok (ia1, mo) /\
     (ia1 = 0 \/ i < ia1 < n)%nat).
  { destruct (Nat.leb_spec ia i) as [C|C].
    - destruct (find_above_ok (get s v1) m (n - S i) (S i)) as (o & EO & SO); [rewrite AL; lia|]. rewrite EO. cbn [bind].
      destruct o as [k|]; do 2 eexists; (split; [reflexivity|]); lia.
    - exists ia, true. split; [reflexivity|lia]. }
  destruct F as (ia1 & mo & EF & B1). rewrite EF. cbn [bind].
  assert (G : exists ia2, match v2 with Some _ => Ok ia1 | None => if (ia1 =? 0)%nat then Ok ia1 else
      p0 <- at_ (s_pres s) (i - 1);; (if n_gt A p0 (lit A 100 0) then p1 <- at_ (s_pres s) ia1;; Ok (if n_lt A p1 (lit A 100 0) then 0%nat else ia1) else Ok ia1) end = Ok ia2 /\
     (ia2 = 0 \/ i < ia2 < n)%nat).
  { destruct v2; [eauto|]. destruct (Nat.eqb_spec ia1 0) as [C|C]; [eauto|]. destruct B1 as [|B1]; [lia|].
    destruct (at_some (s_pres s) (i - 1)) as (p0 & E0 & _); [rewrite (AL PRES : length (s_pres s) = n); lia|]. rewrite E0. cbn [bind].
    destruct (n_gt A p0 (lit A 100 0)); [|eauto]. destruct (at_some (s_pres s) ia1) as (p1 & E1 & _); [rewrite (AL PRES : length (s_pres s) = n); lia|].
    rewrite E1. cbn [bind]. destruct (n_lt A p1 _); eauto. }
  destruct G as (ia2 & EG & B2). rewrite EG. cbn [bind].
  destruct (Nat.eqb_spec ia2 0) as [C|C]; [exists s, ia2, mo; repeat split; auto; lia|]. destruct B2 as [|B2]; [lia|].
  destruct (level_at_ok s n (i - 1) AL) as (ad & EA & NA); [lia|]. destruct (level_at_ok s n ia2 AL) as (bd & EB & NB); [lia|].
  rewrite EA, EB. cbn [bind]. destruct (at_some (s_pres s) i) as (v & EV & NV); [rewrite (AL PRES : length (s_pres s) = n); lia|]. rewrite EV. cbn [bind].
  destruct FA as [FA FP].
  assert (IP : exists out, interp_parameters A v ad bd m = Ok out).
  { unfold interp_parameters. cbv zeta. unfold interp_between.
    rewrite (FA (i - 1)%nat ia2 (ad PRES) (bd PRES)) by (assumption || lia). rewrite (FA (i - 1)%nat i (ad PRES) v) by (assumption || lia).
    rewrite (FA i ia2 v (bd PRES)) by (assumption || lia). rewrite orb_true_r. cbn [negb].
    unfold lit. rewrite (FP (ad PRES)) by (eapply nth_error_In; exact NA). rewrite (FP (bd PRES)) by (eapply nth_error_In; exact NB). cbn [orb]. eauto. }
  destruct IP as (out & EO). rewrite EO. cbn [bind].
  destruct (set_some (get s v1) i (out v1)) as (l1 & L1); [rewrite AL; lia|]. rewrite L1. cbn [bind]. apply set_ok in L1 as (_ & LL1 & _).
  assert (A1 : aligned (put s v1 l1) n).
  { intros k. destruct (key_dec k v1) as [->|K]; [rewrite get_put, LL1; apply AL|rewrite get_put_other by exact K; apply AL]. }
  assert (P1 : s_pres (put s v1 l1) = s_pres s) by (apply (get_put_other s v1 PRES l1); congruence).
  destruct v2 as [v'|]; [|cbn [bind]; exists (put s v1 l1), ia2, mo; repeat split; auto; lia].
  destruct (set_some (get (put s v1 l1) v') i (out v')) as (l2 & L2); [rewrite A1; lia|]. rewrite L2. cbn [bind]. apply set_ok in L2 as (_ & LL2 & _).
  exists (put (put s v1 l1) v' l2), ia2, mo. split; [reflexivity|]. split; [|split; [|lia]].
  - intros k. destruct (key_dec k v') as [->|K]; [rewrite get_put, LL2; apply A1|rewrite get_put_other by exact K; apply A1].
  - rewrite <- P1. apply (get_put_other _ v' PRES l2). congruence.
Qed.
Lemma miss_loop_ok m n v1 v2 : v1 <> PRES -> v2 <> Some PRES -> forall rem (s : sounding N) ia i,
  aligned s n -> falling (s_pres s) -> (1 <= i)%nat -> (i + rem + 1 <= n \/ rem = 0)%nat -> (ia < n \/ rem = 0)%nat ->
  exists s', miss_loop A m n v1 v2 s ia i rem = Ok s' /\ aligned s' n /\ s_pres s' = s_pres s.
Proof.
  intros V1 V2. induction rem as [|r IH]; intros s ia i AL FA I1 IR IA; [exists s; auto|]. cbn [miss_loop].
  destruct (miss_step_ok m n v1 v2 s ia i AL FA V1 V2 I1) as (s' & ia' & more & E & AL' & P' & L'); [lia|lia|]. rewrite E. cbn [bind].
  destruct more; [|exists s'; auto]. destruct (IH s' ia' (S i)) as (s'' & E2 & AL2 & P2); [exact AL'|rewrite P'; exact FA|lia|lia|lia|].
  exists s''. split; [exact E2|]. split; [exact AL2|congruence].
Qed.
Lemma missing_data_ok (s : sounding N) n m : aligned s n -> falling (s_pres s) -> exists s', interp_missing_data A s m = Ok s'.
Proof.
  intros AL FA. unfold interp_missing_data. rewrite (AL PRES : length (s_pres s) = n). unfold recipe. cbn [foldM].
  destruct (miss_loop_ok m n TEMP (Some DWPT) ltac:(discriminate) ltac:(discriminate) (n - 2) s 0 1 AL FA) as (s1 & E1 & A1 & P1); [lia|lia|lia|].
  rewrite E1. cbn [bind]. rewrite <- P1 in FA.
  destruct (miss_loop_ok m n DRCT (Some SPED) ltac:(discriminate) ltac:(discriminate) (n - 2) s1 0 1 A1 FA) as (s2 & E2 & A2 & P2); [lia|lia|lia|].
  rewrite E2. cbn [bind]. rewrite <- P2 in FA.
  destruct (miss_loop_ok m n DWPT None ltac:(discriminate) ltac:(discriminate) (n - 2) s2 0 1 A2 FA) as (s3 & E3 & A3 & P3); [lia|lia|lia|].
  rewrite E3. cbn [bind]. eauto.
Qed.
End Miss.
