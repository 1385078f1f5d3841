(** The order of merged levels when winds on height surfaces are put in between. *)
From Coq Require Import Lia ZifyBool ZifyNat String Sorted.
From Verif Require Import Base Calc SpecCalc CalcFacts Merge SpecMerge MergeFacts SpecMergeOrder MergeOrder SpecMergeKeep MergeKeep SpecMergeReport MergeReport SpecMergeHeight MergeHeight.
From Coq Require Import List ZArith Bool.
Import ListNotations.
Open Scope string_scope.
Open Scope list_scope.
Open Scope Z_scope.

Lemma filter_insert {X} (f : X -> bool) l loc x : f x = false -> filter f (insert_ l loc x) = filter f l.
Proof. intros E. destruct (insert_split l loc x) as (a & b & -> & ->). rewrite !filter_app. cbn [filter]. rewrite E. reflexivity. Qed.
Lemma filter_nth {X} (R : X -> X -> Prop) (f : X -> bool) : forall l, StronglySorted R (filter f l) ->
  forall i j x y, (i < j)%nat -> nth_error l i = Some x -> nth_error l j = Some y -> f x = true -> f y = true -> R x y.
Proof.
  induction l as [|a l IH]; intros S i j x y IJ NX NY FX FY; [destruct i; discriminate|]. destruct j as [|j]; [lia|]. cbn [nth_error] in NY.
  cbn [filter] in S. destruct i as [|i]; cbn [nth_error] in NX.
  - assert (a = x) as -> by congruence. rewrite FX in S. apply StronglySorted_inv in S as [_ S]. rewrite Forall_forall in S. apply S, filter_In. split; [eapply nth_error_In, NY|exact FY].
  - destruct (f a); [apply StronglySorted_inv in S as [S _]|]; apply (IH S i j); auto; lia.
Qed.
Lemma sorted_of_nth {X} (R : X -> X -> Prop) : forall l, (forall i j x y, (i < j)%nat -> nth_error l i = Some x -> nth_error l j = Some y -> R x y) -> StronglySorted R l.
Proof.
  induction l as [|a l IH]; intros H; [constructor|]. constructor.
  - apply IH. intros i j x y IJ. apply (H (Datatypes.S i) (Datatypes.S j)). lia.
  - apply Forall_forall. intros y Y. apply In_nth_error in Y as (j & J). apply (H 0%nat (Datatypes.S j)); [lia|reflexivity|exact J].
Qed.

Section G.
Context {A : arith} {ok : num A -> Prop} (O : ordered A ok).
Notation N := (num A).
Notation lt := (n_lt A).
Hypothesis LE : forall x y : N, ok x -> ok y -> n_le A x y = negb (lt y x).
Hypothesis EQS : forall x y : N, n_eq A x y = true -> n_eq A y x = true.
Hypothesis NT : forall x y z : N, ok x -> ok y -> ok z -> lt x z = true -> lt x y = true \/ lt y z = true.
Variable m : N.
Hypothesis MM : n_eq A m m = true.
(** not within one metre means different *)
Hypothesis NEAR : forall x y : N, ok x -> ok y -> lt (n_abs A (n_sub A x y)) (l_ A 1) = false -> lt x y = false -> lt y x = true.
Notation "'HG' st" := (s_hght (zw_s A st)) (at level 10, st at level 9).
Notation "'PR' st" := (s_pres (zw_s A st)) (at level 10, st at level 9).
Notation fine := (fine (ok := ok) m).
Notation inv := (inv (A := A)).

(** ** Levels without a pressure lie strictly between their neighbours *)
Definition gaps (P H : list N) : Prop := forall j x, nth_error P j = Some x -> n_eq A x m = true ->
  exists a h b, (1 <= j)%nat /\ nth_error H (j - 1) = Some a /\ nth_error H j = Some h /\ nth_error H (Datatypes.S j) = Some b /\ lt a h = true /\ lt h b = true.
Definition kept (s s' : sounding N) : Prop := filter (ne A m) (s_pres s') = filter (ne A m) (s_pres s).
Lemma gaps_insert P H i a b h : length P = length H -> (1 <= i)%nat -> nth_error H (i - 1) = Some a -> nth_error H i = Some b -> lt a h = true -> lt h b = true ->
  gaps P H -> gaps (insert_ P (Z.of_nat i) m) (insert_ H (Z.of_nat i) h).
Proof.
  intros L I EA EB LA LB G j x NX MX. assert (IL : (i < length H)%nat) by (apply nth_error_Some; congruence).
  destruct (Nat.lt_trichotomy j i) as [C|[->|C]].
  - rewrite insert_before in NX by lia. destruct (G j x NX MX) as (a' & h' & b' & J & E1 & E2 & E3 & L1 & L2). rewrite !(insert_before H) by lia.
    destruct (Nat.eq_dec (Datatypes.S j) i) as [E|NE].
    + rewrite E, insert_here by lia. exists a', h', h. assert (j = (i - 1)%nat) by lia. subst j. assert (h' = a) as -> by congruence. auto 8.
    + rewrite insert_before by lia. exists a', h', b'. auto 8.
  - rewrite insert_before, insert_here, insert_after by lia. exists a, h, b. auto 8.
  - destruct j as [|j]; [lia|]. rewrite insert_after in NX by lia. destruct (G j x NX MX) as (a' & h' & b' & J & E1 & E2 & E3 & L1 & L2).
    replace (Datatypes.S j - 1)%nat with j by lia. rewrite !(insert_after H _ h (Datatypes.S j)), !(insert_after H _ h j) by lia.
    destruct (Nat.eq_dec j i) as [->|NE].
    + rewrite insert_here by lia. exists h, h', b'. assert (h' = b) as -> by congruence. split; [lia|]. auto 8.
    + destruct j as [|j]; [lia|]. rewrite insert_after by lia. cbn [Nat.sub] in E1. rewrite Nat.sub_0_r in E1. exists a', h', b'. split; [lia|]. auto 8.
Qed.
Lemma step_gaps h d v st st' : inv st -> sized st -> zw_more A st = true -> report_step m h d v st = Ok st' -> fine (HG st') ->
  gaps (PR st) (HG st) -> gaps (PR st') (HG st') /\ kept (zw_s A st) (zw_s A st').
Proof.
  intros I SZ M H F G. pose proof (fine_pulls m _ _ (step_pulls m _ _ _ _ _ H) F) as F0.
  assert (SAME : forall i s, (exists a, set_key A (zw_s A st) DRCT i d = Ok a /\ set_key A a SPED i v = Ok s) -> s_pres s = PR st /\ s_hght s = HG st).
  { intros i s (a & S1 & S2). destruct (set_two _ _ _ _ _ _ S1 S2) as (K & _). split; [apply (K PRES)|apply (K HGHT)]; discriminate. }
  apply step_cases in H as [(-> & _)|[(_ & s & -> & W)|(NL & st1 & C & H)]].
  - split; [exact G|reflexivity].
  - cbn [zw_s]. destruct W as [->|(_ & W)]; [split; [exact G|reflexivity]|]. destruct (SAME _ _ W) as [E1 E2]. unfold kept. rewrite E1, E2. auto.
  - assert (ES : zw_s A st1 = zw_s A st /\ inv st1).
    { destruct C as [(_ & ->)|C]; [auto|]. apply (climb_facts LE EQS NT m MM) in C as (C1 & _ & _ & C4 & _); auto. }
    destruct ES as (ES & J1). destruct H as [(_ & ->)|(M1 & [(_ & s & -> & OW)|(NR & ->)])].
    + rewrite ES. split; [exact G|reflexivity].
    + cbn [zw_s]. destruct OW as [->|W]; [rewrite ES; split; [exact G|reflexivity]|]. rewrite ES in W. destruct (SAME _ _ W) as [E1 E2]. unfold kept. rewrite E1, E2. auto.
    + cbn [zw_s insert_level s_hght s_pres] in *. assert (OH : ok h).
      { destruct F as (_ & _ & F). rewrite Forall_forall in F. apply F. apply insert_in. left. reflexivity. }
      destruct (place_between O LE EQS NT m MM h st st1 I F0 OH NL C M1) as [PB1 PB2]. destruct (J1 M1) as (K1 & K2 & K3). rewrite ES in *.
      assert (B : bisect_left lt (HG st) h = zw_ilev A st1) by (eapply (bisect_between LE EQS NT m MM); eauto). rewrite B.
      destruct SZ as [(n & AL) SZ]. pose proof (AL PRES) as AP. pose proof (AL HGHT) as AH. cbn [get] in AP, AH. split.
      * apply (gaps_insert _ _ _ (zw_zold A st1) (zw_znxt A st1)); auto; [congruence|]. apply NEAR; auto. apply (fine_ok m _ _ _ F0 K3).
      * unfold kept. cbn [insert_level s_pres]. apply filter_insert. unfold ne, ismiss. rewrite MM. reflexivity.
Qed.
Lemma loop_gaps ps a b : forall f ab i e st st', inv st -> sized st -> zw_loop A m ps a b f ab i e st = Ok st' -> fine (HG st') ->
  gaps (PR st) (HG st) -> gaps (PR st') (HG st') /\ kept (zw_s A st) (zw_s A st').
Proof.
  induction f as [|f IH]; intros ab i e st st' I SZ H F G; [discriminate|].
  apply (loop_step LE EQS NT m MM) in H as [(_ & ->)|(M & _ & h & d & v & st2 & H)]; [split; [exact G|reflexivity]|].
  cbv zeta in H. destruct H as (_ & _ & _ & S & H).
  assert (L : exists ab' i' e', zw_loop A m ps a b f ab' i' e' st2 = Ok st') by (destruct (_ && _) in H; eauto). destruct L as (ab' & i' & e' & L).
  pose proof (fine_pulls m _ _ (loop_pulls LE EQS NT m MM _ _ _ _ _ _ _ _ _ L) F) as F2. destruct (step_facts O LE EQS NT m MM h d v st st2 I SZ M S F2) as (Z2 & I2 & _).
  destruct (step_gaps h d v st st2 I SZ M S F2 G) as [G2 K2]. destruct (IH _ _ _ _ _ I2 Z2 L F G2) as [G3 K3]. split; [exact G3|]. unfold kept in *. congruence.
Qed.
Lemma winds_gaps ps bb dd n na s s' size : height_winds A m ps bb dd n na s = Ok (s', size) -> EL s -> fine (s_hght s') -> Forall (given m) (s_pres s) ->
  gaps (s_pres s') (s_hght s') /\ kept s s'.
Proof.
  intros H E F GV. unfold height_winds in H. cbv zeta in H. apply bind_inv in H as (ist & _ & H). apply bind_inv in H as (psfc & _ & H).
  apply bind_inv in H as (zsfc & _ & H). apply bind_inv in H as ([[zo zn] il] & ZZ & H).
  match type of H with (let '(_, _) := ?c in _) = _ => destruct c as [ab ie] eqn:AB end.
  apply bind_inv in H as (st & L & H). assert (s' = zw_s A st) as -> by congruence. clear H.
  set (st0 := mk_zw A s (ne A m zo && ne A m zn) zo zn il (length (s_hght s))) in *.
  assert (SZ0 : sized st0) by (split; [exact E|reflexivity]).
  assert (I0 : inv st0).
  { intros M. cbn [st0 zw_s zw_ilev zw_zold zw_znxt zw_more] in *. destruct (_ && _) in ZZ; [|destruct (_ <=? _)%nat in ZZ].
    - apply bind_inv in ZZ as (z1 & Z1 & ZZ). apply bind_inv in ZZ as (z2 & Z2 & ZZ). apply at_ok in Z1, Z2. assert (zo = z1 /\ zn = z2 /\ il = 1%nat) as (-> & -> & ->) by (repeat split; congruence). cbn. auto.
    - apply bind_inv in ZZ as (z1 & Z1 & ZZ). apply bind_inv in ZZ as (z2 & Z2 & ZZ). apply at_ok in Z1, Z2. assert (zo = z1 /\ zn = z2 /\ il = 2%nat) as (-> & -> & ->) by (repeat split; congruence). cbn. auto.
    - assert (zo = m) as -> by congruence. unfold ne, ismiss in M. rewrite MM in M. discriminate. }
  apply (loop_gaps _ _ _ _ _ _ _ _ _ I0 SZ0 L F). intros j x NX MX. exfalso. cbn [st0 zw_s] in NX. rewrite Forall_forall in GV. specialize (GV x (nth_error_In _ _ NX)). unfold given in GV. congruence.
Qed.

(** ** Filling the pressures *)
Definition between_ (pb pt zb zt z : N) : N := n_mul A pb (n_exp A (n_div A (n_mul A (n_sub A z zb) (n_log A (n_div A pt pb))) (n_sub A zt zb))).
(** Which pressures can be interpolated *)
Variable good : N -> Prop.
Hypothesis GOK : forall x, good x -> ok x.
Hypothesis GM : forall x, good x -> n_eq A x m = false.
Hypothesis BET : forall pb pt zb zt z, good pb -> good pt -> ok zb -> ok zt -> ok z -> lt pt pb = true -> lt zb z = true -> lt z zt = true ->
  good (between_ pb pt zb zt z) /\ lt (between_ pb pt zb zt z) pb = true /\ lt pt (between_ pb pt zb zt z) = true.
Hypothesis MON : forall pb pt zb zt z z', good pb -> good pt -> ok zb -> ok zt -> ok z -> ok z' -> lt pt pb = true -> lt zb z = true -> lt z z' = true -> lt z' zt = true ->
  lt (between_ pb pt zb zt z') (between_ pb pt zb zt z) = true.

Lemma fill_range H pb pt zb zt a b l l' : (a <= b)%nat -> Forall (given m) H -> given m zb -> given m pb ->
  foldM (press_fill A H m pb pt zb zt) (range a b) l = Ok l' ->
  length l' = length l /\ (forall j, (a <= j < b)%nat -> exists z, nth_error H j = Some z /\ nth_error l' j = Some (between_ pb pt zb zt z)) /\
  forall j, ~ (a <= j < b)%nat -> nth_error l' j = nth_error l j.
Proof.
  intros AB GH GZ GP F.
  apply (foldM_range' _ (fun i l' => length l' = length l /\ (forall j, (a <= j < i)%nat -> exists z, nth_error H j = Some z /\ nth_error l' j = Some (between_ pb pt zb zt z)) /\
     forall j, ~ (a <= j < i)%nat -> nth_error l' j = nth_error l j) a b) in F; [exact F|exact AB| |].
  - split; [reflexivity|]. split; [intros; lia|auto].
  - intros i s s' LI (L & I1 & I2) E. unfold press_fill in E. apply bind_inv in E as (z & Z & E). apply at_ok in Z.
    assert (GZ1 : n_eq A z m = false) by (rewrite Forall_forall in GH; apply GH; eapply nth_error_In, Z). unfold given in *. rewrite GZ1, GZ, GP in E. cbn [negb andb] in E.
    apply set_ok in E as (_ & L' & S1 & S2). split; [congruence|]. split.
    + intros j J. destruct (Nat.eq_dec j i) as [->|NE]; [exists z; auto|]. rewrite S2 by exact NE. apply I1. lia.
    + intros j J. rewrite S2 by lia. apply I2. lia.
Qed.
Section Fill.
Variables (P H : list N).
Hypothesis LEN : length P = length H.
Hypothesis GH : Forall (given m) H.
Hypothesis OH : Forall ok H.
Hypothesis GA : gaps P H.
Hypothesis DE : descending (filter (ne A m) P).
Hypothesis GD : Forall good (filter (ne A m) P).
Lemma given_good i x : nth_error P i = Some x -> n_eq A x m = false -> good x.
Proof. intros E G. rewrite Forall_forall in GD. apply GD, filter_In. split; [eapply nth_error_In, E|]. unfold ne, ismiss. rewrite G. reflexivity. Qed.
Lemma given_falls i j x y : (i < j)%nat -> nth_error P i = Some x -> nth_error P j = Some y -> n_eq A x m = false -> n_eq A y m = false -> lt y x = true.
Proof. intros IJ X Y GX GY. apply (filter_nth _ _ P DE i j x y); auto; unfold ne, ismiss; [rewrite GX|rewrite GY]; reflexivity. Qed.
Lemma h_ok i z : nth_error H i = Some z -> ok z.
Proof. intros E. rewrite Forall_forall in OH. apply OH. eapply nth_error_In, E. Qed.
(** Heights rise strictly between two levels with pressures and at least one without in between *)
Lemma chain k i : (forall j x, (k < j < i)%nat -> nth_error P j = Some x -> n_eq A x m = true) -> (i < length P)%nat -> (Datatypes.S k < i)%nat ->
  forall n a x y, (k <= a)%nat -> (Datatypes.S (a + n) <= i)%nat -> nth_error H a = Some x -> nth_error H (Datatypes.S (a + n)) = Some y -> lt x y = true.
Proof.
  intros MI IL KI. assert (ONE : forall a x y, (k <= a)%nat -> (Datatypes.S a <= i)%nat -> nth_error H a = Some x -> nth_error H (Datatypes.S a) = Some y -> lt x y = true).
  { intros a x y KA AI X Y. destruct (Nat.eq_dec a k) as [->|NE].
    - destruct (nth_error P (Datatypes.S k)) as [p|] eqn:E; [|apply nth_error_None in E; lia]. destruct (GA _ _ E (MI (Datatypes.S k) p ltac:(lia) E)) as (u & h & w & _ & E1 & E2 & _ & L1 & _).
      cbn [Nat.sub] in E1. rewrite Nat.sub_0_r in E1. assert (u = x) as -> by congruence. assert (h = y) as -> by congruence. exact L1.
    - destruct (nth_error P a) as [p|] eqn:E; [|apply nth_error_None in E; lia]. destruct (GA _ _ E (MI a p ltac:(lia) E)) as (u & h & w & _ & _ & E2 & E3 & _ & L2).
      assert (h = x) as -> by congruence. assert (w = y) as -> by congruence. exact L2. }
  induction n as [|n IH]; intros a x y KA AI X Y.
  - rewrite Nat.add_0_r in *. eapply ONE; eauto.
  - destruct (nth_error H (Datatypes.S (a + n))) as [z|] eqn:Z; [|apply nth_error_None in Z; lia]. apply (o_tr A ok O x z y); [eapply h_ok; eauto..| |].
    + apply (IH a x z); auto. lia.
    + replace (a + Datatypes.S n)%nat with (Datatypes.S (a + n)) in * by lia. apply (ONE (Datatypes.S (a + n)) z y); auto; lia.
Qed.
Lemma chain' k i a b x y : (forall j x, (k < j < i)%nat -> nth_error P j = Some x -> n_eq A x m = true) -> (i < length P)%nat -> (Datatypes.S k < i)%nat ->
  (k <= a < b)%nat -> (b <= i)%nat -> nth_error H a = Some x -> nth_error H b = Some y -> lt x y = true.
Proof. intros MI IL KI AB BI X Y. apply (chain k i MI IL KI (b - a - 1) a x y); [lia|lia|exact X|]. replace (Datatypes.S (a + (b - a - 1))) with b by lia. exact Y. Qed.

Definition filled (i : nat) (st : press_state A) : Prop :=
  exists k p z, (k < i)%nat /\ nth_error P k = Some p /\ nth_error H k = Some z /\ n_eq A p m = false /\
    pr_ilev A st = Some k /\ pr_klev A st = Some k /\ pr_pt A st = p /\ pr_pb A st = p /\ pr_zt A st = z /\ pr_zb A st = z /\
    (forall j x, (k < j < i)%nat -> nth_error P j = Some x -> n_eq A x m = true) /\
    length (pr_p A st) = length P /\ (forall j, (k <= j)%nat -> nth_error (pr_p A st) j = nth_error P j) /\
    (forall j x, (j <= k)%nat -> nth_error (pr_p A st) j = Some x -> good x) /\
    (forall a b x y, (a < b <= k)%nat -> nth_error (pr_p A st) a = Some x -> nth_error (pr_p A st) b = Some y -> lt y x = true) /\
    nth_error (pr_p A st) 0 = nth_error P 0.
Lemma full_test i p z : nth_error H i = Some z -> (negb (n_eq A p m) && negb (n_eq A z m))%bool = negb (n_eq A p m).
Proof. intros Z. rewrite Forall_forall in GH. pose proof (GH _ (nth_error_In _ _ Z)) as G. unfold given in G. rewrite G. apply andb_true_r. Qed.
Lemma filled_first st' : press_step A H m (mk_press A P None None m m m m) 0 = Ok st' -> filled 1 st'.
Proof.
  intros E. unfold press_step in E. cbn [pr_p pr_klev pr_pt pr_zt pr_ilev] in E. apply bind_inv in E as (p & NP & E). apply bind_inv in E as (z & NZ & E). apply at_ok in NP, NZ. cbv zeta in E.
  rewrite (full_test _ _ _ NZ) in E. assert (G0 : n_eq A p m = false).
  { destruct (n_eq A p m) eqn:X; [|reflexivity]. destruct (GA _ _ NP X) as (? & ? & ? & J & _). lia. }
  rewrite G0 in E. cbn [negb bind] in E. injection E as <-. exists 0%nat, p, z. cbn. do 10 (split; [auto|]). split; [intros; lia|]. split; [reflexivity|]. split; [reflexivity|].
  split; [|split; [intros; lia|reflexivity]]. intros j x J X. assert (j = 0%nat) by lia. subst j. apply (given_good 0); [exact X|congruence].
Qed.
Lemma range_nil a b : (b <= a)%nat -> range a b = [].
Proof. intros L. unfold range. replace (b - a)%nat with 0%nat by lia. reflexivity. Qed.
Lemma filled_step i st st' : (1 <= i < length P)%nat -> filled i st -> press_step A H m st i = Ok st' -> filled (Datatypes.S i) st'.
Proof.
  intros LI (k & p & z & KI & NP & NZ & GP & E1 & E2 & E3 & E4 & E5 & E6 & MI & L & SA & GO & SO & FI) E.
  unfold press_step in E. apply bind_inv in E as (pi & PI & E). apply bind_inv in E as (zi & ZI & E). apply at_ok in PI, ZI. cbv zeta in E.
  rewrite SA in PI by lia. rewrite (full_test _ _ _ ZI), E1, E2, E3, E4, E5, E6 in E. destruct (n_eq A pi m) eqn:X; cbn [negb] in E.
  - rewrite range_nil in E by lia. cbn [foldM bind] in E. injection E as <-. exists k, p, z. cbn. do 9 (split; [auto|]). split; [auto|].
    split; [|do 4 (split; [assumption|]); exact FI]. intros j x J NX. destruct (Nat.eq_dec j i) as [->|NE]; [congruence|]. apply (MI j x); [lia|exact NX].
  - apply bind_inv in E as (l' & FL & E). injection E as <-.
    assert (GH' := GH). rewrite Forall_forall in GH'. pose proof (GH' _ (nth_error_In _ _ NZ)) as GZ.
    apply fill_range in FL as (L' & F1 & F2); [|lia|exact GH|exact GZ|exact GP].
    pose proof (given_good _ _ NP GP) as GP1. pose proof (given_good _ _ PI X) as GP2. pose proof (given_falls k i p pi KI NP PI GP X) as LP.
    assert (NEW : forall j, (k < j < i)%nat -> exists y, nth_error l' j = Some y /\ good y /\ lt y p = true /\ lt pi y = true).
    { intros j J. destruct (F1 j ltac:(lia)) as (zj & ZJ & NJ). exists (between_ p pi z zi zj). split; [exact NJ|]. apply BET; auto; [eapply h_ok; eauto..| |].
      - apply (chain' k i k j z zj MI); auto; lia.
      - apply (chain' k i j i zj zi MI); auto; lia. }
    assert (OLD : forall j, (j <= k)%nat -> nth_error l' j = nth_error (pr_p A st) j) by (intros j J; apply F2; lia).
    assert (ATK : nth_error l' k = Some p) by (rewrite OLD, SA by lia; exact NP).
    assert (ATI : nth_error l' i = Some pi) by (rewrite F2, SA by lia; exact PI).
    (* what is at or below k is not lower than p *)
    assert (HI : forall j x y, (j <= k)%nat -> nth_error l' j = Some x -> good y -> lt y p = true -> lt y x = true).
    { intros j x y J NX GY LY. destruct (Nat.eq_dec j k) as [->|NE]; [congruence|]. rewrite OLD in NX by lia. apply (o_tr A ok O y p x); [apply GOK, GY|apply GOK, GP1|apply GOK, (GO j x ltac:(lia) NX)|exact LY|].
      apply (SO j k x p ltac:(lia) NX). rewrite SA by lia. exact NP. }
    exists i, pi, zi. cbn. do 9 (split; [auto|]). split; [reflexivity|]. split; [intros; lia|]. split; [congruence|]. split; [intros j J; rewrite F2 by lia; apply SA; lia|]. split; [|split].
    + intros j x J NX. destruct (Nat.le_gt_cases j k) as [C|C]; [apply (GO j x C); rewrite <- OLD; auto|]. destruct (Nat.eq_dec j i) as [->|NE]; [congruence|].
      destruct (NEW j ltac:(lia)) as (y & Y & GY & _). congruence.
    + intros a b x y AB NX NY. destruct (Nat.le_gt_cases b k) as [C|C].
      { rewrite OLD in NX, NY by lia. apply (SO a b); auto. lia. }
      destruct (Nat.le_gt_cases a k) as [C1|C1].
      { destruct (Nat.eq_dec b i) as [->|NE].
        - assert (y = pi) as -> by congruence. apply (HI a x pi); auto.
        - destruct (NEW b ltac:(lia)) as (y' & Y & GY & L1 & _). assert (y' = y) as -> by congruence. apply (HI a x y); auto. }
      destruct (F1 a ltac:(lia)) as (za & ZA & NA). assert (x = between_ p pi z zi za) as -> by congruence.
      destruct (Nat.eq_dec b i) as [->|NE].
      * destruct (NEW a ltac:(lia)) as (y' & Y & _ & _ & L2). assert (y = pi) as -> by congruence. congruence.
      * destruct (F1 b ltac:(lia)) as (zb & ZB & NB). assert (y = between_ p pi z zi zb) as -> by congruence.
        apply MON; auto; [eapply h_ok; eauto..| | |].
        -- apply (chain' k i k a z za MI); auto; lia.
        -- apply (chain' k i a b za zb MI); auto; lia.
        -- apply (chain' k i b i zb zi MI); auto; lia.
    + transitivity (nth_error (pr_p A st) 0); [exact (OLD 0%nat (Nat.le_0_l _))|exact FI].
Qed.
Lemma filled_all st' : P <> [] -> foldM (press_step A H m) (range 0 (length P)) (mk_press A P None None m m m m) = Ok st' ->
  descending (pr_p A st') /\ Forall good (pr_p A st') /\ nth_error (pr_p A st') 0 = nth_error P 0.
Proof.
  intros NE F. assert (F' : filled (length P) st').
  { unfold range in F. rewrite Nat.sub_0_r in F. assert (LP' : exists n, length P = Datatypes.S n) by (destruct P as [|x0 P0]; [congruence|exists (length P0); reflexivity]). destruct LP' as (n & LP). rewrite LP in F |- *. cbn [seq foldM] in F. apply bind_inv in F as (st1 & S1 & F).
    replace (seq 1 n) with (range 1 (Datatypes.S n)) in F by (unfold range; f_equal; lia).
    apply (foldM_range' _ filled 1 (Datatypes.S n)) in F; [exact F|lia|apply filled_first, S1|]. intros i s s' LI. apply filled_step. lia. }
  destruct F' as (k & p & z & KI & NP & NZ & GP & _ & _ & _ & _ & _ & _ & MI & L & SA & GO & SO & FI).
  (* the last level has a pressure *)
  assert (k = (length P - 1)%nat).
  { destruct (Nat.eq_dec k (length P - 1)) as [|NK]; [assumption|exfalso]. destruct (nth_error P (length P - 1)) as [x|] eqn:X; [|apply nth_error_None in X; lia].
    destruct (GA _ _ X (MI (length P - 1)%nat x ltac:(lia) X)) as (u & h & w & _ & _ & _ & W & _). assert (Datatypes.S (length P - 1) < length H)%nat by (apply nth_error_Some; congruence). lia. }
  split; [|split; [|exact FI]].
  - apply sorted_of_nth. intros i j x y IJ NX NY. apply (SO i j); auto. split; [exact IJ|]. assert (j < length (pr_p A st'))%nat by (apply nth_error_Some; congruence). lia.
  - apply Forall_forall. intros x X. apply In_nth_error in X as (j & J). apply (GO j x); [|exact J]. assert (j < length (pr_p A st'))%nat by (apply nth_error_Some; congruence). lia.
Qed.
End Fill.

(** ** The stage *)
Lemma height_stage ps bb dd n na s s1 size s2 : EL s -> s_pres s <> [] -> descending (s_pres s) -> Forall good (s_pres s) ->
  height_winds A m ps bb dd n na s = Ok (s1, size) -> interp_logp_pressure A s1 m = Ok s2 -> fine (s_hght s1) ->
  descending (s_pres s2) /\ Forall good (s_pres s2) /\ s_hght s2 = s_hght s1.
Proof.
  intros E NE D G H1 H2 F.
  assert (GV : Forall (given m) (s_pres s)) by (eapply Forall_impl; [|exact G]; intros x X; apply GM, X).
  destruct (winds_gaps _ _ _ _ _ _ _ _ H1 E F GV) as [GA KE]. pose proof (height_winds_EL m _ _ _ _ _ _ _ _ E H1) as (k & AL).
  assert (FA : filter (ne A m) (s_pres s) = s_pres s).
  { clear - GV. induction (s_pres s) as [|x l IH]; [reflexivity|]. inversion_clear GV as [|? ? GX GL]. cbn [filter]. unfold ne at 1, ismiss. unfold given in GX. rewrite GX. cbn [negb]. f_equal. apply IH, GL. }
  unfold kept in KE. rewrite FA in KE. unfold interp_logp_pressure in H2. apply bind_inv in H2 as (st & FO & H2). assert (s2 = put s1 PRES (pr_p A st)) as -> by congruence.
  destruct F as (F1 & F2 & F3). apply filled_all in FO; auto.
  - destruct FO as (X1 & X2 & _). split; [exact X1|]. split; [exact X2|reflexivity].
  - pose proof (AL PRES) as L1. pose proof (AL HGHT) as L2. cbn [get] in L1, L2. congruence.
  - rewrite KE. exact D.
  - rewrite KE. exact G.
  - intros X. rewrite X in KE. cbn in KE. congruence.
Qed.

(** ** The whole *)
Hypothesis OM : ok m.
Hypothesis ABSM : forall x, ok x -> n_eq A (n_abs A x) m = false.
Hypothesis M0 : n_lt A m (lit_ 0) = true.
Hypothesis O0 : ok (lit_ 0).
Notation GS s := (Forall good (s_pres s)).
Lemma insert_good {X} (Q : X -> Prop) l loc x : Forall Q l -> Q x -> Forall Q (insert_ l loc x).
Proof. intros F QX. rewrite Forall_forall in *. intros y Y. apply insert_in in Y as [->|Y]; auto. Qed.
Lemma insert_part_good ps name n u f g st st' : (forall pl x, arr A ps name PRES = Ok pl -> In x pl -> good (n_abs A x)) -> (forall s a b s', f s a b = Ok s' -> s_pres s' = s_pres s) ->
  GS (in_s A st) -> insert_part A m ps name n u f g st = Ok st' -> GS (in_s A st').
Proof.
  intros QP FS P H. unfold insert_part in H. destruct n; [assert (st' = st) as -> by congruence; exact P|]. apply bind_inv in H as (pl & L & H).
  apply (foldM_plain _ (fun st => GS (in_s A st))) in H; [exact H|exact P|]. clear H st st' P. intros st i st' _ P H.
  unfold insert_step in H. apply bind_inv in H as (raw & R & H). apply at_ok in R. cbv zeta in H.
  apply bind_inv in H as (b & B & H). destruct b; [|match type of H with Ok ?x = _ => assert (st' = x) as -> by congruence end; exact P].
  destruct (n_lt A (in_pbot A st) _) in H; [assert (st' = st) as -> by congruence; exact P|].
  destruct (existsb _ _) in H.
  - apply bind_inv in H as (pl0 & _ & H). apply bind_inv in H as (s1 & S1 & H). match type of H with Ok ?x = _ => assert (st' = x) as -> by congruence end.
    cbn [in_s]. rewrite (FS _ _ _ _ S1). exact P.
  - apply bind_inv in H as (fr & _ & H). match type of H with Ok ?x = _ => assert (st' = x) as -> by congruence end. cbn [in_s insert_level s_pres].
    apply insert_good; [exact P|]. apply (QP pl); [exact L|eapply nth_error_In, R].
Qed.
Lemma trop_good ps name n st st' : (forall pl x, arr A ps name PRES = Ok pl -> In x pl -> good (n_abs A x)) -> GS (in_s A st) -> trop_part A m ps name n st = Ok st' -> GS (in_s A st').
Proof.
  intros QP P H. unfold trop_part in H. eapply insert_part_good; [exact QP| |exact P|exact H]. intros s a b s' E. cbv beta in E.
  apply bind_inv in E as (s1 & S1 & E). apply bind_inv in E as (s2 & S2 & E).
  apply set_pres in E; [|discriminate]. rewrite E. apply fill_dir_pres in S2. rewrite S2. eapply fill_temp_pres, S1.
Qed.
Lemma sigt_good ps name n st st' : (forall pl x, arr A ps name PRES = Ok pl -> In x pl -> good (n_abs A x)) -> GS (in_s A st) -> sigt_part A m ps name n st = Ok st' -> GS (in_s A st').
Proof. intros QP P H. unfold sigt_part in H. eapply insert_part_good; [exact QP| |exact P|exact H]. intros s a b s' E. eapply fill_temp_pres, E. Qed.
Lemma wind_good ps name n st st' : (forall pl x, arr A ps name PRES = Ok pl -> In x pl -> good (n_abs A x)) -> GS (in_s A st) -> wind_part A m ps name n st = Ok st' -> GS (in_s A st').
Proof. intros QP P H. unfold wind_part in H. eapply insert_part_good; [exact QP| |exact P|exact H]. intros s a b s' E. eapply fill_wind_pres, E. Qed.
Lemma man_step_good (p : part A) count st i st' : NoDup (map fst p) -> (forall pl x, arr_of A p PRES = Ok pl -> In x pl -> given m x -> good x) ->
  GS (fst (fst st)) -> man_step A m p count st i = Ok st' -> GS (fst (fst st')).
Proof.
  intros ND GP G H. destruct st as [[s plast] bgl]. cbn [fst] in *. unfold man_step in H. apply bind_inv in H as (pl & PL & H). apply bind_inv in H as (pr & EPR & H). apply at_ok in EPR.
  apply bind_inv in H as (b & B & H). destruct b.
  - apply bind_inv in H as (s1 & S1 & H). apply bind_inv in H as (last & LA & H). assert (st' = (s1, last, bgl)) as -> by congruence. cbn [fst].
    destruct (append_pres p i s s1 ND S1) as [AP _]. destruct (AP pl PL) as (x & X & SP). assert (x = pr) as -> by congruence. rewrite SP.
    destruct (lt pr plast && ne A m pr) eqn:C; [|discriminate]. apply andb_prop in C as [_ C2]. apply negb_true_iff in C2.
    apply Forall_app. split; [exact G|]. constructor; [|constructor]. apply (GP pl pr PL); [eapply nth_error_In, EPR|exact C2].
  - destruct count; [apply bind_inv in H as (q & _ & H)|]; match type of H with Ok ?x = _ => assert (st' = x) as -> by congruence end; exact G.
Qed.
Lemma mandatory_good ps n n' (s s' : sounding N) bgl : dictionary ps "TTAA" -> dictionary ps "TTCC" ->
  (forall name l x, arr A ps name PRES = Ok l -> In x l -> given m x -> good x) -> GS s -> mandatory A m ps n n' s = Ok (s', bgl) -> GS s'.
Proof.
  intros D1 D2 HP G H. unfold mandatory in H. apply bind_inv in H as (p0 & _ & H). cbv zeta in H. apply bind_inv in H as ([[s1 pl1] b1] & F1 & H). apply bind_inv in H as ([[s2 pl2] b2] & F2 & H).
  assert (s' = s2) as -> by congruence. clear H.
  assert (PO : forall name pl x, arr_of A (part_of A ps name) PRES = Ok pl -> In x pl -> given m x -> good x).
  { intros name pl x E. apply (HP name pl x). unfold arr. unfold part_of in E. destruct (assoc name ps); [exact E|discriminate]. }
  apply (foldM_plain _ (fun st => GS (fst (fst st)))) in F1; [|exact G|].
  2:{ intros st i st' _ I E. eapply man_step_good; [apply part_of_dict, D1|apply PO|exact I|exact E]. }
  apply (foldM_plain _ (fun st => GS (fst (fst st)))) in F2; [exact F2|exact F1|].
  intros st i st' _ I E. eapply man_step_good; [apply part_of_dict, D2|apply PO|exact I|exact E].
Qed.
Lemma coord_same ps name n b ps' : (forall p h z, assoc name ps = Some p -> assoc "HGHT" p = Some h -> In z h -> given m z -> lt z (lit_ 0) = false) ->
  wind_coord A m ps name n = Ok (b, ps') -> ps' = ps.
Proof.
  intros HZ H. unfold wind_coord in H. destruct n; [congruence|]. match type of H with match ?a with _ => _ end = _ => destruct a as [p|] eqn:P; [|discriminate] end. match type of H with match ?a with _ => _ end = _ => destruct a; [congruence|] end.
  apply bind_inv in H as (h & HH & H). destruct (existsb _ h) eqn:X in H; [exfalso|congruence]. apply existsb_exists in X as (z & IZ & X). apply andb_true_iff in X as [X1 X2]. apply negb_true_iff in X1.
  unfold arr_of in HH. cbn [key_name] in HH. destruct (assoc "HGHT" p) as [h'|] eqn:EH; [|discriminate]. assert (h' = h) as -> by congruence.
  pose proof (HZ p h z P EH IZ X1) as Y. enough (true = false) by discriminate. transitivity (lt z (lit_ 0)); [symmetry; exact X2|exact Y].
Qed.
Theorem merge_height_order fuel (ps : parts_t A) selv (s : sounding N) :
  numbers ok ps -> dictionary ps "TTAA" -> dictionary ps "TTCC" -> complete ps "TTCC" -> surface_reported m ps ->
  (forall name l x, arr A ps name PRES = Ok l -> In x l -> (given m x -> good x) /\ good (n_abs A x)) ->
  (forall name p h z, name = "PPBB" \/ name = "PPDD" -> assoc name ps = Some p -> assoc "HGHT" p = Some h -> In z h -> given m z -> lt z (lit_ 0) = false) ->
  merge_sounding A m fuel ps selv = Ok (Some s) -> rising_heights m ok s ->
  exists p l b, descending (p :: l) /\ Forall (given m) (p :: l) /\ woven (p :: l) b (s_pres s) /\
    forall y, In y b -> lt p y = true /\ exists i, val A ps "TTAA" PRES i = Ok y.
Proof.
  intros NB D1 D2 C2 SR HP HZ H RH. unfold merge_sounding in H.
  apply bind_inv in H as (n_man & LM & H). do 3 (apply bind_inv in H as (? & _ & H)). apply bind_inv in H as (n_sigt & LT & H). apply bind_inv in H as (n_sigw & LB & H).
  apply bind_inv in H as (n_above & LA & H). do 3 (apply bind_inv in H as (? & _ & H)). apply bind_inv in H as (n_dd & LD & H). do 1 (apply bind_inv in H as (? & _ & H)).
  destruct (_ =? 0)%nat in H; [discriminate|].
  apply bind_inv in H as ([bbz ps1] & W1 & H). apply bind_inv in H as ([ddz ps2] & W2 & H).
  apply coord_same in W1; [|intros p h z; apply HZ; auto]. subst ps1. apply coord_same in W2; [|intros p h z; apply HZ; auto]. subst ps2.
  assert (HQ : forall name pl y, arr A ps name PRES = Ok pl -> In y pl -> good (n_abs A y)) by (intros name pl y E Y; apply (HP name pl y E Y)).
  assert (QH : forall name, forall pl x, arr A ps name PRES = Ok pl -> In x pl -> True) by auto.
  assert (HG1 : forall name i x, val A ps name PRES i = Ok x -> given m x -> good x).
  { intros name i y V G. unfold val in V. apply bind_inv in V as (l & L & V). apply at_ok in V. apply (HP name l y L); [eapply nth_error_In, V|exact G]. }
  apply bind_inv in H as (s1 & S1 & H). apply bind_inv in H as (s2 & S2 & H). apply bind_inv in H as (s3 & S3 & H).
  pose proof (surface_EL _ _ _ _ _ S1) as E1. pose proof (sigt_EL _ _ _ _ _ E1 S2) as E2. pose proof (sigw_EL _ _ _ _ _ _ E2 S3) as E3.
  assert (P1 : exists p, s_pres s1 = [p] /\ ok p).
  { destruct (surface_pres m _ _ _ _ S1) as [E|(p & E & V)]; [exists m; auto|exists p; split; [exact E|eapply numbers_val; eassumption]]. }
  assert (P2 : exists p, s_pres s2 = [p] /\ ok p /\ given m p /\ good p).
  { destruct SR as [SR|SR].
    - assert (N0 : (0 < n_man)%nat) by (destruct SR as (p & V & _); exact (levels_pos _ _ _ _ _ _ LM V)).
      destruct (surface_TTAA O m OM ABSM (fun _ => True) M0 O0 _ _ _ _ NB SR N0 S1) as (p & E & OP & GP & VP). destruct (sigt_keep m _ _ _ _ _ NB E OP S2) as (p' & E' & O' & G' & C').
      exists p'. split; [exact E'|]. split; [exact O'|]. split; [auto|]. destruct C' as [->|C']; [eapply HG1; eauto|eapply HG1; eauto].
    - assert (N0 : (0 < n_sigt)%nat) by (destruct SR as (p & t & V & _); exact (levels_pos _ _ _ _ _ _ LT V)).
      destruct P1 as (p & E & OP). destruct (sigt_TTBB m ABSM (fun _ => True) M0 _ _ _ _ _ NB SR N0 E OP S2) as (p' & E' & O' & G' & C').
      exists p'. split; [exact E'|]. split; [exact O'|]. split; [auto|]. destruct C' as [->|C']; [|eapply HG1; eauto].
      destruct (surface_pres m _ _ _ _ S1) as [X|(q & X & V1)]; [|assert (q = p) as -> by congruence; eapply HG1; eauto].
      assert (p = m) as -> by congruence. unfold given in G'. congruence. }
  destruct P2 as (p2 & EP2 & O2 & G2 & GG2). destruct (sigw_keep O m ABSM _ _ _ _ _ _ NB EP2 O2 S3) as (p0 & EP3 & O3 & G3 & C3). specialize (G3 G2).
  assert (GG3 : GS s3).
  { rewrite EP3. constructor; [|constructor]. destruct C3 as [->|(q & pl & PL & IQ & ->)]; [exact GG2|eapply HQ; eauto]. }
  apply bind_inv in H as ([s4 bgl] & S4 & H). destruct (mandatory_pinv O m OM ABSM (fun _ => True) M0 _ _ _ _ _ _ _ NB D1 D2 EP3 O3 G3 S4) as [I4 _].
  pose proof (mandatory_good _ _ _ _ _ _ D1 D2 (fun name l x E X G => proj1 (HP name l x E X) G) GG3 S4) as G4.
  assert (E4 : EL s4).
  { eapply mandatory_EL; [exact D1|exact D2| | |exact E3|exact S4].
    - destruct n_man; [left; reflexivity|right]. eapply surface_complete, S1.
    - apply levels_zero in LA as [->|(p & P)]; [left; reflexivity|right]. exists p. split; [exact P|]. intros k. apply (C2 p k P). }
  apply bind_inv in H as (s5 & S5 & H). pose proof (man_wind_EL _ _ _ _ _ _ _ E4 S5) as E5. apply man_wind_pres in S5.
  apply bind_inv in H as (s6 & S6 & H). pose proof (man_wind_EL _ _ _ _ _ _ _ E5 S6) as E6. apply man_wind_pres in S6.
  assert (I6 : pinv (ok := ok) m (fun _ => True) p0 (s_pres s6)) by (rewrite S6, S5; exact I4). assert (G6 : GS s6) by (rewrite S6, S5; exact G4).
  apply bind_inv in H as (st7 & S7 & H).
  assert (I7 : pinv (ok := ok) m (fun _ => True) p0 (s_pres (in_s A st7)) /\ GS (in_s A st7) /\ EL (in_s A st7)).
  { destruct (_ <=? _)%nat in S7; [|assert (st7 = mk_ins A s6 m None) as -> by congruence; auto].
    apply bind_inv in S7 as (pb & _ & S7). apply bind_inv in S7 as (st & S & S7). split; [|split].
    - eapply (trop_pinv O); [exact NB|apply QH| |exact S7]. eapply (trop_pinv O); [exact NB|apply QH| |exact S]. exact I6.
    - eapply trop_good; [apply HQ| |exact S7]. eapply trop_good; [apply HQ| |exact S]. exact G6.
    - eapply trop_EL; [|exact S7]. eapply trop_EL; [|exact S]. exact E6. }
  destruct I7 as (I7 & G7 & E7). apply bind_inv in H as (st8 & S8 & H).
  assert (I8 : pinv (ok := ok) m (fun _ => True) p0 (s_pres (in_s A st8)) /\ GS (in_s A st8) /\ EL (in_s A st8)).
  { destruct (_ <=? _)%nat in S8; [|assert (st8 = st7) as -> by congruence; auto].
    apply bind_inv in S8 as (pb & _ & S8). apply bind_inv in S8 as (st & S & S8). split; [|split].
    - eapply (sigt_part_pinv O); [exact NB|apply QH| |exact S8]. eapply (sigt_part_pinv O); [exact NB|apply QH| |exact S]. exact I7.
    - eapply sigt_good; [apply HQ| |exact S8]. eapply sigt_good; [apply HQ| |exact S]. exact G7.
    - eapply sigt_part_EL; [|exact S8]. eapply sigt_part_EL; [|exact S]. exact E7. }
  destruct I8 as (I8 & G8 & E8). apply bind_inv in H as (s9 & S9 & H). cbv zeta in H. cbn [in_s in_size in_pbot] in H. pose proof (moist_EL _ _ _ E8 S9) as E9. apply moist_pres in S9. rewrite <- S9 in I8, G8.
  apply bind_inv in H as (st10 & S10 & H).
  assert (I10 : pinv (ok := ok) m (fun _ => True) p0 (s_pres (in_s A st10)) /\ GS (in_s A st10) /\ EL (in_s A st10)).
  { destruct (_ && _) in S10; [|match type of S10 with Ok ?x = _ => assert (st10 = x) as -> by congruence end; auto].
    apply bind_inv in S10 as (pb & _ & S10). apply bind_inv in S10 as (st & S & S10). split; [|split].
    - eapply (wind_part_pinv O); [exact NB|apply QH| |exact S10]. eapply (wind_part_pinv O); [exact NB|apply QH| |exact S]. exact I8.
    - eapply wind_good; [apply HQ| |exact S10]. eapply wind_good; [apply HQ| |exact S]. exact G8.
    - eapply wind_part_EL; [|exact S10]. eapply wind_part_EL; [|exact S]. exact E9. }
  destruct I10 as (I10 & G10 & E10). apply bind_inv in H as (st11 & S11 & H).
  assert (I11 : pinv (ok := ok) m (fun _ => True) p0 (s_pres (in_s A st11)) /\ GS (in_s A st11) /\ EL (in_s A st11)).
  { destruct (_ <=? _)%nat in S11; [|assert (st11 = st10) as -> by congruence; auto].
    apply bind_inv in S11 as (pb & _ & S11). apply bind_inv in S11 as (st & S & S11). split; [|split].
    - eapply (wind_part_pinv O); [exact NB|apply QH| |exact S11]. eapply (wind_part_pinv O); [exact NB|apply QH| |exact S]. exact I10.
    - eapply wind_good; [apply HQ| |exact S11]. eapply wind_good; [apply HQ| |exact S]. exact G10.
    - eapply wind_part_EL; [|exact S11]. eapply wind_part_EL; [|exact S]. exact E10. }
  destruct I11 as (I11 & G11 & E11). apply bind_inv in H as (s12 & S12 & H). pose proof (logp_EL _ _ _ _ E11 S12) as E12. apply logp_pres in S12. rewrite <- S12 in I11, G11.
  apply bind_inv in H as ([s13 sz] & S13 & H). apply bind_inv in H as (s14 & S14 & H). apply bind_inv in H as (s15 & S15 & H). assert (s = s15) as -> by congruence. clear H.
  pose proof (below_pulls _ _ _ _ _ _ _ S15) as P15. pose proof S14 as S14'. apply missing_data_spec in S14' as (_ & PM & HM & _). rewrite HM in P15. pose proof (fine_pulls m _ _ P15 RH) as F13.
  assert (R : descending (s_pres s13) /\ GS s13 /\ s_pres s13 <> []).
  { assert (NE : s_pres s12 <> []) by (intros X; destruct I11 as (_ & _ & _ & I & _); rewrite X in I; destruct I).
    destruct (bbz || ddz) in S13; [|assert (s13 = s12) as -> by congruence; split; [apply I11|auto]].
    apply bind_inv in S13 as ([sa za] & SA1 & S13). apply bind_inv in S13 as (sb & SB & S13). assert (s13 = sb) as -> by congruence.
    pose proof SB as SB'. apply logp_pressure_filled in SB' as [[LP _] KB]. pose proof (KB HGHT ltac:(discriminate)) as HB. cbn [get] in HB, LP. rewrite HB in F13.
    destruct (height_stage _ _ _ _ _ _ _ _ _ E12 NE (proj1 I11) G11 SA1 SB F13) as (X1 & X2 & _). split; [exact X1|]. split; [exact X2|].
    assert (GV : Forall (given m) (s_pres s12)) by (eapply Forall_impl; [|exact G11]; intros y Y; apply GM, Y).
    destruct (winds_gaps _ _ _ _ _ _ _ _ SA1 E12 F13 GV) as [_ KE]. intros X. rewrite X in LP. cbn in LP. destruct (s_pres sa) eqn:EA; [|discriminate LP]. unfold kept in KE. rewrite EA in KE. cbn [filter] in KE.
    destruct (s_pres s12) as [|q l] eqn:EQ; [congruence|]. inversion_clear GV as [|? ? GQ _]. cbn [filter] in KE. unfold ne at 1, ismiss in KE. unfold given in GQ. rewrite GQ in KE. discriminate KE. }
  destruct R as (R1 & R2 & R3). rewrite <- PM in R1, R2, R3. destruct (s_pres s14) as [|p l] eqn:E; [congruence|].
  destruct (below_woven O m (fun _ => True) ps bgl n_man sz s14 s15 p l NB (GOK _ (Forall_inv R2)) E S15) as (b & W & HB).
  exists p, l, b. split; [exact R1|]. split; [eapply Forall_impl; [|exact R2]; intros y Y; apply GM, Y|]. split; [exact W|exact HB].
Qed.
End G.
