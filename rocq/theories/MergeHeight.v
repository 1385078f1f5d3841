(** Significant winds on height surfaces in a merged sounding. *)
From Coq Require Import Lia ZifyBool ZifyNat String Sorted.
From Verif Require Import Base Calc SpecCalc CalcFacts Merge SpecMerge MergeFacts SpecMergeOrder MergeOrder SpecMergeKeep MergeKeep SpecMergeReport MergeReport SpecMergeHeight.
From Coq Require Import List ZArith Bool.
Import ListNotations.
Open Scope string_scope.
Open Scope list_scope.
Open Scope Z_scope.

(** ** What holds of a list and of the longer ones it was made into *)
Definition pulls {X} (l l' : list X) : Prop :=
  (forall R : X -> X -> Prop, StronglySorted R l' -> StronglySorted R l) /\ (forall P : X -> Prop, Forall P l' -> Forall P l).
Lemma pulls_refl {X} (l : list X) : pulls l l.
Proof. split; auto. Qed.
Lemma pulls_trans {X} (a b c : list X) : pulls a b -> pulls b c -> pulls a c.
Proof. intros [A1 A2] [B1 B2]. split; auto. Qed.
Lemma pulls_in {X} (a b : list X) x : pulls a b -> In x a -> In x b.
Proof. intros [_ P] I. specialize (P (fun y => In y b)). rewrite !Forall_forall in P. apply P; auto. Qed.
Lemma ss_drop {X} (R : X -> X -> Prop) x b : forall a, StronglySorted R (a ++ x :: b) -> StronglySorted R (a ++ b).
Proof.
  induction a as [|y a IH]; cbn [app]; intros H; apply StronglySorted_inv in H as [H F]; [exact H|]. constructor; [apply IH, H|].
  rewrite Forall_app in *. destruct F as [F1 F2]. split; [exact F1|]. inversion F2; assumption.
Qed.
Lemma insert_split {X} (l : list X) loc x : exists a b, l = a ++ b /\ insert_ l loc x = a ++ x :: b.
Proof. unfold insert_. eexists _, _. split; [|reflexivity]. rewrite firstn_skipn. reflexivity. Qed.
Lemma insert_pulls {X} (l : list X) loc x : pulls l (insert_ l loc x).
Proof.
  destruct (insert_split l loc x) as (a & b & -> & ->). split; [intros R; apply ss_drop|]. intros P. rewrite !Forall_app. intros [F1 F2]. split; [exact F1|]. inversion F2; assumption.
Qed.
Lemma insert_in {X} (l : list X) loc x y : In y (insert_ l loc x) <-> y = x \/ In y l.
Proof. destruct (insert_split l loc x) as (a & b & -> & ->). rewrite !in_app_iff. cbn [In]. intuition. Qed.
Lemma insert_before {X} (l : list X) i x j : (i <= length l)%nat -> (j < i)%nat -> nth_error (insert_ l (Z.of_nat i) x) j = nth_error l j.
Proof.
  intros L J. unfold insert_, Zlen. destruct (Z.ltb_spec (Z.of_nat i) 0); [lia|]. replace (Z.to_nat _) with i by lia.
  rewrite <- (firstn_skipn i l) at 3. rewrite !nth_error_app1 by (rewrite firstn_length; lia). reflexivity.
Qed.
Lemma insert_here {X} (l : list X) i x : (i <= length l)%nat -> nth_error (insert_ l (Z.of_nat i) x) i = Some x.
Proof.
  intros L. unfold insert_, Zlen. destruct (Z.ltb_spec (Z.of_nat i) 0); [lia|]. replace (Z.to_nat _) with i by lia.
  rewrite nth_error_app2 by (rewrite firstn_length; lia). rewrite firstn_length. replace (i - _)%nat with 0%nat by lia. reflexivity.
Qed.
Lemma insert_after {X} (l : list X) i x j : (i <= length l)%nat -> (i <= j)%nat -> nth_error (insert_ l (Z.of_nat i) x) (Datatypes.S j) = nth_error l j.
Proof.
  intros L J. unfold insert_, Zlen. destruct (Z.ltb_spec (Z.of_nat i) 0); [lia|]. replace (Z.to_nat _) with i by lia.
  rewrite <- (firstn_skipn i l) at 3. rewrite !nth_error_app2 by (rewrite firstn_length; lia). rewrite firstn_length. replace (Datatypes.S j - _)%nat with (Datatypes.S (j - Nat.min i (length l)))%nat by lia. reflexivity.
Qed.

Section H.
Context {A : arith} {ok : num A -> Prop} (O : ordered A ok).
Notation N := (num A).
Notation lt := (n_lt A).
Hypothesis LE : forall x y : N, ok x -> ok y -> n_le A x y = negb (lt y x).
Hypothesis EQS : forall x y : N, n_eq A x y = true -> n_eq A y x = true.
(** what is between is above the lower or below the higher *)
Hypothesis NT : forall x y z : N, ok x -> ok y -> ok z -> lt x z = true -> lt x y = true \/ lt y z = true.
Variable m : N.
Hypothesis MM : n_eq A m m = true.
Notation "'HG' st" := (s_hght (zw_s A st)) (at level 10, st at level 9).

Definition fine (l : list N) : Prop := not_falling l /\ Forall (given m) l /\ Forall ok l.
Lemma fine_pulls l l' : pulls l l' -> fine l' -> fine l.
Proof. intros [P1 P2] (F1 & F2 & F3). split; [apply P1, F1|]. split; apply P2; assumption. Qed.
Lemma fine_ok l i x : fine l -> nth_error l i = Some x -> ok x.
Proof. intros (_ & _ & F) E. rewrite Forall_forall in F. apply F. eapply nth_error_In, E. Qed.
Lemma fine_given l i x : fine l -> nth_error l i = Some x -> given m x.
Proof. intros (_ & F & _) E. rewrite Forall_forall in F. apply F. eapply nth_error_In, E. Qed.
Lemma lt_below x y z : ok x -> ok y -> ok z -> lt y x = false -> lt y z = true -> lt x z = true.
Proof. intros X Y Z L M. destruct (NT y x z Y X Z M) as [E|E]; congruence. Qed.

(** The place of a value between two neighbours *)
Lemma bisect_between l i a b x : fine l -> ok x -> (1 <= i)%nat -> nth_error l (i - 1) = Some a -> nth_error l i = Some b ->
  lt a x = true -> lt b x = false -> bisect_left lt l x = i.
Proof.
  intros F OX I EA EB LA LB. pose proof (fine_ok l) as OKN. destruct F as (NF & F2 & F3). assert (F : fine l) by (split; auto).
  assert (MON : forall i j y z, (i < j)%nat -> nth_error l i = Some y -> nth_error l j = Some z -> lt z x = true -> lt y x = true).
  { intros i0 j y z IJ Y Z L. apply (lt_below y z x); eauto. apply (sorted_nth _ _ NF i0 j y z IJ Y Z). }
  pose proof (bisect_loop_spec lt l x MON (Datatypes.S (length l)) 0 (length l) ltac:(lia) ltac:(lia) ltac:(lia)) as B. cbv zeta in B.
  destruct B as (B1 & B2 & B3); [intros; lia|intros k y K Y; assert (nth_error l k <> None) by congruence; apply nth_error_Some in H; lia|].
  fold (bisect_left lt l x) in B1, B2, B3. set (c := bisect_left lt l x) in *.
  destruct (Nat.lt_trichotomy c i) as [C|[C|C]]; [|exact C|].
  - rewrite (B3 (i - 1)%nat a) in LA by (lia || exact EA). discriminate.
  - rewrite (B2 i b) in LB by (lia || exact EB). discriminate.
Qed.

(** ** The state of the loop *)
Definition sized (st : zw_state A) : Prop := EL (zw_s A st) /\ zw_size A st = length (HG st).
(** The levels below and above the place looked at *)
Definition inv (st : zw_state A) : Prop := zw_more A st = true ->
  (1 <= zw_ilev A st)%nat /\ nth_error (HG st) (zw_ilev A st - 1) = Some (zw_zold A st) /\ nth_error (HG st) (zw_ilev A st) = Some (zw_znxt A st).
Lemma climb_facts h : forall fuel st st', zw_climb A m fuel h st = Ok st' -> inv st ->
  zw_s A st' = zw_s A st /\ zw_size A st' = zw_size A st /\ (zw_ilev A st <= zw_ilev A st')%nat /\ inv st' /\
  (zw_more A st' = true -> zw_more A st = true /\ lt (zw_znxt A st') h = false /\ (zw_zold A st' = zw_zold A st \/ lt (zw_zold A st') h = true)).
Proof.
  induction fuel as [|f IH]; intros st st' H I; [discriminate|]. cbn [zw_climb] in H. destruct (zw_more A st) eqn:M; cbn [andb] in H.
  - specialize (I M) as I1. destruct (lt (zw_znxt A st) h) eqn:L.
    + cbv zeta in H. destruct (_ <=? _)%nat in H.
      * apply IH in H; [|intros X; discriminate X]. cbn [zw_s zw_size zw_ilev zw_more zw_zold zw_znxt] in H. destruct H as (H1 & H2 & H3 & H4 & H5).
        split; [exact H1|]. split; [exact H2|]. split; [lia|]. split; [exact H4|]. intros X. destruct (H5 X) as (Y & _). discriminate Y.
      * apply bind_inv in H as (z & Z & H). apply at_ok in Z. apply IH in H.
        2:{ intros _. cbn [zw_s zw_ilev zw_more zw_zold zw_znxt]. split; [lia|]. split; [|exact Z]. cbn [Nat.sub]. rewrite Nat.sub_0_r. apply I1. }
        cbn [zw_s zw_size zw_ilev zw_more zw_zold zw_znxt] in H. destruct H as (H1 & H2 & H3 & H4 & H5).
        split; [exact H1|]. split; [exact H2|]. split; [lia|]. split; [exact H4|]. intros X. destruct (H5 X) as (Y & Z1 & [Z2|Z2]); (split; [reflexivity|]; split; [exact Z1|right]); [rewrite Z2; exact L|exact Z2].
    + assert (st' = st) as -> by congruence. split; [reflexivity|]. split; [reflexivity|]. split; [lia|]. split; [exact I|]. auto.
  - assert (st' = st) as -> by congruence. split; [reflexivity|]. split; [reflexivity|]. split; [lia|]. split; [exact I|]. congruence.
Qed.
(** Climbing ends below a level that is not lower *)
Lemma climb_more h x : ok h -> ok x -> lt x h = false -> forall fuel st st', zw_climb A m fuel h st = Ok st' -> inv st -> sized st -> fine (HG st) ->
  In x (HG st) -> zw_more A st = true -> lt (zw_zold A st) h = true -> zw_more A st' = true.
Proof.
  intros OH OX LX. induction fuel as [|f IH]; intros st st' H I SZ F IX M LZ; [discriminate|]. cbn [zw_climb] in H. rewrite M in H. cbn [andb] in H.
  destruct (lt (zw_znxt A st) h) eqn:L; [|assert (st' = st) as -> by congruence; exact M]. specialize (I M) as (I1 & I2 & I3). cbv zeta in H.
  assert (T : (Datatypes.S (zw_ilev A st) < length (HG st))%nat).
  { apply In_nth_error in IX as (j & J). assert (JL : (j < length (HG st))%nat) by (apply nth_error_Some; congruence).
    destruct (Nat.le_gt_cases j (zw_ilev A st)) as [C|C]; [|lia]. exfalso. destruct (Nat.eq_dec j (zw_ilev A st)) as [->|NE]; [congruence|].
    pose proof (sorted_nth _ _ (proj1 F) j (zw_ilev A st) x (zw_znxt A st) ltac:(lia) J I3) as S1. cbv beta in S1.
    rewrite (lt_below x (zw_znxt A st) h OX (fine_ok _ _ _ F I3) OH S1 L) in LX. discriminate. }
  destruct SZ as [E SZ]. destruct (Nat.leb_spec (zw_size A st) (Datatypes.S (zw_ilev A st))) as [C|C]; [lia|]. apply bind_inv in H as (z & Z & H). apply at_ok in Z.
  assert (ne A m z = true) as NZ by (unfold ne, ismiss; rewrite (fine_given _ _ _ F Z); reflexivity).
  apply IH in H; [exact H|intros _|split|exact F|exact IX|exact NZ|exact L]; cbn [zw_s zw_size zw_ilev zw_more zw_zold zw_znxt].
  - split; [lia|]. split; [|exact Z]. cbn [Nat.sub]. rewrite Nat.sub_0_r. exact I3.
  - exact E.
  - exact SZ.
Qed.

(** One report *)
Definition report_step (h d v : N) (st : zw_state A) : res (zw_state A) :=
  '(skip, st1) <- zw_skip A m h d v st ;;
  if zw_more A st1 && negb skip then zw_place A m h d v st1 else Ok st1.
(** The winds at a level are set *)
Definition overwritten (i : nat) (d v : N) (s s' : sounding N) : Prop :=
  s' = s \/ exists a, set_key A s DRCT i d = Ok a /\ set_key A a SPED i v = Ok s'.
(** The outcomes: nothing; the winds of the level below are set; the place looked at has moved up,
    then the winds of the level above are set or a level is inserted *)
Lemma step_cases h d v st st' : report_step h d v st = Ok st' ->
  (st' = st /\ ((ismiss A m h && ismiss A m d && ismiss A m v)%bool = true \/ n_le A h (zw_zold A st) = true)) \/
  (lt (n_abs A (n_sub A (zw_zold A st) h)) (l_ A 1) = true /\ exists s, st' = mk_zw A s (zw_more A st) (zw_zold A st) (zw_znxt A st) (zw_ilev A st) (zw_size A st) /\
     (s = zw_s A st \/ (~ (present m (s_drct (zw_s A st)) (zw_ilev A st - 1) /\ present m (s_sped (zw_s A st)) (zw_ilev A st - 1)) /\ exists a, set_key A (zw_s A st) DRCT (zw_ilev A st - 1) d = Ok a /\ set_key A a SPED (zw_ilev A st - 1) v = Ok s))) \/
  (n_le A h (zw_zold A st) = false /\ exists st1, ((n_le A (zw_znxt A st) h = false /\ st1 = st) \/ zw_climb A m (Datatypes.S (Datatypes.S (zw_size A st))) h st = Ok st1) /\
     ((zw_more A st1 = false /\ st' = st1) \/
      zw_more A st1 = true /\
      (lt (n_abs A (n_sub A (zw_znxt A st1) h)) (l_ A 1) = true /\ (exists s, st' = mk_zw A s (zw_more A st1) (zw_zold A st1) (zw_znxt A st1) (zw_ilev A st1) (zw_size A st1) /\ overwritten (zw_ilev A st1) d v (zw_s A st1) s) \/
       lt (n_abs A (n_sub A (zw_znxt A st1) h)) (l_ A 1) = false /\ st' = mk_zw A (insert_level A (zw_s A st1) (Z.of_nat (bisect_left lt (HG st1) h)) (fun k => match k with HGHT => h | DRCT => d | SPED => v | _ => m end))
               (zw_more A st1) h (zw_znxt A st1) (Datatypes.S (zw_ilev A st1)) (Datatypes.S (zw_size A st1))))).
Proof.
  intros H. unfold report_step in H. apply bind_inv in H as ([sk st1] & S1 & H). unfold zw_skip in S1.
  destruct (_ || _) eqn:C1 in S1.
  { assert (sk = true /\ st1 = st) as [-> ->] by (split; congruence). rewrite andb_false_r in H. left. split; [congruence|]. apply orb_true_iff in C1. exact C1. }
  apply orb_false_iff in C1 as [C1 C2]. destruct (n_lt A _ (l_ A 1)) eqn:C3 in S1.
  { right. left. split; [exact C3|]. apply bind_inv in S1 as (d0 & D0 & S1). apply bind_inv in S1 as (fu & FU & S1). apply at_ok in D0. destruct fu.
    - assert (sk = true /\ st1 = st) as [-> ->] by (split; congruence). rewrite andb_false_r in H. exists (zw_s A st). split; [destruct st; cbn; congruence|left; reflexivity].
    - apply bind_inv in S1 as (s1 & SD & S1). apply bind_inv in S1 as (s2 & SS & S1). injection S1 as E1 E2. subst sk st1. rewrite andb_false_r in H. exists s2. split; [congruence|]. right. split.
      + intros [(x & X & GX) (y & Y & GY)]. assert (x = d0) as -> by congruence. unfold ismiss in FU. rewrite GX in FU. apply bind_inv in FU as (v0 & V0 & FU). apply at_ok in V0.
        assert (y = v0) as -> by congruence. unfold ne, ismiss in FU. rewrite GY in FU. discriminate.
      + exists s1. auto. }
  right. right. split; [exact C2|].
  assert (sk = false /\ ((n_le A (zw_znxt A st) h = false /\ st1 = st) \/ zw_climb A m (Datatypes.S (Datatypes.S (zw_size A st))) h st = Ok st1)) as [-> CL].
  { destruct (n_le A (zw_znxt A st) h) eqn:C4; [apply bind_inv in S1 as (st2 & CL & S1); split; [congruence|right; congruence]|split; [congruence|left; split; [reflexivity|congruence]]]. }
  exists st1. split; [exact CL|]. clear S1 CL. destruct (zw_more A st1) eqn:M; cbn [andb negb] in H; [right; split; [reflexivity|]|left; split; [reflexivity|congruence]].
  unfold zw_place in H. rewrite M in H. destruct (n_lt A _ (l_ A 1)) eqn:C5 in H.
  - left. split; [exact C5|]. apply bind_inv in H as (d0 & D0 & H). apply bind_inv in H as (fu & FU & H). destruct fu.
    + exists (zw_s A st1). split; [destruct st1; cbn in *; congruence|left; reflexivity].
    + apply bind_inv in H as (s1 & SD & H). apply bind_inv in H as (s2 & SS & H). exists s2. split; [congruence|]. right. exists s1. auto.
  - right. split; [exact C5|]. cbv zeta in H. congruence.
Qed.
Lemma set_two s i d v a s' : set_key A s DRCT i d = Ok a -> set_key A a SPED i v = Ok s' ->
  (forall k, k <> DRCT -> k <> SPED -> get s' k = get s k) /\ (forall k j, j <> i -> nth_error (get s' k) j = nth_error (get s k) j) /\ forall k, length (get s' k) = length (get s k).
Proof.
  intros H1 H2. apply set_get in H1 as (l1 & S1 & G1 & O1). apply set_get in H2 as (l2 & S2 & G2 & O2). apply set_ok in S1 as (_ & L1 & _ & T1). apply set_ok in S2 as (_ & L2 & _ & T2).
  split; [|split].
  - intros k K1 K2. rewrite O2, O1 by assumption. reflexivity.
  - intros k j NE. destruct (key_dec k SPED) as [->|NS].
    + rewrite G2, T2 by exact NE. rewrite (O1 SPED) by discriminate. reflexivity.
    + rewrite O2 by exact NS. destruct (key_dec k DRCT) as [->|ND]; [rewrite G1; apply T1, NE|rewrite O1 by exact ND; reflexivity].
  - intros k. destruct (key_dec k SPED) as [->|NS].
    + rewrite G2, L2. rewrite (O1 SPED) by discriminate. reflexivity.
    + rewrite O2 by exact NS. destruct (key_dec k DRCT) as [->|ND]; [rewrite G1; exact L1|rewrite O1 by exact ND; reflexivity].
Qed.
Lemma overwritten_two i d v s s' : overwritten i d v s s' ->
  (forall k, k <> DRCT -> k <> SPED -> get s' k = get s k) /\ (forall k j, j <> i -> nth_error (get s' k) j = nth_error (get s k) j) /\ forall k, length (get s' k) = length (get s k).
Proof. intros [->|(a & H1 & H2)]; [auto|eapply set_two; eauto]. Qed.
Lemma EL_same (s s' : sounding N) : (forall k, length (get s' k) = length (get s k)) -> EL s -> EL s'.
Proof. intros L (n & AL). exists n. intros k. rewrite L. apply AL. Qed.
Lemma get_insert (s : sounding N) loc f k : get (insert_level A s loc f) k = insert_ (get s k) loc (f k).
Proof. destruct k; reflexivity. Qed.

Lemma step_pulls h d v st st' : report_step h d v st = Ok st' -> pulls (HG st) (HG st').
Proof.
  intros H. apply step_cases in H as [(-> & _)|[(_ & s & -> & [->|(_ & a & S1 & S2)])|(_ & st1 & C & H)]]; [apply pulls_refl|apply pulls_refl| |].
  - destruct (set_two _ _ _ _ _ _ S1 S2) as (K & _). cbn [zw_s]. specialize (K HGHT ltac:(discriminate) ltac:(discriminate)). cbn [get] in K. rewrite K. apply pulls_refl.
  - assert (E : zw_s A st1 = zw_s A st) by (destruct C as [(_ & ->)|C]; [reflexivity|eapply zw_climb_s, C]). rewrite <- E.
    destruct H as [(_ & ->)|(_ & [(_ & s & -> & OW)|(_ & ->)])]; [apply pulls_refl| |].
    + apply overwritten_two in OW as (K & _). cbn [zw_s]. specialize (K HGHT ltac:(discriminate) ltac:(discriminate)). cbn [get] in K. rewrite K. apply pulls_refl.
    + cbn [zw_s insert_level s_hght]. apply insert_pulls.
Qed.
(** What is below the place looked at stays *)
Definition stays (i : nat) (s s' : sounding N) : Prop :=
  (forall k j, k = PRES \/ k = HGHT -> (j < i)%nat -> nth_error (get s' k) j = nth_error (get s k) j) /\
  forall j a b, (j < i)%nat -> nth_error (get s DRCT) j = Some a -> nth_error (get s SPED) j = Some b -> given m a -> given m b ->
    nth_error (get s' DRCT) j = Some a /\ nth_error (get s' SPED) j = Some b.
Lemma stays_refl i s : stays i s s.
Proof. split; auto. Qed.
Lemma stays_trans i i' s1 s2 s3 : (i <= i')%nat -> stays i s1 s2 -> stays i' s2 s3 -> stays i s1 s3.
Proof.
  intros L [A1 A2] [B1 B2]. split.
  - intros k j K J. rewrite B1, A1 by (assumption || lia). reflexivity.
  - intros j a b J D V GA GB. destruct (A2 j a b J D V GA GB) as [D' V']. apply (B2 j a b); auto. lia.
Qed.
Lemma stays_above i i0 s s' : (i <= i0)%nat -> (forall k j, j <> i0 -> nth_error (get s' k) j = nth_error (get s k) j) -> stays i s s'.
Proof. intros L E. split; [intros k j _ J; apply E; lia|]. intros j a b J D V _ _. rewrite !E by lia. auto. Qed.
Definition bounded (st st' : zw_state A) : Prop := forall h, ok h -> Forall (fun x => lt x h = true) (HG st) -> Forall (fun x => lt x h = true) (HG st').
Lemma bounded_same st st' : HG st' = HG st -> bounded st st'.
Proof. intros E h _ F. rewrite E. exact F. Qed.
Lemma more_climb st st1 h f : zw_climb A m f h st = Ok st1 -> zw_more A st1 = true -> zw_more A st = true.
Proof.
  revert st. induction f as [|f IH]; intros st H M; [discriminate|]. cbn [zw_climb] in H. destruct (zw_more A st) eqn:E; [reflexivity|]. cbn [andb] in H. congruence.
Qed.
(** The place looked at is where the height belongs *)
Lemma place_between h st st1 : inv st -> fine (HG st) -> ok h -> n_le A h (zw_zold A st) = false ->
  (n_le A (zw_znxt A st) h = false /\ st1 = st) \/ zw_climb A m (Datatypes.S (Datatypes.S (zw_size A st))) h st = Ok st1 -> zw_more A st1 = true ->
  lt (zw_zold A st1) h = true /\ lt (zw_znxt A st1) h = false.
Proof.
  intros I F OH NL C M.
  assert (M0 : zw_more A st = true) by (destruct C as [(_ & ->)|C]; [exact M|eapply more_climb; eauto]). destruct (I M0) as (I1 & I2 & I3).
  pose proof (fine_ok _ _ _ F I2) as O1. pose proof (fine_ok _ _ _ F I3) as O2. rewrite (LE h (zw_zold A st) OH O1) in NL. apply negb_false_iff in NL.
  destruct C as [(NZ & ->)|C].
  - split; [exact NL|]. rewrite (LE _ _ O2 OH) in NZ. apply negb_false_iff in NZ. apply (MergeOrder.lt_asym O); assumption.
  - apply climb_facts in C as (_ & _ & _ & _ & C); [|exact I]. destruct (C M) as (_ & C1 & [C2|C2]); split; try assumption. rewrite C2. exact NL.
Qed.
Lemma step_facts h d v st st' : inv st -> sized st -> zw_more A st = true -> report_step h d v st = Ok st' -> fine (HG st') ->
  sized st' /\ inv st' /\ (zw_ilev A st <= zw_ilev A st')%nat /\ stays (zw_ilev A st) (zw_s A st) (zw_s A st') /\ bounded st st'.
Proof.
  intros I SZ M H F. pose proof (fine_pulls _ _ (step_pulls _ _ _ _ _ H) F) as F0. destruct (I M) as (I1 & I2 & I3). destruct SZ as [E SZ].
  apply step_cases in H as [(-> & _)|[(_ & s & -> & W)|(NL & st1 & C & H)]].
  - split; [split; assumption|]. split; [exact I|]. split; [lia|]. split; [apply stays_refl|apply bounded_same; reflexivity].
  - destruct W as [->|(NP & a & S1 & S2)].
    { unfold sized, inv. cbn [zw_s zw_size zw_ilev zw_more zw_zold zw_znxt]. split; [auto|]. split; [exact I|]. split; [lia|]. split; [apply stays_refl|apply bounded_same; reflexivity]. }
    destruct (set_two _ _ _ _ _ _ S1 S2) as (K & T & L). pose proof (K HGHT ltac:(discriminate) ltac:(discriminate)) as KH. cbn [get] in KH.
    unfold sized, inv. cbn [zw_s zw_size zw_ilev zw_more zw_zold zw_znxt] in *. rewrite KH. split; [split; [eapply EL_same; eauto|exact SZ]|]. split; [exact I|]. split; [lia|]. split; [|apply bounded_same; exact KH].
    split.
    + intros k j [->| ->] J; rewrite K by discriminate; reflexivity.
    + intros j x y J D V GX GY. destruct (Nat.eq_dec j (zw_ilev A st - 1)) as [->|NE]; [|rewrite !T by exact NE; auto]. exfalso. apply NP. split; [exists x|exists y]; auto.
  - assert (ES : zw_s A st1 = zw_s A st /\ zw_size A st1 = zw_size A st /\ (zw_ilev A st <= zw_ilev A st1)%nat /\ inv st1).
    { destruct C as [(_ & ->)|C]; [auto|]. apply climb_facts in C as (C1 & C2 & C3 & C4 & _); auto. }
    destruct ES as (ES & EZ & EI & J1).
    destruct H as [(_ & ->)|(M1 & [(_ & s & -> & OW)|(_ & ->)])].
    + split; [unfold sized; rewrite ES, EZ; auto|]. split; [exact J1|]. split; [exact EI|]. rewrite ES. split; [apply stays_refl|apply bounded_same; rewrite ES; reflexivity].
    + apply overwritten_two in OW as (K & T & L). pose proof (K HGHT ltac:(discriminate) ltac:(discriminate)) as KH. cbn [get] in KH. rewrite ES in *.
      unfold sized, inv in *. cbn [zw_s zw_size zw_ilev zw_more zw_zold zw_znxt] in *. rewrite KH. rewrite ES in J1. split; [split; [eapply EL_same; eauto|rewrite EZ; exact SZ]|]. split; [exact J1|]. split; [exact EI|].
      split; [apply (stays_above _ (zw_ilev A st1)); assumption|apply bounded_same; exact KH].
    + cbn [zw_s insert_level s_hght] in F. assert (OH : ok h).
      { destruct F as (_ & _ & F). rewrite Forall_forall in F. apply F. apply insert_in. left. reflexivity. }
      destruct (place_between h st st1 I F0 OH NL C M1) as [PB1 PB2]. destruct (J1 M1) as (K1 & K2 & K3). rewrite ES in K2, K3.
      assert (B : bisect_left lt (HG st1) h = zw_ilev A st1) by (rewrite ES; eapply bisect_between; eauto). rewrite B. rewrite ES, EZ in *.
      destruct E as (n & AL). assert (LN : (zw_ilev A st1 < n)%nat) by (rewrite <- (AL HGHT); apply nth_error_Some; cbn [get]; congruence).
      unfold sized, inv, stays. cbn [zw_s zw_size zw_ilev zw_more zw_zold zw_znxt]. cbn [insert_level s_hght]. rewrite insert_length. split; [split; [apply EL_insert; exists n; exact AL|rewrite SZ; reflexivity]|]. split.
      { intros _. split; [lia|]. cbn [Nat.sub]. rewrite Nat.sub_0_r. pose proof (AL HGHT) as ALH. cbn [get] in ALH. rewrite insert_here by lia. rewrite insert_after by lia. auto. }
      split; [lia|]. split.
      { split.
        - intros k j _ J. rewrite get_insert. rewrite insert_before; [reflexivity| |lia]. rewrite AL. lia.
        - intros j a b J D V _ _. rewrite !get_insert. rewrite !insert_before by (rewrite ?AL; lia). auto. }
      intros g OG FG. cbn [zw_s insert_level s_hght]. rewrite Forall_forall in *. intros x X. apply insert_in in X as [->|X]; [|apply FG, X].
      pose proof (FG _ (nth_error_In _ _ K3)) as G1. pose proof (fine_ok _ _ _ F0 K3) as O3. apply (lt_below h (zw_znxt A st1) g); assumption.
Qed.
(** Reports below a height [g] with a level not below it: the place looked at stays below [g] *)
Lemma step_below h d v st st' g x : inv st -> sized st -> zw_more A st = true -> report_step h d v st = Ok st' -> fine (HG st) ->
  ok h -> ok g -> lt h g = true -> lt (zw_zold A st) g = true -> In x (HG st) -> lt x g = false -> zw_more A st' = true /\ lt (zw_zold A st') g = true.
Proof.
  intros I SZ M H F OH OG LH LZ IX LX. destruct (I M) as (I1 & I2 & I3). pose proof (fine_ok _ _ _ F I2) as O1. pose proof (fine_ok _ _ _ F I3) as O2.
  assert (OX : ok x) by (destruct F as (_ & _ & F); rewrite Forall_forall in F; apply F, IX).
  apply step_cases in H as [(-> & _)|[(_ & s & -> & W)|(NL & st1 & C & H)]]; [auto|cbn [zw_more zw_zold]; auto|].
  assert (M1 : zw_more A st1 = true).
  { destruct C as [(_ & ->)|C]; [exact M|]. rewrite (LE _ _ OH O1) in NL. apply negb_false_iff in NL. apply (climb_more h x OH OX) in C; auto. destruct (lt x h) eqn:E; [|reflexivity]. rewrite (o_tr A ok O x h g OX OH OG E LH) in LX. discriminate. }
  assert (Z1 : lt (zw_zold A st1) g = true).
  { destruct (place_between h st st1 I F OH NL C M1) as [P1 _]. apply (o_tr A ok O _ h g); auto.
    assert (J : inv st1 /\ zw_s A st1 = zw_s A st) by (destruct C as [(_ & ->)|C]; [auto|apply climb_facts in C as (C1 & _ & _ & C2 & _); auto]). destruct J as [J ES]. destruct (J M1) as (_ & J2 & _). rewrite ES in J2. apply (fine_ok _ _ _ F J2). }
  destruct H as [(X & _)|(_ & [(_ & s & -> & OW)|(_ & ->)])]; [congruence|cbn [zw_more zw_zold]; auto..].
Qed.
(** The report itself *)
Definition placed (i : nat) (s : sounding N) (h d v : N) : Prop :=
  (exists j, (j < i)%nat /\ nth_error (get s HGHT) j = Some h /\ nth_error (get s DRCT) j = Some d /\ nth_error (get s SPED) j = Some v) \/ level_within_1m s h.
Lemma step_placed h d v st st' x : inv st -> sized st -> zw_more A st = true -> report_step h d v st = Ok st' -> fine (HG st) ->
  ok h -> given m d -> lt (zw_zold A st) h = true -> In x (HG st) -> lt x h = false -> placed (zw_ilev A st') (zw_s A st') h d v.
Proof.
  intros I SZ M H F OH GD LZ IX LX. destruct (I M) as (I1 & I2 & I3). pose proof (fine_ok _ _ _ F I2) as O1. pose proof (fine_ok _ _ _ F I3) as O2.
  assert (OX : ok x) by (destruct F as (_ & _ & F); rewrite Forall_forall in F; apply F, IX). pose proof (step_pulls _ _ _ _ _ H) as PU.
  apply step_cases in H as [(-> & [W|W])|[(NR & _)|(NL & st1 & C & H)]].
  - exfalso. unfold ismiss in W. unfold given in GD. rewrite GD, andb_false_r in W. discriminate.
  - exfalso. rewrite (LE _ _ OH O1), LZ in W. discriminate.
  - right. exists (zw_zold A st). split; [apply (pulls_in _ _ _ PU); eapply nth_error_In, I2|exact NR].
  - assert (M1 : zw_more A st1 = true) by (destruct C as [(_ & ->)|C]; [exact M|apply (climb_more h x OH OX LX) in C; auto]).
    destruct (place_between h st st1 I F OH NL C M1) as [P1 P2].
    assert (J : inv st1 /\ zw_s A st1 = zw_s A st) by (destruct C as [(_ & ->)|C]; [auto|apply climb_facts in C as (C1 & _ & _ & C2 & _); auto]). destruct J as [J ES]. destruct (J M1) as (J1 & J2 & J3). rewrite ES in *.
    destruct H as [(X & _)|(_ & [(NR & s & -> & OW)|(_ & ->)])]; [congruence| |].
    + right. exists (zw_znxt A st1). split; [apply (pulls_in _ _ _ PU); eapply nth_error_In, J3|exact NR].
    + left. assert (B : bisect_left lt (HG st) h = zw_ilev A st1) by (eapply bisect_between; eauto). rewrite B. exists (zw_ilev A st1). cbn [zw_s zw_ilev].
      destruct SZ as [(n & AL) _]. assert (LN : (zw_ilev A st1 < n)%nat) by (rewrite <- (AL HGHT); apply nth_error_Some; cbn [get]; congruence).
      split; [lia|]. rewrite !get_insert. rewrite !insert_here by (rewrite AL; lia). auto.
Qed.

(** ** The loop *)
Lemma loop_step ps a b f ab i e st st' : zw_loop A m ps a b (Datatypes.S f) ab i e st = Ok st' ->
  (zw_more A st && (i <? e)%nat = false /\ st' = st) \/
  (zw_more A st = true /\ (i < e)%nat /\ exists h d v st2,
     let name := if ab then "PPDD" else "PPBB" in
     val A ps name HGHT i = Ok h /\ val A ps name DRCT i = Ok d /\ val A ps name SPED i = Ok v /\ report_step h d v st = Ok st2 /\
     if negb ab && (Datatypes.S i =? a)%nat then zw_loop A m ps a b f true 0 b st2 = Ok st' else zw_loop A m ps a b f ab (Datatypes.S i) e st2 = Ok st').
Proof.
  intros H. cbn [zw_loop] in H. destruct (zw_more A st && (i <? e)%nat) eqn:C; [right|left; split; [reflexivity|congruence]].
  apply andb_true_iff in C as [M L]. split; [exact M|]. split; [lia|]. cbv zeta in *.
  apply bind_inv in H as (h & HH & H). apply bind_inv in H as (d & HD & H). apply bind_inv in H as (v & HV & H). apply bind_inv in H as ([sk st1] & S1 & H). apply bind_inv in H as (st2 & S2 & H).
  exists h, d, v, st2. split; [exact HH|]. split; [exact HD|]. split; [exact HV|]. split; [unfold report_step; rewrite S1; exact S2|]. destruct (negb ab && _); exact H.
Qed.
Lemma loop_pulls ps a b : forall f ab i e st st', zw_loop A m ps a b f ab i e st = Ok st' -> pulls (HG st) (HG st').
Proof.
  induction f as [|f IH]; intros ab i e st st' H; [discriminate|]. apply loop_step in H as [(_ & ->)|(_ & _ & h & d & v & st2 & H)]; [apply pulls_refl|].
  cbv zeta in H. destruct H as (_ & _ & _ & S & H). eapply pulls_trans; [eapply step_pulls, S|]. destruct (_ && _) in H; eapply IH, H.
Qed.
Lemma loop_facts ps a b : forall f ab i e st st', inv st -> sized st -> zw_loop A m ps a b f ab i e st = Ok st' -> fine (HG st') ->
  sized st' /\ (zw_ilev A st <= zw_ilev A st')%nat /\ stays (zw_ilev A st) (zw_s A st) (zw_s A st') /\ bounded st st'.
Proof.
  induction f as [|f IH]; intros ab i e st st' I SZ H F; [discriminate|].
  apply loop_step in H as [(_ & ->)|(M & _ & h & d & v & st2 & H)]; [split; [exact SZ|]; split; [lia|]; split; [apply stays_refl|apply bounded_same; reflexivity]|].
  cbv zeta in H. destruct H as (_ & _ & _ & S & H).
  assert (G : exists ab' i' e', zw_loop A m ps a b f ab' i' e' st2 = Ok st') by (destruct (_ && _) in H; eauto). destruct G as (ab' & i' & e' & G).
  pose proof (fine_pulls _ _ (loop_pulls _ _ _ _ _ _ _ _ _ G) F) as F2. destruct (step_facts h d v st st2 I SZ M S F2) as (Z2 & I2 & L2 & T2 & B2).
  destruct (IH _ _ _ _ _ I2 Z2 G F) as (Z3 & L3 & T3 & B3). split; [exact Z3|]. split; [lia|]. split; [eapply stays_trans; eauto|]. intros x OX FX. apply B3, B2; assumption.
Qed.
Lemma placed_stays i i' s s' h d v : (i <= i')%nat -> pulls (get s HGHT) (get s' HGHT) -> stays i s s' -> given m d -> given m v -> placed i s h d v -> placed i' s' h d v.
Proof.
  intros L P [S1 S2] GD GV [(j & J & Z & D & V)|(z & IZ & NZ)].
  - left. exists j. split; [lia|]. rewrite S1 by (auto || lia). destruct (S2 j d v J D V GD GV) as [D' V']. auto.
  - right. exists z. split; [eapply pulls_in; eauto|exact NZ].
Qed.
Definition part_name (ab : bool) : string := if ab then "PPDD" else "PPBB".
Lemma loop_placed ps a b ab e t h d v x : val A ps (part_name ab) HGHT t = Ok h -> val A ps (part_name ab) DRCT t = Ok d -> val A ps (part_name ab) SPED t = Ok v ->
  (t < e)%nat -> (ab = false -> e = a) -> ok h -> given m d -> given m v ->
  (forall i h', (i < t)%nat -> val A ps (part_name ab) HGHT i = Ok h' -> ok h' /\ lt h' h = true) -> lt x h = false ->
  forall f i st st', (i <= t)%nat -> inv st -> sized st -> zw_more A st = true -> lt (zw_zold A st) h = true -> In x (HG st) ->
  zw_loop A m ps a b f ab i e st = Ok st' -> fine (HG st') -> placed (zw_ilev A st') (zw_s A st') h d v.
Proof.
  intros VH VD VV TA AE OH GD GV EA LX. induction f as [|f IH]; intros i st st' IT I SZ M LZ IX H F; [discriminate|].
  apply loop_step in H as [(C & _)|(_ & _ & h' & d' & v' & st2 & H)]; [rewrite M in C; cbn [andb] in C; lia|].
  cbv zeta in H. destruct H as (VH' & VD' & VV' & S & H). fold (part_name ab) in VH', VD', VV'.
  assert (G : exists ab' i' e', zw_loop A m ps a b f ab' i' e' st2 = Ok st') by (destruct (_ && _) in H; eauto). destruct G as (ab' & i' & e' & G).
  pose proof (fine_pulls _ _ (loop_pulls _ _ _ _ _ _ _ _ _ G) F) as F2. pose proof (fine_pulls _ _ (step_pulls _ _ _ _ _ S) F2) as F1.
  destruct (step_facts h' d' v' st st2 I SZ M S F2) as (Z2 & I2 & L2 & T2 & B2).
  destruct (Nat.eq_dec i t) as [->|NE].
  - assert (h' = h /\ d' = d /\ v' = v) as (-> & -> & ->) by (repeat split; congruence).
    pose proof (step_placed h d v st st2 x I SZ M S F1 OH GD LZ IX LX) as P. destruct (loop_facts _ _ _ _ _ _ _ _ _ I2 Z2 G F) as (_ & L3 & T3 & _).
    eapply placed_stays; [exact L3|exact (loop_pulls _ _ _ _ _ _ _ _ _ G)|exact T3|exact GD|exact GV|exact P].
  - destruct (EA i h' ltac:(lia) VH') as [OH' LH].
    assert (negb ab && (Datatypes.S i =? a)%nat = false) as NL. { destruct ab; [reflexivity|]. cbn [negb andb]. specialize (AE eq_refl). apply Nat.eqb_neq. lia. } rewrite NL in H.
    destruct (step_below h' d' v' st st2 h x I SZ M S F1 OH' OH LH LZ IX LX) as [M2 LZ2].
    apply (IH (Datatypes.S i) st2 st'); auto; [lia|]. eapply pulls_in; [eapply step_pulls, S|exact IX].
Qed.
(** Through the reports of PPBB to those of PPDD *)
Lemma loop_through ps a b h x : ok h -> (forall i h', val A ps "PPBB" HGHT i = Ok h' -> ok h' /\ lt h' h = true) -> lt x h = false ->
  forall f i st st', (i < a)%nat -> inv st -> sized st -> zw_more A st = true -> lt (zw_zold A st) h = true -> In x (HG st) ->
  zw_loop A m ps a b f false i a st = Ok st' -> fine (HG st') ->
  exists f' st1, inv st1 /\ sized st1 /\ zw_more A st1 = true /\ lt (zw_zold A st1) h = true /\ In x (HG st1) /\ zw_loop A m ps a b f' true 0 b st1 = Ok st'.
Proof.
  intros OH EA LX. induction f as [|f IH]; intros i st st' IA I SZ M LZ IX H F; [discriminate|].
  apply loop_step in H as [(C & _)|(_ & _ & h' & d' & v' & st2 & H)]; [rewrite M in C; cbn [andb] in C; lia|].
  cbv zeta in H. destruct H as (VH' & VD' & VV' & S & H). cbn [negb andb] in H.
  assert (G : exists ab' i' e', zw_loop A m ps a b f ab' i' e' st2 = Ok st') by (destruct (_ =? _)%nat in H; eauto). destruct G as (ab' & i' & e' & G).
  pose proof (fine_pulls _ _ (loop_pulls _ _ _ _ _ _ _ _ _ G) F) as F2. pose proof (fine_pulls _ _ (step_pulls _ _ _ _ _ S) F2) as F1.
  destruct (step_facts h' d' v' st st2 I SZ M S F2) as (Z2 & I2 & _). destruct (EA i h' VH') as [OH' LH].
  destruct (step_below h' d' v' st st2 h x I SZ M S F1 OH' OH LH LZ IX LX) as [M2 LZ2].
  pose proof (pulls_in _ _ _ (step_pulls _ _ _ _ _ S) IX) as IX2.
  destruct (Nat.eqb_spec (Datatypes.S i) a) as [E|NE].
  - exists f, st2. auto 10.
  - apply (IH (Datatypes.S i) st2 st'); auto. lia.
Qed.

(** ** The stage *)
Lemma short_one (l : list N) z0 x h : (length l <= 1)%nat -> nth_error l 0 = Some z0 -> lt z0 h = true -> In x l -> lt x h = false -> False.
Proof. intros L Z LZ IX LX. destruct l as [|a [|b l]]; cbn in *; [discriminate| |lia]. destruct IX as [<-|[]]. congruence. Qed.
Lemma height_placed (ab0 : bool) ps dd n na s s' size t h d v z0 p0 x : height_winds A m ps true dd n na s = Ok (s', size) -> EL s -> fine (s_hght s') ->
  (EL s' /\ size = length (s_hght s')) /\
  (nth_error (s_pres s') 0 = Some p0 -> given m p0 -> nth_error (s_hght s') 0 = Some z0 -> lt z0 h = true -> In x (s_hght s') -> lt x h = false ->
   (t < if ab0 then (if dd then na else 0) else n)%nat -> val A ps (part_name ab0) HGHT t = Ok h -> val A ps (part_name ab0) DRCT t = Ok d -> val A ps (part_name ab0) SPED t = Ok v -> ok h -> given m d -> given m v ->
   (ab0 = false -> t = 0%nat -> n_eq A h (l_ A 0) = false) -> (forall i h', (i < t)%nat -> val A ps (part_name ab0) HGHT i = Ok h' -> ok h' /\ lt h' h = true) ->
   (ab0 = true -> (2 <= n)%nat /\ forall i h', val A ps "PPBB" HGHT i = Ok h' -> ok h' /\ lt h' h = true) ->
   wind_at s' h d v \/ level_within_1m s' h).
Proof.
  intros H E F. unfold height_winds in H. cbv zeta in H. apply bind_inv in H as (ist & IS & H). apply bind_inv in H as (psfc & PS & H). apply at_ok in PS.
  apply bind_inv in H as (zsfc & ZS & H). apply at_ok in ZS. apply bind_inv in H as ([[zo zn] il] & ZZ & H).
  match type of H with (let '(_, _) := ?c in _) = _ => destruct c as [ab ie] eqn:AB end.
  apply bind_inv in H as (st & L & H). assert (s' = zw_s A st /\ size = zw_size A st) as [-> ->] by (split; congruence). clear H.
  set (st0 := mk_zw A s (ne A m zo && ne A m zn) zo zn il (length (s_hght s))) in *.
  assert (SZ0 : sized st0) by (split; [exact E|reflexivity]).
  pose proof (loop_pulls _ _ _ _ _ _ _ _ _ L) as PU. pose proof (fine_pulls _ _ PU F) as F0. cbn [zw_s st0] in PU, F0.
  assert (ZC : ((2 <= length (s_hght s))%nat /\ n_eq A psfc m = false /\ nth_error (s_hght s) 0 = Some zo /\ nth_error (s_hght s) 1 = Some zn /\ il = 1%nat) \/
               ((3 <= length (s_hght s))%nat /\ (n_eq A psfc m = true) /\ nth_error (s_hght s) 1 = Some zo /\ nth_error (s_hght s) 2 = Some zn /\ il = 2%nat) \/
               (((length (s_hght s) <= 1)%nat \/ n_eq A psfc m = true) /\ zw_more A st0 = false)).
  { assert (GZ : n_eq A zsfc m = false) by (apply (fine_given _ _ _ F0 ZS)). unfold ne, ismiss in ZZ. rewrite GZ in ZZ. destruct (Nat.leb_spec 2 (length (s_hght s))) as [L2|L2]; cbn [andb negb] in ZZ.
    - destruct (n_eq A psfc m) eqn:EP; cbn [andb negb] in ZZ.
      + destruct (Nat.leb_spec 3 (length (s_hght s))) as [L3|L3]; cbn [andb negb] in ZZ.
        * right. left. apply bind_inv in ZZ as (z1 & Z1 & ZZ). apply bind_inv in ZZ as (z2 & Z2 & ZZ). apply at_ok in Z1, Z2. assert (zo = z1 /\ zn = z2 /\ il = 2%nat) as (-> & -> & ->) by (repeat split; congruence). auto.
        * right. right. split; [auto|]. assert (zo = m /\ zn = m) as (-> & ->) by (split; congruence). cbn. unfold ne, ismiss. rewrite MM. reflexivity.
      + left. apply bind_inv in ZZ as (z1 & Z1 & ZZ). apply bind_inv in ZZ as (z2 & Z2 & ZZ). apply at_ok in Z1, Z2. assert (zo = z1 /\ zn = z2 /\ il = 1%nat) as (-> & -> & ->) by (repeat split; congruence). auto.
    - right. right. split; [left; lia|]. destruct (Nat.leb_spec 3 (length (s_hght s))); [lia|]. assert (zo = m /\ zn = m) as (-> & ->) by (split; congruence). cbn. unfold ne, ismiss. rewrite MM. reflexivity. }
  assert (I0 : inv st0).
  { intros M. destruct ZC as [(C1 & C2 & C3 & C4 & ->)|[(C1 & C2 & C3 & C4 & ->)|(_ & C)]]; [| |congruence]; cbn; (split; [lia|auto]). }
  destruct (loop_facts _ _ _ _ _ _ _ _ _ I0 SZ0 L F) as (SZ1 & IL & [ST _] & BO). split; [split; [apply SZ1|apply SZ1]|].
  intros P0 GP Z0 LZ IX LX TN VH VD VV OH GD GV T0 EA EB.
  destruct ZC as [(C1 & C2 & C3 & C4 & IL1)|[(C1 & C2 & C3 & C4 & IL2)|(C & M)]].
  - assert (M : zw_more A st0 = true) by (cbn; unfold ne, ismiss; rewrite (fine_given _ _ _ F0 C3), (fine_given _ _ _ F0 C4); reflexivity).
    assert (EZ : z0 = zo). { specialize (ST HGHT 0%nat (or_intror eq_refl)). cbn [get st0 zw_s zw_ilev] in ST. rewrite ST in Z0 by lia. congruence. } subst z0.
    assert (IX0 : exists y, In y (s_hght s) /\ lt y h = false).
    { destruct (existsb (fun y => negb (lt y h)) (s_hght s)) eqn:EX.
      - apply existsb_exists in EX as (y & Y & LY). exists y. split; [exact Y|]. apply negb_true_iff, LY.
      - exfalso. assert (FA : Forall (fun y => lt y h = true) (s_hght s)).
        { apply Forall_forall. intros y Y. destruct (lt y h) eqn:LY; [reflexivity|]. assert (existsb (fun y => negb (lt y h)) (s_hght s) = true) by (apply existsb_exists; exists y; rewrite LY; auto). congruence. }
        apply (BO h OH) in FA. rewrite Forall_forall in FA. rewrite (FA x IX) in LX. discriminate. }
    destruct IX0 as (y & IY & LY).
    assert (I1 : (ist <= 1)%nat).
    { destruct n; [injection IS as <-; lia|]. apply bind_inv in IS as (h0 & _ & IS). destruct (n_eq A h0 _) in IS; [injection IS as <-; lia|]. apply bind_inv in IS as (z1 & _ & IS). destruct (n_eq A h0 z1) in IS; injection IS as <-; lia. }
    destruct ab0.
    { destruct (EB eq_refl) as [N2 EC]. destruct (Nat.leb_spec ist n) as [LN|LN]; [|lia]. assert (ab = false /\ ie = n) as [-> ->] by (split; congruence).
      destruct (loop_through ps n (if dd then na else 0%nat) h y OH EC LY _ ist st0 st ltac:(lia) I0 SZ0 M LZ IY L F) as (f' & st1 & J1 & J2 & J3 & J4 & J5 & J6).
      pose proof (loop_placed ps n (if dd then na else 0%nat) true _ t h d v y VH VD VV TN ltac:(discriminate) OH GD GV EA LY _ 0%nat st1 st ltac:(lia) J1 J2 J3 J4 J5 J6 F) as PL.
      destruct PL as [(j & _ & J)|PL]; [left; exists j; exact J|right; exact PL]. }
    cbn [part_name] in VH, VD, VV, EA.
    assert (IT : (ist <= t)%nat).
    { destruct t; [|lia]. destruct n; [lia|]. apply bind_inv in IS as (h0 & H0 & IS). assert (h0 = h) as -> by congruence. rewrite (T0 eq_refl eq_refl) in IS.
      apply bind_inv in IS as (z1 & Z1 & IS). apply at_ok in Z1. assert (z1 = zo) as -> by congruence. destruct (n_eq A h zo) eqn:EQ; [|injection IS as <-; lia].
      exfalso. rewrite (o_eq A ok O zo h (fine_ok _ _ _ F0 C3) OH (EQS _ _ EQ)) in LZ. discriminate. }
    destruct (Nat.leb_spec ist n) as [LN|LN]; [|lia]. assert (ab = false /\ ie = n) as [-> ->] by (split; congruence).
    pose proof (loop_placed ps n (if dd then na else 0%nat) false n t h d v y VH VD VV TN ltac:(reflexivity) OH GD GV EA LY _ ist st0 st IT I0 SZ0 M LZ IY L F) as PL.
    destruct PL as [(j & _ & J)|PL]; [left; exists j; exact J|right; exact PL].
  - exfalso. specialize (ST PRES 0%nat (or_introl eq_refl)). cbn [get st0 zw_s zw_ilev] in ST. rewrite ST in P0 by lia. unfold given in GP. congruence.
  - exfalso. assert (zw_s A st = s) as ES.
    { cbn [zw_loop] in L. fold st0 in L. rewrite M in L. cbn [andb] in L. injection L as <-. reflexivity. }
    rewrite ES in *. destruct C as [C|C]; [eapply short_one; eauto|unfold given in GP; congruence].
Qed.

(** ** The stages after it *)
Lemma press_first hg : forall l (st st' : press_state A), foldM (press_step A hg m) l st = Ok st' -> nth_error (pr_p A st') 0 = nth_error (pr_p A st) 0.
Proof.
  intros l st st' H. apply (foldM_plain _ (fun x => nth_error (pr_p A x) 0 = nth_error (pr_p A st) 0)) in H; [exact H|reflexivity|]. clear.
  intros s1 i s2 _ E H. unfold press_step in H. apply bind_inv in H as (p & _ & H). apply bind_inv in H as (z & _ & H). cbv zeta in H. apply bind_inv in H as (q & Q & H).
  assert (s2 = mk_press A q (pr_klev A s2) (pr_klev A s2) (pr_pt A s2) (pr_pt A s2) (pr_zt A s2) (pr_zt A s2)) as -> by (destruct s2; injection H; intros; subst; reflexivity).
  cbn [pr_p]. rewrite <- E. clear E H. destruct (pr_ilev A s1) as [il|]; [|injection Q as <-; reflexivity]. match type of Q with match ?c with _ => _ end = _ => destruct c as [kl|] end; [|injection Q as <-; reflexivity].
  apply (foldM_plain _ (fun x => nth_error x 0 = nth_error (pr_p A s1) 0)) in Q; [exact Q|reflexivity|]. clear Q. intros l1 j l2 J E H. unfold press_fill in H.
  apply bind_inv in H as (zz & _ & H). destruct (_ && _) in H; [|congruence]. apply set_ok in H as (_ & _ & _ & T). rewrite T; [exact E|]. unfold range in J. apply in_seq in J. lia.
Qed.
Lemma bisect_bound (l : list N) x : forall f lo hi, (lo <= hi)%nat -> (bisect_loop lt l x f lo hi <= hi)%nat.
Proof.
  induction f as [|f IH]; intros lo hi LH; cbn [bisect_loop]; [lia|]. destruct (Nat.ltb_spec lo hi) as [C|C]; [|lia]. pose proof (div2_mid lo hi C).
  destruct (nth_error l _) as [y|]; [|lia]. destruct (lt y x).
  - apply IH. lia.
  - specialize (IH lo (Nat.div2 (lo + hi)) ltac:(lia)). lia.
Qed.
Lemma wind_insert s n loc f h d v : aligned s n -> wind_at s h d v -> wind_at (insert_level A s loc f) h d v.
Proof. intros AL (j & J1 & J2 & J3). exists (moved loc n j). rewrite !get_insert. repeat split; apply insert_nth; auto; apply AL. Qed.
Lemma below_facts ps b nm n s s' : aligned s n -> (1 <= n)%nat -> below_ground A m ps b nm (Some n) s = Ok s' ->
  nth_error (s_pres s') 0 = nth_error (s_pres s) 0 /\ nth_error (s_hght s') 0 = nth_error (s_hght s) 0 /\ pulls (s_hght s) (s_hght s') /\
  (forall h d v, wind_at s h d v -> wind_at s' h d v).
Proof.
  intros AL N1 H. unfold below_ground in H. apply bind_inv in H as (p0 & _ & H). destruct (_ && _) in H; [|assert (s' = s) as -> by congruence; split; [reflexivity|]; split; [reflexivity|]; split; [apply pulls_refl|auto]].
  apply bind_inv in H as ([s1 sz] & F & H). assert (s' = s1) as -> by congruence. clear H.
  apply (foldM_plain _ (fun st => exists k, snd st = Some k /\ aligned (fst st) k /\ (1 <= k)%nat /\ nth_error (s_pres (fst st)) 0 = nth_error (s_pres s) 0 /\
     nth_error (s_hght (fst st)) 0 = nth_error (s_hght s) 0 /\ pulls (s_hght s) (s_hght (fst st)) /\ (forall h d v, wind_at s h d v -> wind_at (fst st) h d v))) in F.
  - destruct F as (k & _ & _ & _ & F). exact F.
  - exists n. cbn [fst snd]. split; [reflexivity|]. split; [exact AL|]. split; [exact N1|]. split; [reflexivity|]. split; [reflexivity|]. split; [apply pulls_refl|auto].
  - clear F. intros [s2 z2] i st' _ (k & K & AK & K1 & P & Z & PU & WA) H. cbn [fst snd] in *. subst z2. unfold below_step in H.
    apply bind_inv in H as (pr & _ & H). apply bind_inv in H as (p1 & _ & H). destruct (n_lt A p1 pr); [|assert (st' = (s2, Some k)) as -> by congruence; exists k; cbn [fst snd]; auto 10].
    cbn [bound bind] in H. cbv zeta in H. do 5 (apply bind_inv in H as (? & _ & H)).
    set (c := bisect_left lt (rev (skipn 1 (s_pres s2))) pr) in H.
    assert (CB : (c <= k - 1)%nat).
    { unfold c, bisect_left. etransitivity; [apply bisect_bound; lia|]. rewrite rev_length, skipn_length. pose proof (AK PRES) as X. cbn [get] in X. lia. }
    replace (Z.of_nat k - Z.of_nat c) with (Z.of_nat (k - c)) in H by lia.
    match type of H with Ok ?y = _ => assert (st' = y) as -> by congruence end. cbn [fst snd]. exists (Datatypes.S k).
    split; [reflexivity|]. split; [apply aligned_insert, AK|]. split; [lia|]. cbn [insert_level s_pres s_hght].
    pose proof (AK PRES) as X1. pose proof (AK HGHT) as X2. cbn [get] in X1, X2.
    split; [rewrite insert_before by lia; exact P|]. split; [rewrite insert_before by lia; exact Z|]. split; [eapply pulls_trans; [exact PU|apply insert_pulls]|].
    intros h d v W. eapply wind_insert; [exact AK|apply WA, W].
Qed.
Lemma below_pulls ps b nm size s s' : below_ground A m ps b nm size s = Ok s' -> pulls (s_hght s) (s_hght s').
Proof.
  intros H. unfold below_ground in H. apply bind_inv in H as (p0 & _ & H). destruct (_ && _) in H; [|assert (s' = s) as -> by congruence; apply pulls_refl].
  apply bind_inv in H as ([s1 sz] & F & H). assert (s' = s1) as -> by congruence. clear H.
  apply (foldM_plain _ (fun st => pulls (s_hght s) (s_hght (fst st)))) in F; [exact F|apply pulls_refl|]. clear F. intros [s2 z2] i st' _ PU H. cbn [fst] in *. unfold below_step in H.
  apply bind_inv in H as (pr & _ & H). apply bind_inv in H as (p1 & _ & H). destruct (n_lt A p1 pr); [|assert (st' = (s2, z2)) as -> by congruence; exact PU].
  apply bind_inv in H as (nn & _ & H). cbv zeta in H. do 5 (apply bind_inv in H as (? & _ & H)). match type of H with Ok ?y = _ => assert (st' = y) as -> by congruence end.
  cbn [fst insert_level s_hght]. eapply pulls_trans; [exact PU|apply insert_pulls].
Qed.
Lemma below_none ps b nm size s s' p0 : nth_error (s_pres s) 0 = Some p0 -> (forall i q, val A ps "TTAA" PRES i = Ok q -> lt p0 q = false) ->
  below_ground A m ps b nm size s = Ok s' -> s' = s.
Proof.
  intros P NB H. unfold below_ground in H. apply bind_inv in H as (p1 & _ & H). destruct (_ && _) in H; [|congruence].
  apply bind_inv in H as ([s1 sz] & F & H). assert (s' = s1) as -> by congruence. clear H.
  apply (foldM_plain _ (fun st => fst st = s)) in F; [exact F|reflexivity|]. clear F. intros [s2 z2] i st' _ E H. cbn [fst] in *. subst s2. unfold below_step in H.
  apply bind_inv in H as (pr & PR & H). apply bind_inv in H as (p2 & P2 & H). apply at_ok in P2. assert (p2 = p0) as -> by congruence. rewrite (NB _ _ PR) in H. assert (st' = (s, z2)) as -> by congruence. reflexivity.
Qed.
Lemma on_height_coord ps name n b ps' : on_height m ps name -> wind_coord A m ps name n = Ok (b, ps') -> b = true /\ ps' = ps.
Proof.
  intros (p & h & v & P & PN & PH & _ & _ & NEG) W. unfold wind_coord in W. destruct n; [split; congruence|]. rewrite P, PN in W. unfold arr_of in W. cbn [key_name] in W. rewrite PH in W. cbn [bind] in W.
  destruct (existsb _ h) eqn:EX in W; [|split; congruence]. exfalso. apply existsb_exists in EX as (z & IZ & EX). apply andb_true_iff in EX as [NE LT].
  unfold ne, ismiss in NE. apply negb_true_iff in NE. unfold l_ in LT. unfold lit_ in NEG. rewrite (NEG z IZ NE) in LT. discriminate.
Qed.
Lemma levels_val ps name n i v : levels A ps name SPED = Ok n -> val A ps name SPED i = Ok v -> (i < n)%nat.
Proof.
  intros L V. unfold levels in L. unfold val, arr in V. destruct (assoc name ps) as [p|]; [|discriminate]. apply bind_inv in L as (l & E & L). rewrite E in V. cbn [bind] in V. apply at_ok in V.
  assert (n = length l) as -> by congruence. apply nth_error_Some. congruence.
Qed.

Theorem merge_height (ab0 : bool) fuel ps selv s t h d v z0 p0 x : dictionary ps "TTAA" -> dictionary ps "TTCC" -> complete ps "TTCC" ->
  on_height m ps "PPBB" -> (ab0 = true -> on_height m ps "PPDD") -> merge_sounding A m fuel ps selv = Ok (Some s) -> rising_heights m ok s ->
  nth_error (get s PRES) 0 = Some p0 -> given m p0 -> nth_error (get s HGHT) 0 = Some z0 -> lt z0 h = true -> In x (get s HGHT) -> lt x h = false ->
  val A ps (part_name ab0) HGHT t = Ok h -> val A ps (part_name ab0) DRCT t = Ok d -> val A ps (part_name ab0) SPED t = Ok v -> ok h -> given m d -> given m v ->
  (forall i q, val A ps "TTAA" PRES i = Ok q -> lt p0 q = false) ->
  (ab0 = false -> t = 0%nat -> n_eq A h (lit_ 0) = false) -> (forall i h', (i < t)%nat -> val A ps (part_name ab0) HGHT i = Ok h' -> ok h' /\ lt h' h = true) ->
  (ab0 = true -> (exists v1, val A ps "PPBB" SPED 1 = Ok v1) /\ forall i h', val A ps "PPBB" HGHT i = Ok h' -> ok h' /\ lt h' h = true) ->
  wind_at s h d v \/ level_within_1m s h.
Proof.
  intros D1 D2 C2 OB OD H F P0 GP Z0 LZ IX LX VH VD VV OH GD GV NB T0 EA EC. unfold merge_sounding in H.
  apply bind_inv in H as (n_man & LM & H). do 4 (apply bind_inv in H as (? & _ & H)). apply bind_inv in H as (n_sigw & LS & H). apply bind_inv in H as (n_above & LA & H). do 3 (apply bind_inv in H as (? & _ & H)). apply bind_inv in H as (n_asigw & LD & H). apply bind_inv in H as (? & _ & H).
  destruct (_ =? 0)%nat in H; [discriminate|].
  apply bind_inv in H as ([bbz ps1] & W1 & H). apply bind_inv in H as ([ddz ps2] & W2 & H).
  destruct (on_height_coord _ _ _ _ _ OB W1) as [-> ->].
  assert (SA : forall o, o <> "PPBB" -> o <> "PPDD" -> assoc o ps2 = assoc o ps).
  { intros o O1 O2. apply (wind_coord_other m _ _ _ _ _ o W2 O2). }
  assert (SV : forall k i, val A ps2 "PPBB" k i = val A ps "PPBB" k i).
  { intros k i. unfold val, arr. rewrite (wind_coord_other m _ _ _ _ _ "PPBB" W2) by discriminate. reflexivity. }
  assert (SD : ab0 = true -> ddz = true /\ ps2 = ps) by (intros E; apply (on_height_coord _ _ _ _ _ (OD E) W2)).
  assert (SV2 : forall k i, val A ps2 (part_name ab0) k i = val A ps (part_name ab0) k i).
  { destruct ab0; [destruct (SD eq_refl) as [_ ->]; reflexivity|exact SV]. }
  assert (TN : (t < if ab0 then (if ddz then n_asigw else 0) else n_sigw)%nat).
  { destruct ab0; [destruct (SD eq_refl) as [-> _]|]; eapply levels_val; eauto. }
  assert (T1 := SA "TTAA" ltac:(discriminate) ltac:(discriminate)). assert (T2 := SA "TTCC" ltac:(discriminate) ltac:(discriminate)).
  apply bind_inv in H as (s1 & S1 & H). pose proof (surface_EL _ _ _ _ _ S1) as E1.
  apply bind_inv in H as (s2 & S2 & H). pose proof (sigt_EL _ _ _ _ _ E1 S2) as E2.
  apply bind_inv in H as (s3 & S3 & H). pose proof (sigw_EL _ _ _ _ _ _ E2 S3) as E3.
  apply bind_inv in H as ([s4 bgl] & S4 & H).
  assert (E4 : EL s4).
  { eapply mandatory_EL; [| | | |exact E3|exact S4].
    - intros p P. apply D1. congruence.
    - intros p P. apply D2. congruence.
    - destruct n_man; [left; reflexivity|right]. eapply surface_complete, S1.
    - apply levels_zero in LA as [->|(p & P)]; [left; reflexivity|right]. exists p. split; [congruence|]. intros k. apply (C2 p k P). }
  apply bind_inv in H as (s5 & S5 & H). pose proof (man_wind_EL _ _ _ _ _ _ _ E4 S5) as E5.
  apply bind_inv in H as (s6 & S6 & H). pose proof (man_wind_EL _ _ _ _ _ _ _ E5 S6) as E6.
  apply bind_inv in H as (st7 & S7 & H).
  assert (E7 : EL (in_s A st7)).
  { destruct (_ <=? _)%nat in S7; [|assert (st7 = mk_ins A s6 m None) as -> by congruence; exact E6].
    apply bind_inv in S7 as (pb & _ & S7). apply bind_inv in S7 as (st & S & S7). eapply trop_EL; [|exact S7]. eapply trop_EL; [|exact S]. exact E6. }
  apply bind_inv in H as (st8 & S8 & H).
  assert (E8 : EL (in_s A st8)).
  { destruct (_ <=? _)%nat in S8; [|assert (st8 = st7) as -> by congruence; exact E7].
    apply bind_inv in S8 as (pb & _ & S8). apply bind_inv in S8 as (st & S & S8). eapply sigt_part_EL; [|exact S8]. eapply sigt_part_EL; [|exact S]. exact E7. }
  apply bind_inv in H as (s9 & S9 & H). pose proof (moist_EL _ _ _ E8 S9) as E9. cbv zeta in H. cbn [in_s in_size in_pbot] in H.
  apply bind_inv in H as (st10 & S10 & H).
  assert (E10 : EL (in_s A st10)).
  { destruct (_ && _) in S10; [|match type of S10 with Ok ?y = _ => assert (st10 = y) as -> by congruence end; exact E9].
    apply bind_inv in S10 as (pb & _ & S10). apply bind_inv in S10 as (st & S & S10). eapply wind_part_EL; [|exact S10]. eapply wind_part_EL; [|exact S]. exact E9. }
  apply bind_inv in H as (st11 & S11 & H).
  assert (E11 : EL (in_s A st11)).
  { destruct (_ <=? _)%nat in S11; [|assert (st11 = st10) as -> by congruence; exact E10].
    apply bind_inv in S11 as (pb & _ & S11). apply bind_inv in S11 as (st & S & S11). eapply wind_part_EL; [|exact S11]. eapply wind_part_EL; [|exact S]. exact E10. }
  apply bind_inv in H as (s12 & S12 & H). pose proof (logp_EL _ _ _ _ E11 S12) as E12.
  apply bind_inv in H as ([s13 sz] & S13 & H). cbn [orb] in S13. apply bind_inv in S13 as ([sa za] & SA1 & S13). apply bind_inv in S13 as (sb & SB & S13).
  assert (s13 = sb /\ sz = Some za) as [-> ->] by (split; congruence). clear S13.
  apply bind_inv in H as (s14 & S14 & H). apply bind_inv in H as (s15 & S15 & H). assert (s = s15) as -> by congruence. clear H.
  pose proof (height_winds_EL m _ _ _ _ _ _ _ _ E12 SA1) as EA1.
  (* back to the sounding after the stage *)
  pose proof SB as SB'. apply logp_pressure_filled in SB' as [_ KB]. pose proof (KB HGHT ltac:(discriminate)) as HB. cbn [get] in HB.
  pose proof (logpp_EL _ _ _ EA1 SB) as EB. pose proof (miss_EL _ _ _ EB S14) as E14.
  pose proof S14 as S14'. apply missing_data_spec in S14' as (_ & PM & HM & _ & [_ DM] & VM & _).
  assert (FB : nth_error (s_pres sb) 0 = nth_error (s_pres sa) 0).
  { unfold interp_logp_pressure in SB. apply bind_inv in SB as (stp & SP & SB). assert (sb = put sa PRES (pr_p A stp)) as -> by congruence. apply press_first in SP. exact SP. }
  cbn [get] in *.
  destruct E14 as (n14 & A14). assert (L14 : n14 = length (s_hght sa)) by (rewrite <- (A14 HGHT); cbn [get]; congruence).
  pose proof (below_pulls _ _ _ _ _ _ S15) as P15. rewrite HM, HB in P15. pose proof (fine_pulls _ _ P15 F) as FA.
  destruct (height_placed ab0 ps2 ddz n_sigw _ s12 sa za t h d v z0 p0 x SA1 E12 FA) as [[_ X] PL]. rewrite X in S15. rewrite <- L14 in S15.
  assert (N14 : (1 <= n14)%nat).
  { rewrite L14, <- HB, <- HM. destruct (s_hght s14) as [|z1 l] eqn:E; [|cbn; lia]. exfalso. pose proof S15 as S16. unfold below_ground in S16. apply bind_inv in S16 as (p1 & P1 & _). apply at_ok in P1.
    pose proof (A14 HGHT) as X1. pose proof (A14 PRES) as X2. cbn [get] in X1, X2. rewrite E in X1. cbn in X1. subst n14. destruct (s_pres s14); [discriminate P1|cbn in X2; lia]. }
  destruct (below_facts _ _ _ _ _ _ A14 N14 S15) as (BP & _).
  assert (s15 = s14) as ->.
  { eapply below_none; [rewrite <- BP; exact P0| |exact S15]. intros i q VQ. apply (NB i q). unfold val, arr in *. rewrite T1 in VQ. exact VQ. }
  rewrite HM, HB in *. rewrite PM, FB in P0. rewrite !SV2 in PL.
  assert (EA2 : forall i h', (i < t)%nat -> val A ps2 (part_name ab0) HGHT i = Ok h' -> ok h' /\ lt h' h = true) by (intros i h' I; rewrite SV2; apply EA, I).
  assert (EC2 : ab0 = true -> (2 <= n_sigw)%nat /\ forall i h', val A ps2 "PPBB" HGHT i = Ok h' -> ok h' /\ lt h' h = true).
  { intros E. destruct (EC E) as [(v1 & V1) EC1]. split; [exact (levels_val _ _ _ _ _ LS V1)|]. intros i h'. rewrite SV. apply EC1. }
  specialize (PL P0 GP Z0 LZ IX LX TN VH VD VV OH GD GV T0 EA2 EC2). pose proof (KB DRCT ltac:(discriminate)) as HD. pose proof (KB SPED ltac:(discriminate)) as HS. cbn [get] in HD, HS.
  destruct PL as [(j & J1 & J2 & J3)|(z & IZ & NZ)].
  - left. exists j. cbn [get] in *. assert (PD : present m (s_drct sb) j) by (exists d; rewrite HD; auto). rewrite (DM j PD), (VM j PD), HM, HD, HS. auto.
  - right. exists z. cbn [get] in *. rewrite HM. auto.
Qed.
End H.

(** ** Winds above 100 hPa without winds below *)
Section I.
Context {A : arith}.
Notation N := (num A).
Variable m : N.
Lemma bind_eq {X Y} (r r' : res X) (f g : X -> res Y) : r' = r -> (forall x, f x = g x) -> bind r' f = bind r g.
Proof. intros -> E. destruct r; cbn; [apply E|reflexivity]. Qed.
Variables ps ps' : parts_t A.
Hypothesis SAME : forall name, name <> "PPDD" -> assoc name ps' = assoc name ps.
Ltac same := repeat match goal with |- context [assoc ?n ps'] => rewrite (SAME n) by discriminate end.
Lemma arr_same name k : name <> "PPDD" -> arr A ps' name k = arr A ps name k.
Proof. intros NE. unfold arr. rewrite SAME by exact NE. reflexivity. Qed.
Lemma val_same name k i : name <> "PPDD" -> val A ps' name k i = val A ps name k i.
Proof. intros NE. unfold val. rewrite arr_same by exact NE. reflexivity. Qed.
Lemma foldM_same {X St} (f g : St -> X -> res St) l : (forall s x, f s x = g s x) -> forall s, foldM f l s = foldM g l s.
Proof. intros E. induction l as [|x l IH]; intros s; cbn [foldM]; [reflexivity|]. rewrite E. destruct (g s x); cbn; auto. Qed.
Lemma levels_same name k : name <> "PPDD" -> levels A ps' name k = levels A ps name k.
Proof. intros NE. unfold levels. rewrite SAME by exact NE. reflexivity. Qed.
Lemma surface_same selv n : surface A m ps' selv n = surface A m ps selv n.
Proof. unfold surface, val, arr. same. reflexivity. Qed.
Lemma sigt_same n s : surface_sigt A m ps' n s = surface_sigt A m ps n s.
Proof. unfold surface_sigt, val, arr. same. reflexivity. Qed.
Lemma sigw_same n b s : surface_sigw A m ps' n b s = surface_sigw A m ps n b s.
Proof. unfold surface_sigw, val, arr. same. reflexivity. Qed.
Lemma mandatory_same n n' s : mandatory A m ps' n n' s = mandatory A m ps n n' s.
Proof. unfold mandatory, part_of. same. reflexivity. Qed.
Lemma man_wind_same name n n' s : name <> "PPDD" -> man_wind A m ps' name n n' s = man_wind A m ps name n n' s.
Proof. intros NE. unfold man_wind. unfold val. rewrite !(arr_same name) by exact NE. reflexivity. Qed.
Lemma trop_same name n st : name <> "PPDD" -> trop_part A m ps' name n st = trop_part A m ps name n st.
Proof. intros NE. unfold trop_part, insert_part, has_temp, fill_temp, fill_dir, fresh_trop, val. rewrite !(arr_same name) by exact NE. reflexivity. Qed.
Lemma sigt_part_same name n st : name <> "PPDD" -> sigt_part A m ps' name n st = sigt_part A m ps name n st.
Proof. intros NE. unfold sigt_part, insert_part, has_temp, fill_temp, fresh_sigt, val. rewrite !(arr_same name) by exact NE. reflexivity. Qed.
Lemma wind_part_same name n st : name <> "PPDD" -> wind_part A m ps' name n st = wind_part A m ps name n st.
Proof. intros NE. unfold wind_part, insert_part, has_wind, fill_wind, fresh_wind, val. rewrite !(arr_same name) by exact NE. reflexivity. Qed.
Lemma start_same name s : name <> "PPDD" -> start_pbot A m ps' name s = start_pbot A m ps name s.
Proof. intros NE. unfold start_pbot. rewrite val_same by exact NE. reflexivity. Qed.
Lemma below_same b n size s : below_ground A m ps' b n size s = below_ground A m ps b n size s.
Proof. unfold below_ground, below_step, val, arr. same. reflexivity. Qed.
Lemma height_zero n n' s : height_winds A m ps' true true 0 n' s = height_winds A m ps true true 0 n s.
Proof.
  unfold height_winds. cbn [bind Nat.leb]. apply bind_eq; [reflexivity|]. intros p0. apply bind_eq; [reflexivity|]. intros z0. apply bind_eq; [reflexivity|]. intros [[zo zn] il].
  cbn [Nat.add zw_loop zw_more Nat.ltb Nat.leb]. rewrite andb_false_r. reflexivity.
Qed.
Lemma on_height_levels q : on_height m q "PPDD" -> exists n, levels A q "PPDD" SPED = Ok (Datatypes.S n) /\ wind_coord A m q "PPDD" (Datatypes.S n) = Ok (true, q).
Proof.
  intros (p & h & v & P & PN & PH & PV & NE & NEG). destruct v as [|v0 v]; [congruence|]. exists (length v). unfold levels, wind_coord, arr_of. rewrite P, PN. cbn [key_name]. rewrite PV, PH. cbn [bind length].
  split; [reflexivity|]. destruct (existsb _ h) eqn:EX; [|reflexivity]. exfalso. apply existsb_exists in EX as (z & IZ & EX). apply andb_true_iff in EX as [NM LT].
  unfold ne, ismiss in NM. apply negb_true_iff in NM. unfold l_ in LT. unfold lit_ in NEG. rewrite (NEG z IZ NM) in LT. discriminate.
Qed.
Theorem above_ignored fuel selv : no_winds ps "PPBB" -> on_height m ps "PPDD" -> on_height m ps' "PPDD" ->
  merge_sounding A m fuel ps' selv = merge_sounding A m fuel ps selv.
Proof.
  intros NW H H'. destruct (on_height_levels _ H) as (n & L & W). destruct (on_height_levels _ H') as (n' & L' & W'). unfold merge_sounding.
  do 5 (apply bind_eq; [apply levels_same; discriminate|intros ?]).
  assert (LB : levels A ps "PPBB" SPED = Ok 0%nat).
  { unfold levels. destruct NW as [->|(p & -> & PV)]; [reflexivity|]. unfold arr_of. cbn [key_name]. rewrite PV. reflexivity. }
  rewrite (levels_same "PPBB") by discriminate. rewrite LB. cbn [bind].
  do 4 (apply bind_eq; [apply levels_same; discriminate|intros ?]). rewrite L, L'. cbn [bind]. apply bind_eq; [apply levels_same; discriminate|intros ?].
  rewrite !(proj2 (Nat.eqb_neq _ _)) by lia. change (wind_coord A m ps' "PPBB" 0) with (Ok (true, ps')). change (wind_coord A m ps "PPBB" 0) with (Ok (true, ps)). cbn [bind]. rewrite W, W'. cbn [bind].
  apply bind_eq; [apply surface_same|intros s1]. apply bind_eq; [apply sigt_same|intros s2]. apply bind_eq; [apply sigw_same|intros s3]. apply bind_eq; [apply mandatory_same|intros [s4 bgl]].
  apply bind_eq; [apply man_wind_same; discriminate|intros s5]. apply bind_eq; [apply man_wind_same; discriminate|intros s6].
  apply bind_eq; [|intros st7].
  { destruct (_ <=? _)%nat; [|reflexivity]. apply bind_eq; [apply start_same; discriminate|intros pb]. apply bind_eq; [apply trop_same; discriminate|intros st]. apply trop_same; discriminate. }
  apply bind_eq; [|intros st8].
  { destruct (_ <=? _)%nat; [|reflexivity]. apply bind_eq; [apply start_same; discriminate|intros pb]. apply bind_eq; [apply sigt_part_same; discriminate|intros st]. apply sigt_part_same; discriminate. }
  apply bind_eq; [reflexivity|intros s9]. cbv zeta. cbn [negb orb andb bind].
  apply bind_eq; [|intros st11].
  { destruct (_ <=? _)%nat; [|reflexivity]. apply bind_eq; [reflexivity|intros pb]. apply bind_eq; [apply wind_part_same; discriminate|intros st]. apply wind_part_same; discriminate. }
  apply bind_eq; [reflexivity|intros s12]. apply bind_eq; [|intros [s13 sz]].
  { apply bind_eq; [apply height_zero|reflexivity]. }
  apply bind_eq; [reflexivity|intros s14]. apply bind_eq; [apply below_same|reflexivity].
Qed.
End I.
