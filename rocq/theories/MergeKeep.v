(** What merging keeps of the mandatory levels. *)
From Coq Require Import Lia ZifyBool ZifyNat String.
From Verif Require Import Base Calc SpecCalc CalcFacts Merge SpecMerge MergeFacts SpecMergeOrder MergeOrder SpecMergeKeep.
From Coq Require Import List ZArith Bool.
Import ListNotations.
Open Scope string_scope.
Open Scope list_scope.
Open Scope Z_scope.

Lemma index_ok {N} (eq : N -> N -> bool) : forall l x i, index_ eq l x = Ok i -> exists y, nth_error l i = Some y /\ eq y x = true.
Proof.
  induction l as [|y l IH]; intros x i H; cbn [index_] in H; [discriminate|]. destruct (eq y x) eqn:E.
  - assert (i = 0%nat) as -> by congruence. exists y. auto.
  - apply bind_inv in H as (j & J & H). assert (i = S j) as -> by congruence. apply (IH _ _ J).
Qed.
Lemma py_last {X} (l : list X) x : py_index (l ++ [x]) (-1) = Ok x.
Proof.
  unfold py_index, Zlen. rewrite app_length. cbn [length]. destruct (Z.ltb_spec (-1) 0); [|lia]. destruct (Z.ltb_spec (-1 + Z.of_nat (length l + 1)) 0); [lia|].
  replace (Z.to_nat (-1 + Z.of_nat (length l + 1))) with (length l) by lia. rewrite nth_error_app2, Nat.sub_diag by lia. reflexivity.
Qed.
Definition moved (loc : Z) (n j : nat) : nat :=
  let i := Z.to_nat (if loc <? 0 then Z.max 0 (loc + Z.of_nat n) else Z.min loc (Z.of_nat n)) in if (j <? i)%nat then j else S j.
Lemma insert_nth {N} (l : list N) loc x j y n : length l = n -> nth_error l j = Some y -> nth_error (insert_ l loc x) (moved loc n j) = Some y.
Proof.
  intros L H. unfold insert_, moved, Zlen. rewrite L. set (i := Z.to_nat _). assert (i <= n)%nat by (unfold i; destruct (Z.ltb_spec loc 0); lia).
  assert (LF : length (firstn i l) = i) by (rewrite firstn_length; lia). rewrite <- (firstn_skipn i l) in H.
  destruct (Nat.ltb_spec j i) as [C|C].
  - rewrite nth_error_app1 in * by lia. exact H.
  - rewrite nth_error_app2 in * by lia. rewrite LF in *. replace (S j - i)%nat with (S (j - i)) by lia. exact H.
Qed.

Section K.
Context {A : arith}.
Notation N := (num A).
Variable m : N.
Variables (H Wd : Prop) (v : key -> N).
Hypothesis GP : given m (v PRES).
Hypothesis GZ : given m (v HGHT).
Set Default Proof Using "All".
(** [survives], for levels that may have no temperature *)
Definition sv (k : key) : Prop :=
  match k with
  | PRES => True
  | TEMP => given m (v TEMP)
  | DWPT => given m (v TEMP) /\ given m (v DWPT)
  | DRCT | SPED => Wd /\ given m (v DRCT) /\ given m (v SPED)
  | HGHT => H /\ given m (v TEMP)
  end.
Definition lev (s : sounding N) (j : nat) : Prop := forall k, sv k -> nth_error (get s k) j = Some (v k).
Definition kept (s : sounding N) : Prop := exists j, lev s j.
Definition KE (s : sounding N) : Prop := EL s /\ kept s.

Lemma lev_set s k i x s' j : lev s j -> set_key A s k i x = Ok s' -> (sv k -> i <> j) -> lev s' j.
Proof.
  intros L S NE k' SV. unfold set_key in S. apply bind_inv in S as (l & E & S). assert (s' = put s k l) as -> by congruence.
  apply set_ok in E as (_ & _ & _ & O). destruct (key_dec k' k) as [->|D]; [|rewrite get_put_other by exact D; apply L, SV].
  rewrite get_put, O; [apply L, SV|]. intros E. exact (NE SV (eq_sym E)).
Qed.
Lemma lev_insert s loc f n j : aligned s n -> lev s j -> lev (insert_level A s loc f) (moved loc n j).
Proof.
  intros AL L k SV. specialize (L k SV). specialize (AL k). destruct k; cbn [get insert_level s_pres s_hght s_temp s_dwpt s_drct s_sped] in *; apply insert_nth; assumption.
Qed.
Lemma KE_insert s loc f : KE s -> KE (insert_level A s loc f).
Proof. intros [(n & AL) (j & L)]. split; [exists (S n); apply aligned_insert, AL|exists (moved loc n j); eapply lev_insert; eauto]. Qed.
Lemma append_get : forall (p : part A) i (s s' : sounding N), NoDup (map fst p) -> append_level A p i s = Ok s' -> forall k,
  get s' k = get s k ++ match assoc (key_name k) p with Some l => match nth_error l i with Some x => [x] | None => [] end | None => [] end.
Proof.
  induction p as [|[nm l] p IH]; intros i s s' ND E k.
  - cbn in E. assert (s' = s) as -> by congruence. cbn. rewrite app_nil_r. reflexivity.
  - cbn [map fst] in ND. inversion_clear ND as [|? ? NI ND']. unfold append_level in E. cbn [foldM fst snd] in E. apply bind_inv in E as (s1 & S1 & E).
    fold (append_level A p i s1) in E. rewrite (IH i s1 s' ND' E k). clear IH E. destruct (key_of nm) as [k1|] eqn:K; [|discriminate].
    apply key_of_some in K. subst nm. apply bind_inv in S1 as (x & X & S1). apply at_ok in X.
    match type of S1 with Ok ?y = _ => assert (s1 = y) as -> by congruence end. clear S1.
    destruct (key_dec k k1) as [->|NE].
    + rewrite get_put. assert (assoc (key_name k1) p = None) as ->.
      { destruct (assoc (key_name k1) p) eqn:AS; [|reflexivity]. apply assoc_in in AS. contradiction. }
      unfold assoc. cbn [find fst]. rewrite String.eqb_refl. cbn [snd]. rewrite X, app_nil_r. reflexivity.
    + rewrite get_put_other by exact NE. f_equal. unfold assoc. cbn [find fst].
      destruct (String.eqb_spec (key_name k1) (key_name k)) as [C|_]; [|reflexivity]. exfalso. apply NE. destruct k, k1; try reflexivity; discriminate C.
Qed.
Lemma lev_append (p : part A) i (s s' : sounding N) j : NoDup (map fst p) -> append_level A p i s = Ok s' -> lev s j -> lev s' j.
Proof.
  intros ND E L k SV. rewrite (append_get _ _ _ _ ND E). rewrite nth_error_app1; [apply L, SV|].
  apply nth_error_Some. rewrite (L k SV). discriminate.
Qed.
(** The level itself *)
Lemma append_lev (ps : parts_t A) name (p : part A) i (s s' : sounding N) n : assoc name ps = Some p -> NoDup (map fst p) -> reports ps name i v -> aligned s n -> append_level A p i s = Ok s' ->
  lev s' n.
Proof.
  intros P ND R AL E k _. rewrite (append_get _ _ _ _ ND E). specialize (R k). unfold val, arr in R. rewrite P in R. unfold arr_of in R.
  destruct (assoc (key_name k) p) as [l|]; [|discriminate]. cbn [bind] in R. apply at_ok in R. rewrite R. rewrite nth_error_app2; rewrite (AL k); [|lia].
  rewrite Nat.sub_diag. reflexivity.
Qed.

(** ** The mandatory levels *)
Lemma man_step_keep (p : part A) count st i st' : NoDup (map fst p) -> (forall k, In (key_name k) (map fst p)) ->
  KE (fst (fst st)) -> man_step A m p count st i = Ok st' -> KE (fst (fst st')).
Proof.
  intros ND C [E (j & L)] S. split; [eapply man_step_EL; eauto|]. exists j. destruct st as [[s plast] bgl]. unfold man_step in S. cbn [fst] in *.
  apply bind_inv in S as (pl & _ & S). apply bind_inv in S as (pr & _ & S). apply bind_inv in S as (b & _ & S). destruct b.
  - apply bind_inv in S as (s' & S1 & S). apply bind_inv in S as (last & _ & S). assert (st' = (s', last, bgl)) as -> by congruence. eapply lev_append; eauto.
  - destruct count.
    + apply bind_inv in S as (p0 & _ & S). match type of S with Ok ?x = _ => assert (st' = x) as -> by congruence end. exact L.
    + assert (st' = (s, plast, bgl)) as -> by congruence. exact L.
Qed.
(** The last pressure comes from a level looked at *)
Definition from_level (P0 : N -> Prop) (ps : parts_t A) (name : string) (a b : nat) (q : N) : Prop :=
  P0 q \/ exists j, (a <= j < b)%nat /\ val A ps name PRES j = Ok q.
Lemma man_step_last (ps : parts_t A) name (p : part A) count st i st' a (P0 : N -> Prop) : assoc name ps = Some p -> NoDup (map fst p) -> (a <= i)%nat ->
  from_level P0 ps name a i (snd (fst st)) -> man_step A m p count st i = Ok st' -> from_level P0 ps name a (S i) (snd (fst st')).
Proof.
  intros P ND LI FL S. destruct st as [[s plast] bgl]. unfold man_step in S. cbn [fst snd] in *.
  assert (FL' : from_level P0 ps name a (Datatypes.S i) plast) by (destruct FL as [?|(j & LJ & V)]; [left; assumption|right; exists j; split; [lia|exact V]]).
  apply bind_inv in S as (pl & PL & S). apply bind_inv in S as (pr & PR & S). apply bind_inv in S as (b & _ & S). destruct b.
  - apply bind_inv in S as (s' & S1 & S). apply bind_inv in S as (last & LA & S). assert (st' = (s', last, bgl)) as -> by congruence. cbn [fst snd].
    pose proof (append_get _ _ _ _ ND S1 PRES) as G. cbn [get] in G. unfold arr_of in PL.
    destruct (assoc (key_name PRES) p) as [l|] eqn:AP; [|discriminate]. assert (pl = l) as -> by congruence. pose proof PR as PR'. apply at_ok in PR'. rewrite PR' in G.
    rewrite G, py_last in LA. assert (last = pr) as -> by congruence. right. exists i. split; [lia|]. unfold val, arr. rewrite P. unfold arr_of. rewrite AP. exact PR.
  - destruct count.
    + apply bind_inv in S as (p0 & _ & S). match type of S with Ok ?x = _ => assert (st' = x) as -> by congruence end. exact FL'.
    + assert (st' = (s, plast, bgl)) as -> by congruence. exact FL'.
Qed.
Lemma man_step_takes (ps : parts_t A) name (p : part A) count st i st' : assoc name ps = Some p -> NoDup (map fst p) -> (forall k, In (key_name k) (map fst p)) -> reports ps name i v -> given m (v TEMP) ->
  n_lt A (v PRES) (snd (fst st)) = true -> EL (fst (fst st)) -> man_step A m p count st i = Ok st' -> KE (fst (fst st')).
Proof.
  intros P ND C R GT LT E S. split; [eapply man_step_EL; eauto|]. destruct st as [[s plast] bgl]. unfold man_step in S. cbn [fst snd] in *.
  assert (V : forall k l, arr_of A p k = Ok l -> at_ l i = Ok (v k)).
  { intros k l L. specialize (R k). unfold val, arr in R. rewrite P, L in R. exact R. }
  apply bind_inv in S as (pl & PL & S). apply bind_inv in S as (pr & PR & S). assert (pr = v PRES) as -> by (pose proof (V _ _ PL); congruence).
  unfold given in *. unfold ne, ismiss in S. rewrite LT, GP in S. cbn [andb negb] in S.
  apply bind_inv in S as (b & B & S). apply bind_inv in B as (tl & TL & B). apply bind_inv in B as (t & T & B). assert (t = v TEMP) as -> by (pose proof (V _ _ TL); congruence).
  rewrite GT in B. cbn [negb] in B. apply bind_inv in B as (zl & ZL & B). apply bind_inv in B as (z & Z & B). assert (z = v HGHT) as -> by (pose proof (V _ _ ZL); congruence).
  rewrite GZ in B. assert (b = true) as -> by (cbn in B; congruence).
  apply bind_inv in S as (s' & S1 & S). apply bind_inv in S as (last & _ & S). assert (st' = (s', last, bgl)) as -> by congruence. cbn [fst].
  destruct E as (n & AL). exists n. eapply append_lev; eauto.
Qed.
(** One part, from level [a]: the level [i] is taken when its pressure is lower than what comes before *)
Lemma man_fold (ps : parts_t A) name (p : part A) count a n st st' i (P0 : N -> Prop) : assoc name ps = Some p -> NoDup (map fst p) -> (forall k, In (key_name k) (map fst p)) -> reports ps name i v -> given m (v TEMP) ->
  (a <= i < n)%nat -> (forall q, from_level P0 ps name a i q -> n_lt A (v PRES) q = true) -> P0 (snd (fst st)) -> EL (fst (fst st)) ->
  foldM (man_step A m p count) (range a n) st = Ok st' -> KE (fst (fst st')).
Proof.
  intros P ND C R GT LI LT P1 E F.
  apply (foldM_range' _ (fun k st => EL (fst (fst st)) /\ ((k <= i)%nat -> from_level P0 ps name a k (snd (fst st))) /\ ((i < k)%nat -> KE (fst (fst st))))) in F; [|lia| |].
  - apply F. lia.
  - split; [exact E|]. split; [intros _; left; exact P1|lia].
  - intros k s s' LK (E1 & F1 & K1) S. split; [eapply man_step_EL; eauto|]. split.
    + intros LE. eapply man_step_last; eauto; [lia|apply F1; lia].
    + intros LE. destruct (Nat.eq_dec k i) as [->|NE]; [eapply man_step_takes; eauto|]. eapply man_step_keep; eauto. apply K1. lia.
Qed.
Lemma man_fold_last (ps : parts_t A) name (p : part A) count a n st st' (P0 : N -> Prop) : assoc name ps = Some p -> NoDup (map fst p) -> (forall k, In (key_name k) (map fst p)) ->
  P0 (snd (fst st)) -> EL (fst (fst st)) -> foldM (man_step A m p count) (range a n) st = Ok st' -> EL (fst (fst st')) /\ exists b, from_level P0 ps name a b (snd (fst st')).
Proof.
  intros P ND C P1 E F. destruct (Nat.le_gt_cases a n) as [L|L].
  - apply (foldM_range' _ (fun k st => EL (fst (fst st)) /\ from_level P0 ps name a k (snd (fst st)))) in F; [destruct F; split; eauto|exact L|split; [exact E|left; exact P1]|].
    intros k s s' LK (E1 & F1) S. split; [eapply man_step_EL; eauto|]. eapply man_step_last; eauto. lia.
  - unfold range in F. replace (n - a)%nat with 0%nat in F by lia. cbn in F. assert (st' = st) as -> by congruence. split; [exact E|]. exists a. left. exact P1.
Qed.

(** ** Afterwards *)
Lemma man_wind_keep ps name n n' s s' : KE s -> man_wind A m ps name n n' s = Ok s' -> KE s'.
Proof.
  intros K S. unfold man_wind in S. destruct (_ && _) in S; [|assert (s' = s) as -> by congruence; exact K]. apply bind_inv in S as (pl & _ & S).
  apply (foldM_plain _ KE) in S; [exact S|exact K|]. clear K S s s'. intros s i s' _ [E (j & L)] S. apply bind_inv in S as (pr & _ & S).
  destruct (existsb _ _) in S; [|assert (s' = s) as -> by congruence; split; [exact E|exists j; exact L]].
  apply bind_inv in S as (loc & _ & S). apply bind_inv in S as (d & D & S). apply at_ok in D.
  destruct (ismiss A m d) eqn:M; [|assert (s' = s) as -> by congruence; split; [exact E|exists j; exact L]].
  apply bind_inv in S as (d' & _ & S). apply bind_inv in S as (s1 & S1 & S). apply bind_inv in S as (v' & _ & S).
  split; [eapply EL_set; [eapply EL_set|]; eauto|]. exists j.
  assert (X : sv DRCT -> loc <> j).
  { intros SV ->. pose proof (L DRCT SV) as Y. cbn [get] in Y. unfold ismiss in M. destruct SV as (_ & G & _). unfold given in G. congruence. }
  eapply lev_set; [eapply lev_set|exact S|]; eauto.
Qed.
Lemma fill_temp_keep ps name loc i s s' : KE s -> fill_temp A m ps name s loc i = Ok s' -> KE s' /\ forall j, lev s j -> lev s' j.
Proof.
  intros [E (j & L)] S. pose proof (fill_temp_EL _ _ _ _ _ _ _ E S) as E'. assert (X : forall j, lev s j -> lev s' j); [clear j L; intros j L|split; [split; [exact E'|exists j; apply X, L]|exact X]].
  unfold fill_temp in S. apply bind_inv in S as (t & T & S). apply at_ok in T. destruct (ismiss A m t) eqn:M; [|assert (s' = s) as -> by congruence; exact L].
  apply bind_inv in S as (t' & _ & S). apply bind_inv in S as (s1 & S1 & S). apply bind_inv in S as (d' & _ & S).
  assert (NE : sv TEMP -> loc <> j).
  { intros GT ->. pose proof (L TEMP GT) as Y. cbn [get] in Y. unfold ismiss in M. cbn [sv] in GT. unfold given in GT. congruence. }
  eapply lev_set; [eapply lev_set|exact S|]; eauto. intros SV. apply NE, SV.
Qed.
Lemma fill_dir_keep ps name loc i s s' : KE s -> fill_dir A m ps name s loc i = Ok s' -> KE s' /\ forall j, lev s j -> lev s' j.
Proof.
  intros [E (j & L)] S. pose proof (fill_dir_EL _ _ _ _ _ _ _ E S) as E'. assert (X : forall j, lev s j -> lev s' j); [clear j L; intros j L|split; [split; [exact E'|exists j; apply X, L]|exact X]].
  unfold fill_dir in S. apply bind_inv in S as (t & T & S). apply at_ok in T. destruct (ismiss A m t) eqn:M; [|assert (s' = s) as -> by congruence; exact L].
  apply bind_inv in S as (t' & _ & S). apply bind_inv in S as (s1 & S1 & S). apply bind_inv in S as (d' & _ & S).
  assert (sv DRCT -> loc <> j).
  { intros SV ->. pose proof (L DRCT SV) as Y. cbn [get] in Y. unfold ismiss in M. destruct SV as (_ & G & _). unfold given in G. congruence. }
  eapply lev_set; [eapply lev_set|exact S|]; eauto.
Qed.
Lemma fill_wind_keep ps name loc i s s' : KE s -> fill_wind A m ps name s loc i = Ok s' -> KE s'.
Proof.
  intros [E (j & L)] S. split; [eapply fill_wind_EL; eauto|]. exists j. unfold fill_wind in S. apply bind_inv in S as (t & T & S). apply at_ok in T.
  apply bind_inv in S as (fu & F & S). destruct fu; [assert (s' = s) as -> by congruence; exact L|].
  apply bind_inv in S as (t' & _ & S). apply bind_inv in S as (s1 & S1 & S). apply bind_inv in S as (d' & _ & S).
  assert (sv DRCT -> loc <> j).
  { intros SV ->. pose proof (L DRCT SV) as Y. pose proof (L SPED SV) as Z. cbn [get] in Y, Z. destruct SV as (_ & G1 & G2). unfold given in *. unfold ne, ismiss in F.
    assert (t = v DRCT) as -> by congruence. rewrite G1 in F. apply bind_inv in F as (w & W & F). apply at_ok in W. assert (w = v SPED) as -> by congruence. rewrite G2 in F. discriminate. }
  eapply lev_set; [eapply lev_set|exact S|]; eauto.
Qed.
Lemma insert_step_keep pl u f g st i st' :
  (forall s a b s' y, KE s -> In y (map (n_abs A) pl) -> (exists q, nth_error (s_pres s) a = Some q /\ n_eq A q y = true) -> f s a b = Ok s' -> KE s') ->
  KE (in_s A st) -> insert_step A m pl u f g st i = Ok st' -> KE (in_s A st').
Proof.
  intros F E S. unfold insert_step in S. apply bind_inv in S as (raw & R & S). apply at_ok in R. cbv zeta in S. apply bind_inv in S as (b & _ & S).
  destruct b; [|match type of S with Ok ?x = _ => assert (st' = x) as -> by congruence end; exact E].
  destruct (n_lt A (in_pbot A st) _) in S; [assert (st' = st) as -> by congruence; exact E|]. destruct (existsb _ _) in S.
  - apply bind_inv in S as (loc & I & S). apply bind_inv in S as (s' & S' & S). match type of S with Ok ?x = _ => assert (st' = x) as -> by congruence end.
    cbn [in_s]. apply index_ok in I. eapply F; [exact E| |exact I|exact S']. apply in_map. eapply nth_error_In, R.
  - apply bind_inv in S as (fr & _ & S). match type of S with Ok ?x = _ => assert (st' = x) as -> by congruence end. apply KE_insert, E.
Qed.
Lemma insert_part_keep ps name n u f g st st' :
  (forall pl s a b s' y, arr A ps name PRES = Ok pl -> KE s -> In y (map (n_abs A) pl) -> (exists q, nth_error (s_pres s) a = Some q /\ n_eq A q y = true) -> f s a b = Ok s' -> KE s') ->
  KE (in_s A st) -> insert_part A m ps name n u f g st = Ok st' -> KE (in_s A st').
Proof.
  intros F E S. unfold insert_part in S. destruct n; [assert (st' = st) as -> by congruence; exact E|]. apply bind_inv in S as (pl & P & S).
  apply (foldM_plain _ (fun st => KE (in_s A st))) in S; [exact S|exact E|]. intros s1 i s2 _ E1 S1. eapply insert_step_keep; [|exact E1|exact S1]. intros; eapply F; eauto.
Qed.
Lemma trop_keep ps name n st st' : (H -> forall l x, arr A ps name PRES = Ok l -> In x l -> n_eq A (v PRES) (n_abs A x) = false) ->
  KE (in_s A st) -> trop_part A m ps name n st = Ok st' -> KE (in_s A st').
Proof.
  intros NT E S. eapply insert_part_keep; [|exact E|exact S]. clear E S. intros pl s a b s' y P K Y (q & PQ & EQ) S. cbv beta in S.
  apply bind_inv in S as (s1 & S1 & S). apply bind_inv in S as (s2 & S2 & S).
  destruct (fill_temp_keep _ _ _ _ _ _ K S1) as [K1 L1]. destruct (fill_dir_keep _ _ _ _ _ _ K1 S2) as [K2 L2].
  split; [eapply EL_set; [apply K2|exact S]|]. destruct K as [_ (j & L)]. exists j. eapply lev_set; [apply L2, L1, L|exact S|].
  intros [SH _] ->. apply in_map_iff in Y as (x & <- & X). pose proof (L PRES I) as Z. cbn [get] in Z. rewrite (NT SH pl x P X) in EQ || (assert (q = v PRES) as -> by congruence; rewrite (NT SH pl x P X) in EQ). discriminate.
Qed.
Lemma sigt_part_keep ps name n st st' : KE (in_s A st) -> sigt_part A m ps name n st = Ok st' -> KE (in_s A st').
Proof. intros E S. eapply insert_part_keep; [|exact E|exact S]. intros pl s a b s' y _ K _ _ S1. eapply fill_temp_keep; eauto. Qed.
Lemma wind_part_keep ps name n st st' : KE (in_s A st) -> wind_part A m ps name n st = Ok st' -> KE (in_s A st').
Proof. intros E S. eapply insert_part_keep; [|exact E|exact S]. intros pl s a b s' y _ K _ _ S1. eapply fill_wind_keep; eauto. Qed.
Lemma lev_present s j k : lev s j -> sv k -> given m (v k) -> present m (get s k) j.
Proof. intros L SV G. exists (v k). split; [apply L, SV|exact G]. Qed.
Lemma moist_keep s s' : KE s -> interp_moist_height A s m = Ok s' -> KE s'.
Proof.
  intros [E (j & L)] S. split; [eapply moist_EL; eauto|]. exists j. apply moist_height_spec in S as (n & K & _ & SM & _). intros k SV.
  destruct (key_dec k HGHT) as [->|NE]; [|rewrite K by exact NE; apply L, SV]. cbn [get]. rewrite (SM j); [apply (L HGHT SV)| |].
  - apply (lev_present s j TEMP L (proj2 SV) (proj2 SV)).
  - apply (lev_present s j HGHT L SV GZ).
Qed.
Lemma logp_keep fuel s s' : KE s -> interp_logp_height A fuel s m = Ok s' -> KE s'.
Proof.
  intros [E (j & L)] S. split; [eapply logp_EL; eauto|]. exists j. apply logp_height_filled in S as [[_ F] K]. intros k SV.
  destruct (key_dec k HGHT) as [->|NE]; [|rewrite K by exact NE; apply L, SV]. cbn [get]. rewrite (F j); [apply (L HGHT SV)|]. apply (lev_present s j HGHT L SV GZ).
Qed.
Lemma logpp_keep s s' : KE s -> interp_logp_pressure A s m = Ok s' -> KE s'.
Proof.
  intros [E (j & L)] S. split; [eapply logpp_EL; eauto|]. exists j. apply logp_pressure_filled in S as [[_ F] K]. intros k SV.
  destruct (key_dec k PRES) as [->|NE]; [|rewrite K by exact NE; apply L, SV]. cbn [get]. rewrite (F j); [apply (L PRES SV)|]. apply (lev_present s j PRES L SV GP).
Qed.
Lemma miss_keep s s' : KE s -> interp_missing_data A s m = Ok s' -> KE s'.
Proof.
  intros [E (j & L)] S. split; [eapply miss_EL; eauto|]. exists j. apply missing_data_spec in S as (_ & P & Z & [_ T] & [_ D] & V & W). intros k SV.
  pose proof (L k SV) as LK. destruct k; cbn [get] in *.
  - rewrite P. exact LK.
  - rewrite Z. exact LK.
  - rewrite (T j); [exact LK|]. apply (lev_present s j TEMP L SV SV).
  - rewrite (W j); [exact LK|apply (lev_present s j TEMP L (proj1 SV) (proj1 SV))|apply (lev_present s j DWPT L SV (proj2 SV))].
  - rewrite (D j); [exact LK|]. apply (lev_present s j DRCT L SV (proj1 (proj2 SV))).
  - rewrite (V j); [exact LK|]. apply (lev_present s j DRCT L SV (proj1 (proj2 SV))).
Qed.
Lemma below_keep ps b n size s s' : KE s -> below_ground A m ps b n size s = Ok s' -> KE s'.
Proof.
  intros E S. unfold below_ground in S. apply bind_inv in S as (p0 & _ & S). destruct (_ && _) in S; [|assert (s' = s) as -> by congruence; exact E].
  apply bind_inv in S as ([s1 sz] & F & S). assert (s' = s1) as -> by congruence. clear S.
  apply (foldM_plain _ (fun st => KE (fst st))) in F; [exact F|exact E|]. intros [s2 z2] i st' _ E2 S. cbn [fst] in E2. unfold below_step in S.
  apply bind_inv in S as (pr & _ & S). apply bind_inv in S as (p1 & _ & S). destruct (n_lt A p1 pr); [|assert (st' = (s2, z2)) as -> by congruence; exact E2].
  apply bind_inv in S as (nn & _ & S). cbv zeta in S. do 5 (apply bind_inv in S as (? & _ & S)).
  match type of S with Ok ?x = _ => assert (st' = x) as -> by congruence end. cbn [fst]. apply KE_insert, E2.
Qed.
(** winds on height surfaces: levels are inserted, and winds written over *)
Lemma set_winds_keep s i j x y s1 s' : ~ Wd -> KE s -> set_key A s DRCT i x = Ok s1 -> set_key A s1 SPED j y = Ok s' -> KE s'.
Proof.
  intros NW [E (l & L)] S1 S2. split; [eapply EL_set; [eapply EL_set|]; eauto|]. exists l.
  eapply lev_set; [eapply lev_set; [exact L|exact S1|]|exact S2|]; intros [W _]; contradiction (NW W).
Qed.
Lemma zw_skip_keep h d w st b st' : ~ Wd -> KE (zw_s A st) -> zw_skip A m h d w st = Ok (b, st') -> KE (zw_s A st').
Proof.
  intros NW E S. unfold zw_skip in S. destruct (_ || _) in S; [assert (st' = st) as -> by congruence; exact E|].
  destruct (n_lt A _ _) in S.
  - apply bind_inv in S as (d0 & _ & S). apply bind_inv in S as (fu & _ & S). destruct fu; [assert (st' = st) as -> by congruence; exact E|].
    apply bind_inv in S as (s1 & S1 & S). apply bind_inv in S as (s2 & S2 & S). match type of S with Ok (_, ?x) = _ => assert (st' = x) as -> by congruence end.
    cbn [zw_s]. eapply set_winds_keep; eauto.
  - destruct (n_le A _ _) in S; [|assert (st' = st) as -> by congruence; exact E]. apply bind_inv in S as (st1 & C & S).
    assert (st' = st1) as -> by congruence. apply zw_climb_s in C. rewrite C. exact E.
Qed.
Lemma zw_place_keep h d w st st' : ~ Wd -> KE (zw_s A st) -> zw_place A m h d w st = Ok st' -> KE (zw_s A st').
Proof.
  intros NW E S. unfold zw_place in S. destruct (n_lt A _ _) in S.
  - apply bind_inv in S as (d0 & _ & S). apply bind_inv in S as (fu & _ & S). destruct fu; [assert (st' = st) as -> by congruence; exact E|].
    apply bind_inv in S as (s1 & S1 & S). apply bind_inv in S as (s2 & S2 & S). match type of S with Ok ?x = _ => assert (st' = x) as -> by congruence end.
    cbn [zw_s]. eapply set_winds_keep; eauto.
  - cbv zeta in S. match type of S with Ok ?x = _ => assert (st' = x) as -> by congruence end. cbn [zw_s]. apply KE_insert, E.
Qed.
Lemma zw_loop_keep ps a b : ~ Wd -> forall fuel ab i e st st', KE (zw_s A st) -> zw_loop A m ps a b fuel ab i e st = Ok st' -> KE (zw_s A st').
Proof.
  intros NW. induction fuel as [|f IH]; intros ab i e st st' E S; [discriminate|]. cbn [zw_loop] in S.
  destruct (_ && _) in S; [|assert (st' = st) as -> by congruence; exact E]. cbv zeta in S. do 3 (apply bind_inv in S as (? & _ & S)).
  apply bind_inv in S as ([sk st1] & S1 & S). apply zw_skip_keep in S1; [|exact NW|exact E]. apply bind_inv in S as (st2 & S2 & S).
  assert (E2 : KE (zw_s A st2)).
  { destruct (_ && _) in S2; [eapply zw_place_keep; eauto|assert (st2 = st1) as -> by congruence; exact S1]. }
  destruct (_ && _) in S; eapply IH; eauto.
Qed.
Lemma height_winds_keep ps z1 z2 n1 n2 s s' size : ~ Wd -> KE s -> height_winds A m ps z1 z2 n1 n2 s = Ok (s', size) -> KE s'.
Proof.
  intros NW E S. unfold height_winds in S. cbv zeta in S. apply bind_inv in S as (ist & _ & S). apply bind_inv in S as (psfc & _ & S).
  apply bind_inv in S as (zsfc & _ & S). apply bind_inv in S as ([[zo zn] il] & _ & S). match type of S with (let '(_, _) := ?c in _) = _ => destruct c as [ab ie] end.
  apply bind_inv in S as (st & L & S). apply zw_loop_keep in L; [|exact NW|exact E]. assert (s' = zw_s A st) as -> by congruence. exact L.
Qed.
End K.
Unset Default Proof Using.

Section S.
Context {A : arith}.
Notation N := (num A).
Variable m : N.
(** ** Where the surface pressure comes from *)
Variable B : Prop.       (* PPBB may give the surface *)
Definition surface_from (ps : parts_t A) (p : N) : Prop :=
  n_eq A p m = true \/ (val A ps "TTAA" PRES 0 = Ok p \/ val A ps "TTBB" PRES 0 = Ok p) /\ given m p \/ B /\ exists q, val A ps "PPBB" PRES 0 = Ok q /\ given m q /\ p = n_abs A q.
Lemma dec_from (ps : parts_t A) p : val A ps "TTAA" PRES 0 = Ok p \/ val A ps "TTBB" PRES 0 = Ok p -> surface_from ps p.
Proof. intros V. destruct (n_eq A p m) eqn:E; [left; exact E|right; left; split; [exact V|exact E]]. Qed.
Lemma set_pres' (s s' : sounding N) k i x : set_key A s k i x = Ok s' -> k <> PRES -> s_pres s' = s_pres s.
Proof. intros H NE. unfold set_key in H. apply bind_inv in H as (l & _ & H). assert (s' = put s k l) as -> by congruence. destruct k; try reflexivity. congruence. Qed.
Lemma surface_from1 ps selv n (s : sounding N) : n_eq A m m = true -> surface A m ps selv n = Ok s -> exists p, s_pres s = [p] /\ surface_from ps p.
Proof.
  intros MM H. unfold surface in H. apply bind_inv in H as (s0 & S0 & H). apply bind_inv in H as (s1 & S1 & H). apply set_pres' in S1; [|discriminate].
  apply bind_inv in H as (fm & _ & H). apply bind_inv in H as (q & _ & H). cbv zeta in H.
  destruct (_ || _) in H; [exists m; split; [match type of H with Ok ?x = _ => assert (s = x) as -> by congruence end; reflexivity|left; exact MM]|].
  assert (s = s1) as -> by congruence. rewrite S1. destruct n; [exists m; split; [assert (s0 = mk_sounding [m] [m] [m] [m] [m] [m]) as -> by congruence; reflexivity|left; exact MM]|].
  apply bind_inv in S0 as (p & V & S0). do 5 (apply bind_inv in S0 as (? & _ & S0)). match type of S0 with Ok ?x = _ => assert (s0 = x) as -> by congruence end.
  exists p. split; [reflexivity|]. apply dec_from. auto.
Qed.
Lemma surface_from2 ps n (s s' : sounding N) p : s_pres s = [p] -> surface_from ps p -> surface_sigt A m ps n s = Ok s' -> exists p', s_pres s' = [p'] /\ surface_from ps p'.
Proof.
  intros SP F H. unfold surface_sigt in H. destruct n; [assert (s' = s) as -> by congruence; eauto|].
  apply bind_inv in H as (q & VQ & H). apply bind_inv in H as (t & T & H). destruct (ne A m q && ne A m t) eqn:E; [|assert (s' = s) as -> by congruence; eauto].
  apply bind_inv in H as (p1 & _ & H). destruct (_ || _) in H; [|assert (s' = s) as -> by congruence; eauto].
  apply bind_inv in H as (s1 & S1 & H). apply bind_inv in H as (d & _ & H). apply bind_inv in H as (s2 & S2 & H).
  apply set_pres' in H; [|discriminate]. apply set_pres' in S2; [|discriminate]. unfold set_key in S1. cbn [get] in S1. rewrite SP in S1. cbn in S1.
  assert (s1 = put s PRES [q]) as -> by congruence. exists q. split; [rewrite H, S2; reflexivity|]. apply dec_from. auto.
Qed.
Lemma surface_from3 ps n z (s s' : sounding N) p : (z = false -> B) -> s_pres s = [p] -> surface_from ps p -> surface_sigw A m ps n z s = Ok s' -> exists p', s_pres s' = [p'] /\ surface_from ps p'.
Proof.
  intros BB SP F H. unfold surface_sigw in H. destruct n; [assert (s' = s) as -> by congruence; eauto|]. destruct z.
  - apply bind_inv in H as (h & _ & H). destruct (n_eq A h _) in H; [|assert (s' = s) as -> by congruence; eauto]. apply bind_inv in H as (d & _ & H).
    destruct (ne A m d) in H; [|assert (s' = s) as -> by congruence; eauto]. apply bind_inv in H as (w & _ & H). apply bind_inv in H as (s1 & S1 & H).
    apply set_pres' in H; [|discriminate]. apply set_pres' in S1; [|discriminate]. exists p. split; [congruence|exact F].
  - apply bind_inv in H as (q & VQ & H). destruct (ne A m q) eqn:G; [|assert (s' = s) as -> by congruence; eauto].
    apply bind_inv in H as (d & _ & H). destruct (ne A m d); [|assert (s' = s) as -> by congruence; eauto].
    apply bind_inv in H as (p1 & _ & H). destruct (_ || _) in H; [|assert (s' = s) as -> by congruence; eauto].
    apply bind_inv in H as (v & _ & H). apply bind_inv in H as (s1 & S1 & H). apply bind_inv in H as (s2 & S2 & H).
    apply set_pres' in H; [|discriminate]. apply set_pres' in S2; [|discriminate]. unfold set_key in S1. cbn [get] in S1. rewrite SP in S1. cbn in S1.
    assert (s1 = put s PRES [n_abs A q]) as -> by congruence. exists (n_abs A q). split; [rewrite H, S2; reflexivity|]. right. right. split; [exact (BB eq_refl)|]. exists q. split; [exact VQ|]. split; [|reflexivity].
    unfold ne, ismiss in G. unfold given. destruct (n_eq A q m); [discriminate|reflexivity].
Qed.
End S.
Section M.
Context {A : arith}.
Notation N := (num A).
Variable m : N.
Lemma coord_false (ps ps' : parts_t A) name n : wind_coord A m ps name n = Ok (false, ps') -> on_pressure m ps name.
Proof.
  intros H p P. unfold wind_coord in H. destruct n; [discriminate|]. rewrite P in H. destruct (assoc "PRES" p) as [l|] eqn:E.
  - left. unfold assoc in E. destruct (find _ p) as [[k x]|] eqn:F; [|discriminate]. apply find_some in F as [F E']. apply String.eqb_eq in E'. cbn in E'. subst k.
    apply in_map_iff. exists ("PRES", x). split; [reflexivity|exact F].
  - right. apply bind_inv in H as (h & AR & H). destruct (existsb _ h) eqn:X; [|discriminate]. apply existsb_exists in X as (z & I & X).
    apply andb_prop in X as [G L]. exists h, z. unfold arr_of in AR. cbn [key_name] in AR. destruct (assoc "HGHT" p) as [h'|]; [|discriminate].
    split; [congruence|]. split; [exact I|]. split; [|exact L]. unfold ne, ismiss in G. unfold given. destruct (n_eq A z m); [discriminate|reflexivity].
Qed.
Theorem merge_keep fuel (ps : parts_t A) selv (s : sounding N) name i (v : key -> N) :
  n_eq A m m = true -> dictionary ps "TTAA" -> dictionary ps "TTCC" -> complete ps "TTCC" ->
  reports ps name i v -> given m (v PRES) -> given m (v TEMP) -> given m (v HGHT) -> mandatory_level m ps name i (v PRES) ->
  merge_sounding A m fuel ps selv = Ok (Some s) -> has_level s v (survives m (no_tropopause_at ps (v PRES)) (on_pressure m ps "PPBB" /\ on_pressure m ps "PPDD") v).
Proof.
  intros MM D1 D2 C2 R GP GT GZ ML H. unfold merge_sounding in H.
  apply bind_inv in H as (n_man & LM & H). do 3 (apply bind_inv in H as (? & _ & H)). apply bind_inv in H as (n_sigt & LT & H). apply bind_inv in H as (n_sigw & LB & H).
  apply bind_inv in H as (n_above & LA & H). do 3 (apply bind_inv in H as (? & _ & H)). apply bind_inv in H as (n_dd & LD & H). do 1 (apply bind_inv in H as (? & _ & H)).
  destruct (_ =? 0)%nat in H; [discriminate|].
  apply bind_inv in H as ([bbz ps1] & W1 & H). apply bind_inv in H as ([ddz ps2] & W2 & H).
  assert (SA : forall o, o <> "PPBB" -> o <> "PPDD" -> assoc o ps2 = assoc o ps).
  { intros o O1 O2. rewrite (wind_coord_other m _ _ _ _ _ o W2 O2). apply (wind_coord_other m _ _ _ _ _ o W1 O1). }
  assert (T1 := SA "TTAA" ltac:(discriminate) ltac:(discriminate)). assert (T2 := SA "TTCC" ltac:(discriminate) ltac:(discriminate)). assert (T3 := SA "TTBB" ltac:(discriminate) ltac:(discriminate)).
  assert (TA := SA "TRPA" ltac:(discriminate) ltac:(discriminate)). assert (TC := SA "TRPC" ltac:(discriminate) ltac:(discriminate)).
  assert (TD : assoc "PPDD" ps1 = assoc "PPDD" ps) by (apply (wind_coord_other m _ _ _ _ _ "PPDD" W1); discriminate).
  assert (LD1 : levels A ps1 "PPDD" SPED = Ok n_dd) by (unfold levels; rewrite TD; exact LD).
  assert (ZB : on_pressure m ps "PPBB" -> bbz = true -> n_sigw = 0%nat) by (intros OB; exact (coord_on_pressure _ _ _ _ _ _ _ LB OB W1)).
  assert (ZD : on_pressure m ps "PPDD" -> ddz = true -> n_dd = 0%nat) by (intros OD; exact (coord_on_pressure _ _ _ _ _ _ _ LD1 (on_pressure_other _ _ _ _ TD OD) W2)).
  assert (BB : bbz = false -> on_pressure m ps "PPBB") by (intros ->; exact (coord_false _ _ _ _ W1)).
  apply bind_inv in H as (s1 & S1 & H). pose proof (surface_EL _ _ _ _ _ S1) as E1. destruct (surface_from1 m (on_pressure m ps "PPBB") _ _ _ _ MM S1) as (p1 & P1 & F1).
  apply bind_inv in H as (s2 & S2 & H). pose proof (sigt_EL _ _ _ _ _ E1 S2) as E2. destruct (surface_from2 m _ _ _ _ _ _ P1 F1 S2) as (p2 & P2 & F2).
  apply bind_inv in H as (s3 & S3 & H). pose proof (sigw_EL _ _ _ _ _ _ E2 S3) as E3. destruct (surface_from3 m _ _ _ _ _ _ _ BB P2 F2 S3) as (p3 & P3 & F3).
  apply bind_inv in H as ([s4 bgl] & S4 & H).
  set (HH := no_tropopause_at ps (v PRES)). set (WW := on_pressure m ps "PPBB" /\ on_pressure m ps "PPDD").
  assert (E4 : KE m HH WW v s4).
  { destruct ML as ((L0 & L1 & L2) & ML). unfold mandatory in S4. rewrite P3 in S4. cbn [at_ nth_error bind] in S4. cbv zeta in S4.
    set (pl := if ismiss A m p3 then l_ A 2000 else p3) in S4.
    assert (LP : n_lt A (v PRES) pl = true).
    { unfold pl, ismiss. destruct (n_eq A p3 m) eqn:E; [exact L0|]. destruct F3 as [F3|[[F3 G3]|(OB & q & VQ & GQ & ->)]]; [congruence| |].
      - rewrite (val_other ps ps2 _ _ _ T1), (val_other ps ps2 _ _ _ T3) in F3. destruct F3 as [F3|F3]; [exact (L1 "TTAA" _ (or_introl eq_refl) F3 G3)|exact (L1 "TTBB" _ (or_intror eq_refl) F3 G3)].
      - apply (L2 OB); [|exact GQ]. unfold val in VQ. apply bind_inv in VQ as (l & AR & VQ). unfold arr in AR. rewrite (wind_coord_other m _ _ _ _ _ "PPBB" W2) in AR by discriminate.
        destruct (coord_arr m _ _ _ _ _ _ _ W1 AR) as [X|X]; [left|right]; unfold val; rewrite X; exact VQ. }
    clearbody pl.
    apply bind_inv in S4 as ([[sa pa] ba] & FA & S4). apply bind_inv in S4 as ([[sc pc] bc] & FC & S4). assert (s4 = sc) as -> by congruence. clear S4.
    assert (CA : n_man <> 0%nat -> exists p, assoc "TTAA" ps = Some p /\ part_of A ps2 "TTAA" = p /\ forall k, In (key_name k) (map fst p)).
    { intros NZ. destruct n_man; [congruence|]. destruct (surface_complete _ _ _ _ _ S1) as (p & P & C). exists p. split; [congruence|]. split; [unfold part_of; rewrite P; reflexivity|exact C]. }
    assert (CC : forall p, assoc "TTCC" ps = Some p -> part_of A ps2 "TTCC" = p) by (intros p P; unfold part_of; rewrite T2, P; reflexivity).
    destruct ML as [(-> & LI & ML)|(-> & MA & MC)].
    - pose proof (levels_pos _ _ _ _ _ _ LM (R PRES)) as LN. destruct (CA ltac:(lia)) as (p & P & PO & C). rewrite PO in FA.
      assert (KE m HH WW v sa).
      { apply (man_fold m HH WW v GP GZ ps "TTAA" p true 1 n_man _ _ i (fun q => q = pl) P (D1 _ P) C R GT) in FA; [exact FA|lia| |reflexivity|exact E3].
        intros q [->|(j & LJ & V)]; [exact LP|eapply ML; eauto]. }
      destruct (assoc "TTCC" ps) as [pc'|] eqn:PC.
      + rewrite (CC _ eq_refl) in FC. apply (foldM_plain _ (fun st => KE m HH WW v (fst (fst st)))) in FC; [exact FC|assumption|].
        intros st0 i0 st0' _ K0 M0. eapply (man_step_keep m HH WW v GP GZ pc' false); [exact (D2 _ PC)|exact (fun k => C2 _ k PC)|exact K0|exact M0].
      + assert (n_above = 0%nat) as -> by (unfold levels in LA; rewrite PC in LA; congruence). cbn in FC. assert (sc = sa) as -> by congruence. assumption.
    - assert (FA' : EL sa /\ (pa = pl \/ exists j, (1 <= j)%nat /\ val A ps "TTAA" PRES j = Ok pa)).
      { destruct n_man; [cbn in FA; split; [assert (sa = s3) as -> by congruence; exact E3|left; congruence]|]. destruct (CA ltac:(lia)) as (p & P & PO & C). rewrite PO in FA.
        apply (man_fold_last m HH WW v GP GZ ps "TTAA" p true 1 _ _ _ (fun q => q = pl) P (D1 _ P) C) in FA; [|reflexivity|exact E3]. destruct FA as [EA (b & [X|(j & LJ & V)])]; cbn [fst snd] in *; split; eauto. right. exists j. split; [lia|exact V]. }
      destruct FA' as [EA FA']. pose proof (levels_pos _ _ _ _ _ _ LA (R PRES)) as LN.
      destruct (assoc "TTCC" ps) as [pc'|] eqn:PC; [|unfold levels in LA; rewrite PC in LA; assert (n_above = 0%nat) by congruence; lia].
      rewrite (CC _ eq_refl) in FC. apply (man_fold m HH WW v GP GZ ps "TTCC" pc' false 0 n_above _ _ i (fun q => q = pa) PC (D2 _ PC) (fun k => C2 _ k PC) R GT) in FC; [exact FC|lia| |reflexivity|exact EA].
      intros q [->|(j & LJ & V)]; [destruct FA' as [->|(j & LJ & V)]; [exact LP|eapply MA; eauto]|eapply MC; eauto; lia]. }
  clear S1 S2 S3 S4.
  assert (NT : forall nm, nm = "TRPA" \/ nm = "TRPC" -> HH -> forall l x, arr A ps2 nm PRES = Ok l -> In x l -> n_eq A (v PRES) (n_abs A x) = false).
  { intros nm NM NH l y AR X. eapply NH; [exact NM| |exact X]. destruct NM as [-> | ->]; unfold arr in *; [rewrite TA in AR|rewrite TC in AR]; exact AR. }
  apply bind_inv in H as (s5 & S5 & H). pose proof (man_wind_keep _ _ _ _ GP GZ _ _ _ _ _ _ E4 S5) as E5.
  apply bind_inv in H as (s6 & S6 & H). pose proof (man_wind_keep _ _ _ _ GP GZ _ _ _ _ _ _ E5 S6) as E6.
  apply bind_inv in H as (st7 & S7 & H).
  assert (E7 : KE m HH WW v (in_s A st7)).
  { destruct (_ <=? _)%nat in S7; [|assert (st7 = mk_ins A s6 m None) as -> by congruence; exact E6].
    apply bind_inv in S7 as (pb & _ & S7). apply bind_inv in S7 as (st & S & S7). eapply trop_keep; [| |apply (NT "TRPC"); auto| |exact S7]; auto. eapply trop_keep; [| |apply (NT "TRPA"); auto| |exact S]; auto. }
  apply bind_inv in H as (st8 & S8 & H).
  assert (E8 : KE m HH WW v (in_s A st8)).
  { destruct (_ <=? _)%nat in S8; [|assert (st8 = st7) as -> by congruence; exact E7].
    apply bind_inv in S8 as (pb & _ & S8). apply bind_inv in S8 as (st & S & S8). eapply sigt_part_keep; [| | |exact S8]; auto. eapply sigt_part_keep; [| | |exact S]; auto. }
  apply bind_inv in H as (s9 & S9 & H). pose proof (moist_keep _ _ _ _ GP GZ _ _ E8 S9) as E9. cbv zeta in H. cbn [in_s in_size in_pbot] in H.
  apply bind_inv in H as (st10 & S10 & H).
  assert (E10 : KE m HH WW v (in_s A st10)).
  { destruct (_ && _) in S10; [|match type of S10 with Ok ?x = _ => assert (st10 = x) as -> by congruence end; exact E9].
    apply bind_inv in S10 as (pb & _ & S10). apply bind_inv in S10 as (st & S & S10). eapply wind_part_keep; [| | |exact S10]; auto. eapply wind_part_keep; [| | |exact S]; auto. }
  apply bind_inv in H as (st11 & S11 & H).
  assert (E11 : KE m HH WW v (in_s A st11)).
  { destruct (_ <=? _)%nat in S11; [|assert (st11 = st10) as -> by congruence; exact E10].
    apply bind_inv in S11 as (pb & _ & S11). apply bind_inv in S11 as (st & S & S11). eapply wind_part_keep; [| | |exact S11]; auto. eapply wind_part_keep; [| | |exact S]; auto. }
  apply bind_inv in H as (s12 & S12 & H). pose proof (logp_keep _ _ _ _ GP GZ _ _ _ E11 S12) as E12.
  apply bind_inv in H as ([s13 size] & S13 & H).
  assert (E13 : KE m HH WW v s13).
  { destruct (_ || _) in S13; [|assert (s13 = s12) as -> by congruence; exact E12].
    apply bind_inv in S13 as ([sa za] & SA1 & S13). apply bind_inv in S13 as (sb & SB & S13). assert (s13 = sb) as -> by congruence.
    assert (EA : KE m HH WW v sa).
    { assert (C : (bbz = true -> n_sigw = 0%nat) /\ (ddz = true -> n_dd = 0%nat) \/ ~ WW).
      { destruct bbz, ddz, n_sigw, n_dd; try (left; split; congruence); right; intros [OB OD]; try discriminate (ZB OB eq_refl); discriminate (ZD OD eq_refl). }
      destruct C as [[C1 C2']|NW]; [apply height_winds_none in SA1 as [-> _]; [exact E12|exact C1|exact C2']|exact (height_winds_keep m HH WW v GP GZ _ _ _ _ _ _ _ _ NW E12 SA1)]. }
    clear E12. rename EA into E12. exact (logpp_keep _ _ _ _ GP GZ _ _ E12 SB). }
  apply bind_inv in H as (s14 & S14 & H). pose proof (miss_keep _ _ _ _ GP GZ _ _ E13 S14) as E14.
  apply bind_inv in H as (s15 & S15 & H). assert (s = s15) as -> by congruence. destruct (below_keep _ _ _ _ GP GZ _ _ _ _ _ _ E14 S15) as [_ (jj & LL)]. exists jj. intros kk KK. apply LL. destruct kk; cbn in KK |- *; auto.
Qed.
End M.
