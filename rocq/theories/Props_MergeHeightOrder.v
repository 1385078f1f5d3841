(** Property C72 with winds on height surfaces. *)
From Coq Require Import ZArith Lia ZifyBool String Sorted Reals Lra.
From Verif Require Import Base Floats Calc CalcNum SpecCalc Merge SpecMerge MergeFacts SpecMergeOrder MergeOrder SpecMergeKeep MergeKeep SpecMergeHeight MergeHeight SpecMergeHeightOrder MergeHeightOrder
  CalcReal Props_Merge Props_MergeReturns Props_MergeOrder Props_MergeHeight.
From Coq Require Import List Bool SpecFloat.
Import ListNotations.
Open Scope string_scope.
Open Scope list_scope.
Open Scope Z_scope.

Lemma exact_ordered A : exact_numbers A -> ordered A (fun _ => True).
Proof.
  intros [IR TR SP EQ LE AB AB0 NR BT FL]. constructor; intros; auto.
  - eapply TR; eassumption.
  - rewrite EQ, H1, H2. reflexivity.
  - rewrite EQ in H1. destruct (n_lt A x y); [discriminate|reflexivity].
Qed.

(** Missing: arithmetic with rounding, soundings without a usable surface level, and significant
    winds with negative heights that do not count as pressures.  Without [rising_heights] it is false
    ([C72_refuted]). *)
Theorem C72_heights_partial : forall A missing fuel selv (ps : parts_t A) s, exact_numbers A -> n_lt A missing (lit_ 0) = true ->
  dictionary ps "TTAA" -> dictionary ps "TTCC" -> complete ps "TTCC" -> surface_reported missing ps ->
  positive_pressures missing ps -> heights_not_negative missing ps ->
  merge_sounding A missing fuel ps selv = Ok (Some s) -> rising_heights missing (fun _ => True) s ->
  falling_pressures missing ps s.
Proof.
  intros A m fuel selv ps s X M0 D1 D2 C2 SR PP HN H RH. pose proof (exact_ordered A X) as O. destruct X as [IR TR SP EQ LE AB AB0 NR BT FL].
  assert (G0 : forall x, n_lt A (lit_ 0) x = true -> n_eq A x m = false).
  { intros x L. rewrite EQ. rewrite (TR _ _ _ M0 L). apply andb_false_r. }
  assert (MN : n_eq A m (lit_ 0) = false) by (rewrite EQ, M0; reflexivity).
  eapply (merge_height_order O) with (good := fun x => n_lt A (lit_ 0) x = true); try eassumption; try (exact I); auto.
  - intros x y E. rewrite EQ in *. rewrite andb_comm. exact E.
  - rewrite EQ, IR. reflexivity.
  - intros x y _ _ N L. destruct (n_lt A y x) eqn:E; [reflexivity|]. rewrite NR in N; [discriminate N|]. rewrite EQ, L, E. reflexivity.
  - intros pb pt zb zt z G1 G2 _ _ _ L1 L2 L3. destruct (BT pb pt zb zt z G2 L1 L2 L3) as [B1 B2]. split; [exact (TR _ _ _ G2 B1)|]. split; [exact B2|exact B1].
  - intros x _. rewrite EQ. destruct (SP m (n_abs A x) (lit_ 0) M0) as [L|L]; [rewrite L; apply andb_false_r|rewrite AB in L; discriminate].
  - intros name p k l _ _. apply Forall_forall. auto.
  - intros name l x E IX. unfold arr in E. destruct (assoc name ps) as [p|] eqn:P in E; [|discriminate]. unfold arr_of in E. cbn [key_name] in E. destruct (assoc "PRES" p) as [l'|] eqn:L; [|discriminate]. assert (l' = l) as -> by congruence.
    assert (G : given m x -> n_lt A (lit_ 0) x = true) by (intros G; exact (PP name p l x P L IX G)). split; [exact G|]. apply AB0. rewrite EQ.
    destruct (n_eq A x m) eqn:EM; [|rewrite (G EM); apply andb_false_r].
    rewrite EQ in EM. apply andb_prop in EM as [E1 E2]. apply negb_true_iff in E1, E2. destruct (SP m x (lit_ 0) M0) as [L1|L1]; [congruence|]. rewrite L1. reflexivity.
  - intros name p h z [->| ->] P EH IZ GZ; eapply HN; eauto; cbn; auto.
Qed.
Print Assumptions C72_heights_partial.

(** ** Real numbers are such numbers *)
Section R.
Open Scope R_scope.
Lemma r_lt (x y : R) : n_lt reals x y = true <-> x < y.
Proof. cbn. destruct (Rlt_dec x y); split; intros; auto; try lra; discriminate. Qed.
Lemma r_lt_f (x y : R) : n_lt reals x y = false <-> y <= x.
Proof. cbn. destruct (Rlt_dec x y); split; intros; auto; try lra; discriminate. Qed.
Lemma r_lit z : @lit_ reals z = IZR z.
Proof. unfold lit_. cbn. lra. Qed.
Lemma between_form pb pt zb zt z : 0 < pb -> 0 < pt -> zb < zt -> @pressure_at reals pb pt zb zt z = exp (ln pb + (ln pt - ln pb) * ((z - zb) / (zt - zb))).
Proof.
  intros B T Z. unfold pressure_at. cbn. rewrite exp_plus, exp_ln by assumption. f_equal. f_equal. unfold Rdiv at 2. rewrite ln_mult, ln_Rinv; [field; lra|assumption|assumption|apply Rinv_0_lt_compat, B].
Qed.
Lemma part_ratio zb zt z : zb < z -> z < zt -> 0 < (z - zb) / (zt - zb) < 1.
Proof.
  intros A B. split; [apply Rdiv_lt_0_compat; lra|]. apply (Rmult_lt_reg_r (zt - zb)); [lra|]. unfold Rdiv. rewrite Rmult_assoc, Rinv_l by lra. lra.
Qed.
Lemma reals_exact : exact_numbers reals.
Proof.
  constructor.
  - intros x. apply r_lt_f. apply Rle_refl.
  - intros x y z. rewrite !r_lt. apply Rlt_trans.
  - intros x y z. rewrite !r_lt. intros L. destruct (Rlt_dec x y); [auto|right]. lra.
  - intros x y. destruct (n_lt reals x y) eqn:L1; [apply r_lt in L1|apply r_lt_f in L1]; (destruct (n_lt reals y x) eqn:L2; [apply r_lt in L2|apply r_lt_f in L2]); cbn; destruct (Req_EM_T x y); try reflexivity; exfalso; lra.
  - intros x y. destruct (n_lt reals y x) eqn:L; [apply r_lt in L|apply r_lt_f in L]; cbn; destruct (Rle_dec x y); try reflexivity; exfalso; lra.
  - intros x. apply r_lt_f. rewrite r_lit. apply Rabs_pos.
  - intros x E. apply r_lt. rewrite r_lit in *. cbn in *. apply Rabs_pos_lt. destruct (Req_EM_T x 0); [discriminate|assumption].
  - intros x y E. apply r_lt. rewrite r_lit. cbn in *. destruct (Req_EM_T x y) as [->|]; [|discriminate]. rewrite Rminus_eq_0, Rabs_R0. lra.
  - intros pb pt zb zt z. rewrite !r_lt, r_lit. intros P L1 L2 L3. rewrite between_form by lra. pose proof (part_ratio zb zt z L2 L3) as [R1 R2].
    assert (LN : ln pt < ln pb) by (apply ln_increasing; assumption). set (r := (z - zb) / (zt - zb)) in *.
    assert (0 < (ln pb - ln pt) * r) by (apply Rmult_lt_0_compat; lra). assert (0 < (ln pb - ln pt) * (1 - r)) by (apply Rmult_lt_0_compat; lra).
    split; [apply Rle_lt_trans with (exp (ln pt)); [rewrite exp_ln by assumption; apply Rle_refl|]|apply Rlt_le_trans with (exp (ln pb)); [|rewrite exp_ln by lra; apply Rle_refl]]; apply exp_increasing; lra.
  - intros pb pt zb zt z z'. rewrite !r_lt, r_lit. intros P L1 L2 L3 L4. rewrite !between_form by lra.
    assert (LN : ln pt < ln pb) by (apply ln_increasing; assumption). apply exp_increasing.
    assert (Q : (z - zb) / (zt - zb) < (z' - zb) / (zt - zb)) by (apply Rmult_lt_compat_r; [apply Rinv_0_lt_compat; lra|lra]).
    set (r := (z - zb) / (zt - zb)) in *. set (r' := (z' - zb) / (zt - zb)) in *. assert (0 < (ln pb - ln pt) * (r' - r)) by (apply Rmult_lt_0_compat; lra). lra.
Qed.
End R.

(** ** A case, computed with fractions *)
From Coq Require Import QArith Qabs Lqa.
Section Q.
Open Scope Q_scope.
(** Fractions, with x - 1 for the logarithm and x + 1 for the exponential: the pressures are interpolated linearly *)
Definition qlt (x y : Q) : bool := negb (Qle_bool y x).
Definition fractions : arith :=
  mk_arith Q Qeq_bool qlt Qle_bool Qplus Qminus Qmult Qdiv (fun x _ => x) Qabs (fun x => x - 1) (fun x => x + 1) (fun x => x) (fun m e => inject_Z m * Qpower 10 e).
Lemma q_lt (x y : Q) : n_lt fractions x y = true <-> x < y.
Proof. cbn. unfold qlt. rewrite negb_true_iff, <- not_true_iff_false, Qle_bool_iff. split; [apply Qnot_le_lt|apply Qlt_not_le]. Qed.
Lemma q_lt_f (x y : Q) : n_lt fractions x y = false <-> y <= x.
Proof. cbn. unfold qlt. rewrite negb_false_iff, Qle_bool_iff. reflexivity. Qed.
Lemma q_lit z : @lit_ fractions z == inject_Z z.
Proof. unfold lit_. cbn. ring. Qed.
Lemma q_between pb pt zb zt z : 0 < pb -> zb < zt -> @pressure_at fractions pb pt zb zt z == pb + (pt - pb) * ((z - zb) / (zt - zb)).
Proof. intros B Z. unfold pressure_at. cbn. field. split; lra. Qed.
Lemma q_ratio zb zt z : zb < z -> z < zt -> 0 < (z - zb) / (zt - zb) /\ (z - zb) / (zt - zb) < 1.
Proof.
  intros A B. split; [apply Qlt_shift_div_l; lra|apply Qlt_shift_div_r; lra].
Qed.
Lemma q_mul x y : 0 < x -> 0 < y -> 0 < x * y.
Proof. intros X Y. setoid_replace 0 with (0 * y) by ring. apply Qmult_lt_r; assumption. Qed.
Lemma fractions_exact : exact_numbers fractions.
Proof.
  constructor.
  - intros x. apply q_lt_f. apply Qle_refl.
  - intros x y z. rewrite !q_lt. apply Qlt_trans.
  - intros x y z. rewrite !q_lt. intros L. destruct (Qlt_le_dec x y); [auto|right]. lra.
  - intros x y. destruct (n_lt fractions x y) eqn:L1; [apply q_lt in L1|apply q_lt_f in L1]; (destruct (n_lt fractions y x) eqn:L2; [apply q_lt in L2|apply q_lt_f in L2]); cbn;
      match goal with |- ?a = false => destruct a eqn:E; [apply Qeq_bool_iff in E; exfalso; lra|reflexivity] | |- ?a = true => apply Qeq_bool_iff; lra end.
  - intros x y. cbn. unfold qlt. rewrite negb_involutive. reflexivity.
  - intros x. apply q_lt_f. rewrite q_lit. apply Qabs_nonneg.
  - intros x E. apply q_lt. rewrite q_lit. cbn in E. destruct (Qlt_le_dec 0 (Qabs x)) as [L|L]; [exact L|]. exfalso. apply not_true_iff_false in E. apply E, Qeq_bool_iff.
    change (x == 0). apply Qabs_Qle_condition in L. lra.
  - intros x y E. apply q_lt. apply Qeq_bool_iff in E. change (Qabs (x - y) < 1). setoid_replace (x - y) with 0 by lra. reflexivity.
  - intros pb pt zb zt z. rewrite !q_lt, q_lit. intros P L1 L2 L3. change (inject_Z 0) with 0 in P. rewrite q_between by lra. pose proof (q_ratio zb zt z L2 L3) as [R1 R2]. set (r := (z - zb) / (zt - zb)) in *.
    pose proof (q_mul (pb - pt) r ltac:(lra) R1). pose proof (q_mul (pb - pt) (1 - r) ltac:(lra) ltac:(lra)). split; lra.
  - intros pb pt zb zt z z'. rewrite !q_lt, q_lit. intros P L1 L2 L3 L4. change (inject_Z 0) with 0 in P. rewrite !q_between by lra.
    assert (D : (z' - zb) / (zt - zb) - (z - zb) / (zt - zb) == (z' - z) / (zt - zb)) by (field; lra).
    assert (0 < (z' - z) / (zt - zb)) by (apply Qlt_shift_div_l; lra).
    set (r := (z - zb) / (zt - zb)) in *. set (r' := (z' - zb) / (zt - zb)) in *. pose proof (q_mul (pb - pt) (r' - r) ltac:(lra) ltac:(lra)). lra.
Qed.
End Q.
Open Scope Z_scope.

Lemma all_arrays {X} (Q : X -> Prop) name k (ps : list (string * list (string * X))) p l : assoc name ps = Some p -> assoc k p = Some l ->
  Forall (fun e => Forall (fun g => String.eqb (fst g) k = true -> Q (snd g)) (snd e)) ps -> Q l.
Proof.
  intros E1 E2 F. apply Props_MergeReturns.assoc_in in E1, E2. rewrite Forall_forall in F. specialize (F _ E1). cbn [snd] in F. rewrite Forall_forall in F. apply (F _ E2). apply String.eqb_refl.
Qed.
Ltac arrays := repeat first [apply Forall_nil | apply Forall_cons]; cbn [snd]; repeat first [apply Forall_nil | apply Forall_cons]; cbn [fst snd]; intros EK; first [discriminate EK | repeat first [apply Forall_nil | apply Forall_cons; [reflexivity|]]].
Definition of_ints (ps : list (string * list (string * list Z))) : parts_t fractions := map (fun e => (fst e, map (fun f => (fst f, map inject_Z (snd f))) (snd e))) ps.
(** Winds at five heights, two of them between the same two levels *)
Definition case_parts := of_ints
  [("TTAA", [("PRES", [950; 850; 500]); ("TEMP", [10; 5; -20]); ("DWPT", [MI; MI; MI]); ("DRCT", [180; 190; 200]); ("SPED", [10; 15; 40]); ("HGHT", [500; 1500; 5500])]);
   ("PPBB", [("HGHT", [0; 1000; 2500; 3500]); ("DRCT", [170; 185; 195; 196]); ("SPED", [9; 12; 20; 21])]); ("PPDD", [("HGHT", [4500]); ("DRCT", [198]); ("SPED", [33])])].
Definition case_run := merge_sounding fractions (inject_Z MI) 10 case_parts (inject_Z 500).
Lemma case_pressures : map Qred (merged (A := fractions) PRES case_run) = [inject_Z 950; inject_Z 900; inject_Z 850; Qmake 1525 2; inject_Z 675; Qmake 1175 2; inject_Z 500].
Proof. vm_compute. reflexivity. Qed.
Lemma case_heights : merged (A := fractions) HGHT case_run = map inject_Z [500; 1000; 1500; 2500; 3500; 4500; 5500].
Proof. vm_compute. reflexivity. Qed.
Lemma case_ttaa : exists p, assoc "TTAA" case_parts = Some p /\ NoDup (map fst p) /\ arr fractions case_parts "TTAA" PRES = Ok (map inject_Z [950; 850; 500]).
Proof. eexists. split; [reflexivity|]. split; [|reflexivity]. cbn. repeat constructor; cbn; intuition discriminate. Qed.
Lemma case_rising (s : sounding (Calc.num fractions)) : get s HGHT = map inject_Z [500; 1000; 1500; 2500; 3500; 4500; 5500] -> @rising_heights fractions (inject_Z MI) (fun _ => True) s.
Proof.
  intros E. unfold rising_heights, not_falling. rewrite E. split; [|split; [|apply Forall_forall; auto]].
  - cbn [map]. repeat (constructor; [|repeat (constructor; [reflexivity|]); constructor]). constructor.
  - repeat (constructor; [reflexivity|]). constructor.
Qed.
Example C72_heights_ex : exists s, case_run = Ok (Some s) /\ exact_numbers fractions /\ exact_numbers reals /\ n_lt fractions (inject_Z MI) (lit_ 0) = true /\
  dictionary case_parts "TTAA" /\ dictionary case_parts "TTCC" /\ complete case_parts "TTCC" /\ @surface_reported fractions (inject_Z MI) case_parts /\
  @positive_pressures fractions (inject_Z MI) case_parts /\ @heights_not_negative fractions (inject_Z MI) case_parts /\ @rising_heights fractions (inject_Z MI) (fun _ => True) s /\
  map Qred (get s PRES) = [inject_Z 950; inject_Z 900; inject_Z 850; Qmake 1525 2; inject_Z 675; Qmake 1175 2; inject_Z 500].
Proof.
  pose proof case_heights as Z. pose proof case_pressures as P. destruct (@merged_some fractions HGHT case_run _ Z ltac:(discriminate)) as (s & R). rewrite R in *. exists s. cbn [merged] in Z, P.
  split; [reflexivity|]. split; [exact fractions_exact|]. split; [exact reals_exact|]. split; [reflexivity|].
  destruct case_ttaa as (p & EP & ND & EA).
  split; [intros q E; assert (q = p) as -> by congruence; exact ND|]. split; [intros q E; discriminate E|]. split; [intros q k E; discriminate E|].
  split. { left. exists (inject_Z 950). split; [reflexivity|]. split; [reflexivity|]. split; [reflexivity|]. split; [reflexivity|].
    intros i q t z V _ _ _ _ _. unfold val in V. rewrite EA in V. cbn [bind] in V. apply CalcFacts.at_ok in V. apply nth_error_In in V. cbn in V. destruct V as [<-|[<-|[<-|[]]]]; reflexivity. }
  split. { intros name q l x E1 E2 I _. revert x I. apply Forall_forall. eapply (all_arrays _ _ _ _ _ _ E1 E2). cbn [map fst snd]. arrays. }
  split. { intros name q l z N E1 E2 I _. revert z I. apply Forall_forall. eapply (all_arrays _ _ _ _ _ _ E1 E2). cbn [map fst snd]. arrays. }
  split; [apply case_rising, Z|exact P].
Qed.

(** ** Heights out of order *)
(** The claim is false when the heights are out of order: a level without pressure comes first *)
Definition tangled_parts := parts_of_Z
  [("TTAA", [("PRES", [950; 850; 700; 500; 400; 300]); ("TEMP", [10; 5; 0; -20; -30; -40]); ("DWPT", [MI; MI; MI; MI; MI; MI]); ("DRCT", [180; 180; 180; 180; 180; 180]);
     ("SPED", [10; 10; 10; 10; 10; 10]); ("HGHT", [2000; 5000; 1000; 6000; 7000; 8000])]);
   ("PPBB", [("HGHT", [6000; 1500]); ("DRCT", [170; 185]); ("SPED", [9; 12])])].
Definition tangled_run := merge_sounding W1 (of_Z MI) 10 tangled_parts (of_Z 2000).
Lemma tangled_case : merged (A := W1) PRES tangled_run = map of_Z [MI; 950; 850; 700; 500; 400; 300].
Proof. vm_compute. reflexivity. Qed.
Theorem C72_refuted : exists A missing fuel selv (ps : parts_t A) s, dictionary ps "TTAA" /\ surface_reported missing ps /\ positive_pressures missing ps /\ heights_not_negative missing ps /\
  merge_sounding A missing fuel ps selv = Ok (Some s) /\ ~ falling_pressures missing ps s.
Proof.
  pose proof tangled_case as P. destruct (@merged_some W1 PRES tangled_run _ P ltac:(discriminate)) as (s & R). rewrite R in P. cbn [merged] in P.
  exists W1, (of_Z MI), 10%nat, (of_Z 2000), tangled_parts, s.
  assert (T : exists p, assoc "TTAA" tangled_parts = Some p /\ NoDup (map fst p) /\ arr W1 tangled_parts "TTAA" PRES = Ok (map of_Z [950; 850; 700; 500; 400; 300])).
  { eexists. split; [reflexivity|]. split; [|reflexivity]. cbn. repeat constructor; cbn; intuition discriminate. }
  destruct T as (p & EP & ND & EA). split; [intros q E; assert (Some p = Some q) as X by (etransitivity; [symmetry; exact EP|exact E]); apply some_inj in X; subst q; exact ND|].
  split. { left. exists (of_Z 950). split; [reflexivity|]. split; [reflexivity|]. split; [reflexivity|]. split; [reflexivity|].
    intros i q t z V _ _ _ _ _. unfold val in V. rewrite EA in V. cbn [bind] in V. apply CalcFacts.at_ok in V. apply nth_error_In in V. cbn in V. repeat (destruct V as [<-|V]; [reflexivity|]). destruct V. }
  split. { intros name q l x E1 E2 I _. revert x I. apply Forall_forall. eapply (all_arrays _ _ _ _ _ _ E1 E2). cbn [map fst snd]. arrays. }
  split. { intros name q l z N E1 E2 I _. revert z I. apply Forall_forall. eapply (all_arrays _ _ _ _ _ _ E1 E2). cbn [map fst snd]. arrays. }
  split; [exact R|]. intros (p0 & l & b & _ & G & W & HB). rewrite P in W.
  inversion W; subst.
  - apply Forall_inv in G. discriminate G.
  - destruct (HB (of_Z MI) (or_introl eq_refl)) as [_ (i & V)]. unfold val in V. rewrite EA in V. cbn [bind] in V. apply CalcFacts.at_ok in V. apply nth_error_In in V. cbn [map In] in V. repeat (destruct V as [V|V]; [discriminate V|]). exact V.
Qed.
Print Assumptions C72_refuted.
