(** Property C86: significant winds on height surfaces in a merged sounding. *)
From Coq Require Import Lia ZifyBool ZifyNat String Sorted.
From Verif Require Import Base Floats Calc CalcNum SpecCalc Merge SpecMerge SpecMergeOrder MergeOrder FloatOrder SpecMergeHeight MergeHeight Props_Merge Props_MergeOrder Props_MergeReport.
From Coq Require Import List ZArith Bool SpecFloat.
Import ListNotations.
Open Scope string_scope.
Open Scope list_scope.
Open Scope Z_scope.

(** ** Comparison of binary64 values *)
Lemma float_lt_nan x y : SFltb x y = true -> not_nan x /\ not_nan y.
Proof. unfold not_nan. destruct x, y; cbn; split; congruence. Qed.
Lemma float_le x y : not_nan x -> not_nan y -> SFleb x y = negb (SFltb y x).
Proof.
  intros X Y. destruct (SFltb y x) eqn:L; cbn [negb].
  - apply ltb_place in L; [|assumption..]. destruct (SFleb x y) eqn:E; [|reflexivity]. exfalso. unfold SFleb in E. destruct (SFcompare x y) as [[]|] eqn:C; try discriminate.
    + assert (SFeqb x y = true) as Q by (unfold SFeqb; rewrite C; reflexivity). apply eqb_place in Q; [|assumption..]. rewrite Q in L. destruct (place3 y) as [[a b] c]. cbn in L. lia.
    + assert (SFltb x y = true) as Q by (unfold SFltb; rewrite C; reflexivity). apply ltb_place in Q; [|assumption..]. destruct (place3 x) as [[a b] c], (place3 y) as [[a' b'] c']. cbn in *. lia.
  - destruct (SFltb x y) eqn:L2.
    + unfold SFleb. unfold SFltb in L2. destruct (SFcompare x y) as [[]|]; congruence.
    + pose proof (o_tot _ _ (float_ordered fadd fadd fadd fadd fadd SFabs SFabs) x y X Y L2 L) as T. cbn in T. unfold SFleb. unfold SFeqb in T. destruct (SFcompare x y) as [[]|]; congruence.
Qed.
Lemma float_eq_sym x y : SFeqb x y = true -> SFeqb y x = true.
Proof. intros E. destruct (float_eq_nan _ _ E) as [X Y]. apply eqb_place in E; [|assumption..]. apply eqb_place; [assumption..|congruence]. Qed.
Lemma float_between x y z : not_nan x -> not_nan y -> not_nan z -> SFltb x z = true -> SFltb x y = true \/ SFltb y z = true.
Proof. intros X Y Z. rewrite !ltb_place by assumption. destruct (place3 x) as [[a b] c], (place3 y) as [[a' b'] c'], (place3 z) as [[a'' b''] c'']. cbn. lia. Qed.
Lemma float_self x : not_nan x -> SFeqb x x = true.
Proof. intros X. apply eqb_place; auto. Qed.

Section T.
Variables (ad su mu di md : flt -> flt -> flt) (lg ex : flt -> flt).
Notation W := (f64_with ad su mu di md SFabs lg ex).
Lemma float_height (above : bool) missing fuel (ps : parts_t W) selv s i h d v p0 z0 z :
  not_nan missing -> dictionary ps "TTAA" -> dictionary ps "TTCC" -> complete ps "TTCC" ->
  @on_height W missing ps "PPBB" -> (above = true -> @on_height W missing ps "PPDD") ->
  merge_sounding W missing fuel ps selv = Ok (Some s) -> @rising_heights W missing not_nan s ->
  nth_error (get s PRES) 0 = Some p0 -> @given W missing p0 -> (forall j q, val W ps "TTAA" PRES j = Ok q -> SFltb p0 q = false) ->
  nth_error (get s HGHT) 0 = Some z0 -> SFltb z0 h = true -> In z (get s HGHT) -> SFltb z h = false ->
  val W ps (part_name above) HGHT i = Ok h -> val W ps (part_name above) DRCT i = Ok d -> val W ps (part_name above) SPED i = Ok v -> @given W missing d -> @given W missing v ->
  (above = false -> i = 0%nat -> SFeqb h (of_Z 0) = false) -> (forall j y, (j < i)%nat -> val W ps (part_name above) HGHT j = Ok y -> SFltb y h = true) ->
  (above = true -> (exists u, val W ps "PPBB" SPED 1 = Ok u) /\ forall j y, val W ps "PPBB" HGHT j = Ok y -> SFltb y h = true) ->
  @wind_at W s h d v \/ @level_within_1m W s h.
Proof.
  intros MN D1 D2 C2 OB OD H R P0 GP NB Z0 LZ IZ NZ VH VD VV GD GV I0 EB EA. destruct (float_lt_nan _ _ LZ) as [_ OH].
  apply (merge_height (float_ordered ad su mu di md lg ex) float_le float_eq_sym float_between missing (float_self missing MN) above fuel ps selv s i h d v z0 p0 z); auto.
  - intros j y J V. specialize (EB j y J V). split; [apply (float_lt_nan _ _ EB)|exact EB].
  - intros E. destruct (EA E) as [U EC]. split; [exact U|]. intros j y V. specialize (EC j y V). split; [apply (float_lt_nan _ _ EC)|exact EC].
Qed.
End T.

(** A wind reported on a height surface below 100 hPa, at a height between two levels of the merged
    sounding and above the heights reported before it: the merged sounding has a level with that
    height and wind, or a level less than one metre away.  Missing: soundings whose merged heights
    fall or are missing, levels below ground, heights above the highest level, and winds at heights
    less than one metre from a level (C86_dropped_refuted, C86_replaced_refuted). *)
Theorem C86_below_partial : forall ad su mu di md lg ex missing fuel selv, let W := f64_with ad su mu di md SFabs lg ex in
  forall (ps : parts_t W) s i h d v p0 z0 z,
  not_nan missing -> dictionary ps "TTAA" -> dictionary ps "TTCC" -> complete ps "TTCC" -> @on_height W missing ps "PPBB" ->
  merge_sounding W missing fuel ps selv = Ok (Some s) -> @rising_heights W missing not_nan s ->
  nth_error (get s PRES) 0 = Some p0 -> @given W missing p0 -> (forall j q, val W ps "TTAA" PRES j = Ok q -> SFltb p0 q = false) ->
  nth_error (get s HGHT) 0 = Some z0 -> SFltb z0 h = true -> In z (get s HGHT) -> SFltb z h = false ->
  val W ps "PPBB" HGHT i = Ok h -> val W ps "PPBB" DRCT i = Ok d -> val W ps "PPBB" SPED i = Ok v -> @given W missing d -> @given W missing v ->
  (i = 0%nat -> SFeqb h (of_Z 0) = false) -> (forall j y, (j < i)%nat -> val W ps "PPBB" HGHT j = Ok y -> SFltb y h = true) ->
  @wind_at W s h d v \/ @level_within_1m W s h.
Proof.
  intros ad su mu di md lg ex missing fuel selv W ps s i h d v p0 z0 z MN D1 D2 C2 OB H R P0 GP NB Z0 LZ IZ NZ VH VD VV GD GV I0 EB.
  apply (float_height ad su mu di md lg ex false missing fuel ps selv s i h d v p0 z0 z); auto; discriminate.
Qed.
Print Assumptions C86_below_partial.

(** The same of winds reported above 100 hPa, if there are at least two reports below, all of them
    lower.  Missing, besides: soundings without winds below (C86_above_ignored). *)
Theorem C86_above_partial : forall ad su mu di md lg ex missing fuel selv, let W := f64_with ad su mu di md SFabs lg ex in
  forall (ps : parts_t W) s i h d v p0 z0 z u,
  not_nan missing -> dictionary ps "TTAA" -> dictionary ps "TTCC" -> complete ps "TTCC" -> @on_height W missing ps "PPBB" -> @on_height W missing ps "PPDD" ->
  merge_sounding W missing fuel ps selv = Ok (Some s) -> @rising_heights W missing not_nan s ->
  nth_error (get s PRES) 0 = Some p0 -> @given W missing p0 -> (forall j q, val W ps "TTAA" PRES j = Ok q -> SFltb p0 q = false) ->
  nth_error (get s HGHT) 0 = Some z0 -> SFltb z0 h = true -> In z (get s HGHT) -> SFltb z h = false ->
  val W ps "PPDD" HGHT i = Ok h -> val W ps "PPDD" DRCT i = Ok d -> val W ps "PPDD" SPED i = Ok v -> @given W missing d -> @given W missing v ->
  (forall j y, (j < i)%nat -> val W ps "PPDD" HGHT j = Ok y -> SFltb y h = true) ->
  val W ps "PPBB" SPED 1 = Ok u -> (forall j y, val W ps "PPBB" HGHT j = Ok y -> SFltb y h = true) ->
  @wind_at W s h d v \/ @level_within_1m W s h.
Proof.
  intros ad su mu di md lg ex missing fuel selv W ps s i h d v p0 z0 z u MN D1 D2 C2 OB OD H R P0 GP NB Z0 LZ IZ NZ VH VD VV GD GV EB U EA.
  apply (float_height ad su mu di md lg ex true missing fuel ps selv s i h d v p0 z0 z); auto; [discriminate|]. intros _. split; [exists u; exact U|exact EA].
Qed.
Print Assumptions C86_above_partial.

(** Without winds below 100 hPa the winds on height surfaces above have no effect, whatever they
    are: two soundings that differ only in them are merged into the same one. *)
Theorem C86_above_ignored : forall A missing fuel selv (ps ps' : parts_t A),
  (forall name, name <> "PPDD" -> assoc name ps' = assoc name ps) -> no_winds ps "PPBB" -> on_height missing ps "PPDD" -> on_height missing ps' "PPDD" ->
  merge_sounding A missing fuel ps' selv = merge_sounding A missing fuel ps selv.
Proof. intros A missing fuel selv ps ps' S N H H'. apply (above_ignored missing ps ps' S); assumption. Qed.
Print Assumptions C86_above_ignored.

(** ** Cases *)
Lemma some_inj {X} (x y : X) : Some x = Some y -> x = y.
Proof. congruence. Qed.
(** Computed with x - 1 for the logarithm and x + 1 for the exponential *)
Definition W1 : arith := f64 (fun x => fsub x (of_Z 1)) (fun x => fadd x (of_Z 1)) (fun x _ => x).
Definition mandatory3 (drct sped : list Z) : string * list (string * list Z) :=
  ("TTAA", [("PRES", [950; 850; 500]); ("TEMP", [10; 5; -20]); ("DWPT", [MI; MI; MI]); ("DRCT", drct); ("SPED", sped); ("HGHT", [500; 1500; 5500])]).
Definition height_reports : list (string * list (string * list Z)) :=
  [("PPBB", [("HGHT", [0; 1000; 2500]); ("DRCT", [170; 185; 195]); ("SPED", [9; 12; 20])]);
   ("PPDD", [("HGHT", [4500]); ("DRCT", [198]); ("SPED", [33])])].
Definition height_parts := parts_of_Z (mandatory3 [180; 190; 200] [10; 15; 40] :: height_reports).
Definition height_run := merge_sounding W1 (of_Z MI) 10 height_parts (of_Z 500).
Lemma height_case : merged (A := W1) HGHT height_run = map of_Z [500; 1000; 1500; 2500; 4500; 5500].
Proof. vm_compute. reflexivity. Qed.
Lemma height_winds_case : merged (A := W1) DRCT height_run = map of_Z [170; 185; 190; 195; 198; 200] /\ merged (A := W1) SPED height_run = map of_Z [9; 12; 15; 20; 33; 40].
Proof. vm_compute. auto. Qed.
Lemma height_pres_case : nth_error (merged (A := W1) PRES height_run) 0 = Some (of_Z 950).
Proof. vm_compute. reflexivity. Qed.
Fixpoint rises (l : list flt) : bool := match l with [] => true | x :: r => forallb (fun y => negb (SFltb y x)) r && rises r end.
Lemma rising_of (ad su mu di md : flt -> flt -> flt) (lg ex : flt -> flt) : let W := f64_with ad su mu di md SFabs lg ex in
  forall (s : sounding (num W)) l, get s HGHT = l -> rises l = true -> forallb (fun x => negb (SFeqb x (of_Z MI)) && match x with S754_nan => false | _ => true end) l = true -> @rising_heights W (of_Z MI) not_nan s.
Proof.
  intros W s l E R F. unfold rising_heights, not_falling. rewrite E. clear E s. split; [|].
  - induction l as [|x l IH]; [constructor|]. cbn [rises forallb] in R, F. apply andb_true_iff in R as [R1 R2]. apply andb_true_iff in F as [_ F]. constructor; [apply IH; assumption|].
    apply Forall_forall. intros y Y. rewrite forallb_forall in R1. apply negb_true_iff, (R1 y Y).
  - rewrite forallb_forall in F. split; apply Forall_forall; intros x X; specialize (F x X); apply andb_true_iff in F as [F1 F2]; [apply negb_true_iff, F1|]. unfold not_nan. destruct x; congruence.
Qed.
Lemma three_on (ad su mu di md : flt -> flt -> flt) (lg ex : flt -> flt) ps name p h v : let W := f64_with ad su mu di md SFabs lg ex in
  assoc name ps = Some p -> assoc "PRES" p = None -> assoc "HGHT" p = Some h -> assoc "SPED" p = Some v -> v <> [] -> forallb (fun z => negb (SFltb z (of_Z 0))) h = true -> @on_height W (of_Z MI) ps name.
Proof.
  intros W P N H V NE F. exists p, h, v. do 5 (split; [assumption|]). intros z IZ _. rewrite forallb_forall in F. apply negb_true_iff, (F z IZ).
Qed.
Lemma height_mandatory drct sped rest : let ps := parts_of_Z (mandatory3 drct sped :: rest) in
  exists p, assoc "TTAA" ps = Some p /\ NoDup (map fst p) /\ assoc "PRES" p = Some (map of_Z [950; 850; 500]).
Proof. cbv zeta. eexists. split; [reflexivity|]. split; [|reflexivity]. cbn. repeat constructor; cbn; intuition discriminate. Qed.
Lemma mandatory_dict (ad su mu di md : flt -> flt -> flt) (lg ex : flt -> flt) drct sped rest : let W := f64_with ad su mu di md SFabs lg ex in
  dictionary (A := W) (parts_of_Z (mandatory3 drct sped :: rest)) "TTAA".
Proof. intros W p E. destruct (height_mandatory drct sped rest) as (q & Q & ND & _). assert (Some q = Some p) as X by (etransitivity; [symmetry; exact Q|exact E]). apply some_inj in X. subst q. exact ND. Qed.
Lemma no_below (ad su mu di md : flt -> flt -> flt) (lg ex : flt -> flt) drct sped rest : let W := f64_with ad su mu di md SFabs lg ex in
  forall j q, val W (parts_of_Z (mandatory3 drct sped :: rest)) "TTAA" PRES j = Ok q -> SFltb (of_Z 950) q = false.
Proof.
  intros W j q V. change (at_ (map of_Z [950; 850; 500]) j = Ok q) in V. apply CalcFacts.at_ok in V.
  apply nth_error_In in V. cbn in V. destruct V as [<-|[<-|[<-|[]]]]; reflexivity.
Qed.

(** Winds on height surfaces below and above 100 hPa; the first one, at height 0, is that of the
    surface.  All are in the merged sounding. *)
Example C86_ex : exists s, height_run = Ok (Some s) /\ dictionary (A := W1) height_parts "TTAA" /\ dictionary (A := W1) height_parts "TTCC" /\ complete (A := W1) height_parts "TTCC" /\
  @on_height W1 (of_Z MI) height_parts "PPBB" /\ @on_height W1 (of_Z MI) height_parts "PPDD" /\ @rising_heights W1 (of_Z MI) not_nan s /\
  nth_error (get s PRES) 0 = Some (of_Z 950) /\ (forall j q, val W1 height_parts "TTAA" PRES j = Ok q -> SFltb (of_Z 950) q = false) /\
  get s HGHT = map of_Z [500; 1000; 1500; 2500; 4500; 5500] /\ get s DRCT = map of_Z [170; 185; 190; 195; 198; 200] /\ get s SPED = map of_Z [9; 12; 15; 20; 33; 40] /\
  (forall j y, (j < 2)%nat -> val W1 height_parts "PPBB" HGHT j = Ok y -> SFltb y (of_Z 2500) = true) /\
  (forall j y, val W1 height_parts "PPBB" HGHT j = Ok y -> SFltb y (of_Z 4500) = true).
Proof.
  pose proof height_case as Z. destruct height_winds_case as [D V]. pose proof height_pres_case as P. destruct (@merged_some W1 HGHT height_run _ Z ltac:(discriminate)) as (s & R). rewrite R in *. exists s. split; [reflexivity|].
  split; [apply mandatory_dict|].
  split; [intros p E; discriminate E|]. split; [intros p k E; discriminate E|].
  split; [eapply three_on; try reflexivity; discriminate|]. split; [eapply three_on; try reflexivity; discriminate|].
  split; [eapply rising_of; [exact Z|vm_compute; reflexivity|vm_compute; reflexivity]|]. split; [exact P|]. split; [apply no_below|]. split; [exact Z|]. split; [exact D|]. split; [exact V|].
  assert (H : forall j y, val W1 height_parts "PPBB" HGHT j = Ok y -> nth_error (map of_Z [0; 1000; 2500]) j = Some y) by (intros j y E; apply CalcFacts.at_ok in E; exact E).
  split.
  - intros [|[|j]] y J E; apply H in E; [| |lia]; apply some_inj in E; subst y; reflexivity.
  - intros [|[|[|j]]] y E; apply H in E; [| | |destruct j; discriminate E]; apply some_inj in E; subst y; reflexivity.
Qed.

(** ** Winds that are lost *)
(** Winds on height surfaces above 100 hPa only: the wind at 4500 m is in no level, and no level is near. *)
Definition above_parts := parts_of_Z (mandatory3 [180; 190; 200] [10; 15; 40] :: [("PPDD", [("HGHT", [4500]); ("DRCT", [198]); ("SPED", [33])])]).
(** A wind at 5500 m, where there is a level without wind; the level below it has a wind *)
Definition dropped_parts := parts_of_Z (mandatory3 [180; 190; MI] [10; 15; MI] :: [("PPBB", [("HGHT", [0; 5500]); ("DRCT", [170; 275]); ("SPED", [9; 99])])]).
(** A wind at 5500 m, where there is a level with wind; the level below it has none *)
Definition replaced_parts := parts_of_Z (mandatory3 [180; MI; 200] [10; MI; 40] :: [("PPBB", [("HGHT", [0; 5500]); ("DRCT", [170; 275]); ("SPED", [9; 99])])]).
Section Lost.
Variables (ad mu di md : flt -> flt -> flt) (lg ex : flt -> flt).
Notation W := (f64_with ad fsub mu di md SFabs lg ex).
Notation run ps := (merge_sounding W (of_Z MI) 10 ps (of_Z 500)).
Lemma above_case : merged (A := W) HGHT (run above_parts) = map of_Z [500; 1500; 5500] /\ merged (A := W) DRCT (run above_parts) = map of_Z [180; 190; 200].
Proof. vm_compute. auto. Qed.
Lemma dropped_case : merged (A := W) HGHT (run dropped_parts) = map of_Z [500; 1500; 5500] /\ merged (A := W) DRCT (run dropped_parts) = map of_Z [170; 190; MI] /\
  merged (A := W) SPED (run dropped_parts) = map of_Z [9; 15; MI].
Proof. vm_compute. auto. Qed.
Lemma replaced_case : merged (A := W) HGHT (run replaced_parts) = map of_Z [500; 1500; 5500] /\ nth_error (merged (A := W) DRCT (run replaced_parts)) 2 = Some (of_Z 275) /\
  nth_error (merged (A := W) SPED (run replaced_parts)) 2 = Some (of_Z 99).
Proof. vm_compute. auto. Qed.
End Lost.

(** The claim that a wind on a height surface is in the merged sounding, or near one of its levels,
    is false: without winds below, those above 100 hPa are ignored. *)
Theorem C86_refuted : exists A missing fuel selv (ps : parts_t A) s i h d v z0 z,
  on_height missing ps "PPDD" /\ merge_sounding A missing fuel ps selv = Ok (Some s) /\ rising_heights missing (fun x => n_eq A x x = true) s /\
  val A ps "PPDD" HGHT i = Ok h /\ val A ps "PPDD" DRCT i = Ok d /\ val A ps "PPDD" SPED i = Ok v /\ given missing h /\ given missing d /\ given missing v /\
  In z0 (get s HGHT) /\ n_lt A z0 h = true /\ In z (get s HGHT) /\ n_lt A h z = true /\ ~ wind_at s h d v /\ ~ level_within_1m s h.
Proof.
  pose proof (above_case fadd fmul fdiv (fun x _ => x) (fun x => x) (fun x => x)) as [Z D].
  set (W := f64_with fadd fsub fmul fdiv (fun x _ : flt => x) SFabs (fun x : flt => x) (fun x : flt => x)) in *.
  destruct (@merged_some W HGHT _ _ Z ltac:(discriminate)) as (s & R). rewrite R in Z, D. cbn [merged] in Z, D.
  exists W, (of_Z MI), 10%nat, (of_Z 500), above_parts, s, 0%nat, (of_Z 4500), (of_Z 198), (of_Z 33), (of_Z 500), (of_Z 5500).
  split; [eapply three_on; try reflexivity; discriminate|]. split; [exact R|].
  split. { pose proof (rising_of fadd fsub fmul fdiv (fun x _ => x) (fun x => x) (fun x => x) s _ Z eq_refl eq_refl) as (A1 & A2 & A3). split; [exact A1|]. split; [exact A2|]. eapply Forall_impl; [|exact A3]. intros x. apply float_self. }
  do 6 (split; [reflexivity|]). rewrite Z. split; [left; reflexivity|]. split; [reflexivity|]. split; [right; right; left; reflexivity|]. split; [reflexivity|]. split.
  - intros (j & H & _). rewrite Z in H. destruct j as [|[|[|[|j]]]]; discriminate H.
  - intros (z & I & L). rewrite Z in I. cbn in I. destruct I as [<-|[<-|[<-|[]]]]; discriminate L.
Qed.
Print Assumptions C86_refuted.

(** The hypotheses of C86_above_ignored are met by two soundings with different winds *)
Example C86_above_ignored_ex : let above h d := ("PPDD", [("HGHT", [h]); ("DRCT", [d]); ("SPED", [33])]) in let ttaa := mandatory3 [180; 190; 200] [10; 15; 40] in
  (forall name, name <> "PPDD" -> assoc name (parts_of_Z [ttaa; above 2500 98]) = assoc name (parts_of_Z [ttaa; above 4500 198])) /\
  no_winds (A := W1) (parts_of_Z [ttaa; above 4500 198]) "PPBB" /\
  @on_height W1 (of_Z MI) (parts_of_Z [ttaa; above 4500 198]) "PPDD" /\ @on_height W1 (of_Z MI) (parts_of_Z [ttaa; above 2500 98]) "PPDD".
Proof.
  cbv zeta. split; [|split; [left; reflexivity|split; eapply three_on; try reflexivity; discriminate]].
  intros name N. unfold parts_of_Z. cbn [map fst snd mandatory3]. unfold assoc. cbn [find fst snd].
  destruct (String.eqb_spec "TTAA" name); [reflexivity|]. destruct (String.eqb_spec "PPDD" name); [congruence|reflexivity].
Qed.

(** A wind reported at the height of a level without wind, below the highest level or at it, need
    not reach that level: here the level keeps neither speed nor direction, since the wind of the
    level below is what is looked at. *)
Theorem C86_dropped_refuted : exists A missing fuel selv (ps : parts_t A) s i h d v j,
  on_height missing ps "PPBB" /\ merge_sounding A missing fuel ps selv = Ok (Some s) /\ rising_heights missing (fun x => n_eq A x x = true) s /\
  val A ps "PPBB" HGHT i = Ok h /\ val A ps "PPBB" DRCT i = Ok d /\ val A ps "PPBB" SPED i = Ok v /\ given missing h /\ given missing d /\ given missing v /\
  nth_error (get s HGHT) j = Some h /\ nth_error (get s DRCT) j = Some missing /\ nth_error (get s SPED) j = Some missing.
Proof.
  pose proof (dropped_case fadd fmul fdiv (fun x _ => x) (fun x => x) (fun x => x)) as (Z & D & V).
  set (W := f64_with fadd fsub fmul fdiv (fun x _ : flt => x) SFabs (fun x : flt => x) (fun x : flt => x)) in *.
  destruct (@merged_some W HGHT _ _ Z ltac:(discriminate)) as (s & R). rewrite R in Z, D, V. cbn [merged] in Z, D, V.
  exists W, (of_Z MI), 10%nat, (of_Z 500), dropped_parts, s, 1%nat, (of_Z 5500), (of_Z 275), (of_Z 99), 2%nat.
  split; [eapply three_on; try reflexivity; discriminate|]. split; [exact R|].
  split. { pose proof (rising_of fadd fsub fmul fdiv (fun x _ => x) (fun x => x) (fun x => x) s _ Z eq_refl eq_refl) as (A1 & A2 & A3). split; [exact A1|]. split; [exact A2|]. eapply Forall_impl; [|exact A3]. intros x. apply float_self. }
  do 6 (split; [reflexivity|]). rewrite Z, D, V. auto.
Qed.
Print Assumptions C86_dropped_refuted.

(** A wind reported at the height of a mandatory level that has a wind can replace that wind: the
    level below has none. *)
Theorem C86_replaced_refuted : exists A missing fuel selv (ps : parts_t A) s i k h d v d0 v0 j,
  on_height missing ps "PPBB" /\ merge_sounding A missing fuel ps selv = Ok (Some s) /\ rising_heights missing (fun x => n_eq A x x = true) s /\
  val A ps "PPBB" HGHT i = Ok h /\ val A ps "PPBB" DRCT i = Ok d /\ val A ps "PPBB" SPED i = Ok v /\
  val A ps "TTAA" HGHT k = Ok h /\ val A ps "TTAA" DRCT k = Ok d0 /\ val A ps "TTAA" SPED k = Ok v0 /\ given missing d0 /\ given missing v0 /\ d0 <> d /\ v0 <> v /\
  nth_error (get s HGHT) j = Some h /\ nth_error (get s DRCT) j = Some d /\ nth_error (get s SPED) j = Some v.
Proof.
  pose proof (replaced_case fadd fmul fdiv (fun x _ => x) (fun x => x) (fun x => x)) as (Z & D & V).
  set (W := f64_with fadd fsub fmul fdiv (fun x _ : flt => x) SFabs (fun x : flt => x) (fun x : flt => x)) in *.
  destruct (@merged_some W HGHT _ _ Z ltac:(discriminate)) as (s & R). rewrite R in Z, D, V. cbn [merged] in Z, D, V.
  exists W, (of_Z MI), 10%nat, (of_Z 500), replaced_parts, s, 1%nat, 2%nat, (of_Z 5500), (of_Z 275), (of_Z 99), (of_Z 200), (of_Z 40), 2%nat.
  split; [eapply three_on; try reflexivity; discriminate|]. split; [exact R|].
  split. { pose proof (rising_of fadd fsub fmul fdiv (fun x _ => x) (fun x => x) (fun x => x) s _ Z eq_refl eq_refl) as (A1 & A2 & A3). split; [exact A1|]. split; [exact A2|]. eapply Forall_impl; [|exact A3]. intros x. apply float_self. }
  do 8 (split; [reflexivity|]). split; [intros E; discriminate E|]. split; [intros E; discriminate E|]. rewrite Z. auto.
Qed.
Print Assumptions C86_replaced_refuted.
