(** Property C73: merging the parts of a sounding returns. *)
From Coq Require Import Lia ZifyBool ZifyNat String Sorted.
From Verif Require Import Base Floats Calc CalcNum SpecCalc Merge SpecMerge SpecMergeOrder SpecMergeReturns CalcFacts MergeFacts MergeOrder MergeReturns FloatOrder Props_Merge Props_MergeOrder.
From Coq Require Import List ZArith Bool SpecFloat.
Import ListNotations.
Open Scope string_scope.
Open Scope list_scope.
Open Scope Z_scope.

Lemma abs_positive x : SFltb (of_Z 0) x = true -> SFabs x = x.
Proof. destruct x as [[]|[]| |[] m e]; cbn; intros H; try reflexivity; discriminate. Qed.
Lemma lt_not_le x y : not_nan x -> not_nan y -> SFltb y x = true -> SFleb x y = false.
Proof.
  intros X Y L. unfold SFleb. unfold SFltb in L. destruct (SFcompare x y) as [[]|] eqn:C; try reflexivity; exfalso.
  - assert (SFeqb x y = true) as E by (unfold SFeqb; rewrite C; reflexivity). apply eqb_place in E; [|assumption..].
    assert (SFltb y x = true) as L' by exact L. apply ltb_place in L'; [|assumption..]. rewrite E in L'. destruct (place3 y) as [[a b] c]. cbn in L'. lia.
  - assert (SFltb x y = true) as E by (unfold SFltb; rewrite C; reflexivity). apply ltb_place in E; [|assumption..].
    assert (SFltb y x = true) as L' by exact L. apply ltb_place in L'; [|assumption..]. destruct (place3 y) as [[a b] c], (place3 x) as [[a' b'] c']. cbn in L', E. lia.
Qed.

(** Regular parts with a usable surface level merge to a sounding, however long they are: the search
    for heights ends and no array is read past its end.  Missing: soundings without a usable surface
    level and significant winds by pressure both below and above 100 hPa (C73_refuted,
    C73_size_refuted), parts that lack an array, and winds on height surfaces. *)
Theorem C73_returns_partial : forall ad su mu di md lg ex missing selv, let W := f64_with ad su mu di md SFabs lg ex in
  forall (ps : parts_t W), missing_value missing -> sound_parts ad su mu di md lg ex missing ps -> @regular W missing ps ->
  levels W ps "PPBB" SPED = Ok 0%nat \/ levels W ps "PPDD" SPED = Ok 0%nat ->
  exists fuel0, forall fuel, (fuel0 <= fuel)%nat -> exists s, merge_sounding W missing fuel ps selv = Ok (Some s).
Proof.
  intros ad su mu di md lg ex missing selv W ps (MN & M0) (NB & D1 & D2 & SR & OB & OD) RG ZZ.
  exact (merge_returns (float_ordered ad su mu di md lg ex) missing MN (fun x X => abs_not_negative x missing X MN M0) M0 ltac:(discriminate)
    abs_positive lt_not_le ps selv NB D1 D2 RG SR ZZ).
Qed.
Print Assumptions C73_returns_partial.

(** A sounding without data: nothing *)
Theorem C73_no_data : forall A missing fuel selv (ps : parts_t A),
  (forall name k, In name ["TTAA"; "PPAA"; "TRPA"; "MXWA"; "TTBB"; "PPBB"; "TTCC"; "TRPC"; "MXWC"; "TTDD"; "PPDD"; "PPCC"] -> In k [PRES; SPED] -> levels A ps name k = Ok 0%nat) ->
  merge_sounding A missing fuel ps selv = Ok None.
Proof. intros A missing fuel selv ps H. unfold merge_sounding. rewrite !H by (cbn; tauto). reflexivity. Qed.
Print Assumptions C73_no_data.

(** ** Cases *)
Definition size_parts := parts_of_Z
  [("TTAA", [("PRES", [950; 1000; 850]); ("TEMP", [10; MI; 5]); ("DWPT", [MI; MI; MI]); ("DRCT", [180; MI; 190]);
             ("SPED", [10; MI; 15]); ("HGHT", [500; 100; 1500])]);
   ("TTCC", [("PRES", [70]); ("TEMP", [-60]); ("DWPT", [MI]); ("DRCT", [270]); ("SPED", [30]); ("HGHT", [18000])]);
   ("PPBB", [("PRES", [950; 850]); ("DRCT", [MI; 185]); ("SPED", [MI; 12])]);
   ("PPDD", [("PRES", [70]); ("DRCT", [270]); ("SPED", [30])])].
Section Cases.
Variables (ad su mu di md : flt -> flt -> flt) (lg ex : flt -> flt).
Notation W := (f64_with ad su mu di md SFabs lg ex).
Lemma size_case fuel : merge_sounding W (of_Z MI) (10 + fuel) size_parts (of_Z 500) = Err UnboundLocal.
Proof. vm_compute. reflexivity. Qed.
End Cases.

(** Deciding regularity of given parts *)
Section Decide.
Variables (ad su mu di md : flt -> flt -> flt) (lg ex : flt -> flt).
Notation W := (f64_with ad su mu di md SFabs lg ex).
Notation parts := (parts_t W).
Variable m : flt.
Definition len_b (p : part W) (n : nat) (k : key) : bool :=
  match assoc (key_name k) p with Some l => (length l =? n)%nat | None => false end.
Definition arrays_b (ps : parts) (name : string) (k0 : key) (ks : list key) : bool :=
  match assoc name ps with
  | None => true
  | Some p => match assoc (key_name k0) p with Some l0 => forallb (len_b p (length l0)) ks | None => false end
  end.
Lemma arrays_ok ps name k0 ks : arrays_b ps name k0 ks = true -> @has_arrays W ps name ks.
Proof.
  unfold arrays_b. intros H p P. rewrite P in H. destruct (assoc (key_name k0) p) as [l0|]; [|discriminate]. exists (length l0). intros k K. rewrite forallb_forall in H. specialize (H k K). unfold len_b in H.
  destruct (assoc (key_name k) p) as [l|]; [|discriminate]. exists l. split; [reflexivity|]. apply Nat.eqb_eq, H.
Qed.
Definition is_key (a : string) : bool := existsb (fun k => String.eqb a (key_name k)) keys.
Definition only_b (ps : parts) (name : string) (n : nat) : bool :=
  match assoc name ps with None => true | Some p => forallb (fun e => (length (snd e) =? n)%nat && is_key (fst e)) p end.
Lemma only_ok ps name n : only_b ps name n = true -> @only_levels W ps name.
Proof.
  unfold only_b. intros H p P. rewrite P in H. exists n. intros a l I. rewrite forallb_forall in H. specialize (H _ I). apply andb_prop in H as [H1 H2]. split; [apply Nat.eqb_eq, H1|].
  unfold is_key in H2. apply existsb_exists in H2 as (k & _ & E). exists k. apply String.eqb_eq, E.
Qed.
Definition plausible_b (x : flt) : bool := SFltb (of_Z 0) x && SFleb x (of_Z 2000).
Lemma plausible_ok x : plausible_b x = true -> @plausible W x.
Proof. unfold plausible_b. intros H. apply andb_prop in H as [H1 H2]. split; [exact H1|exact H2]. Qed.
Definition at_b (ps : parts) (name : string) (k : key) (i : nat) : option (num W) :=
  match assoc name ps with Some p => match assoc (key_name k) p with Some l => nth_error l i | None => None end | None => None end.
Lemma val_at ps name k i x : val W ps name k i = Ok x -> at_b ps name k i = Some x.
Proof.
  unfold val, arr, at_b. destruct (assoc name ps) as [p|]; [|discriminate]. unfold arr_of. destruct (assoc (key_name k) p) as [l|]; [|discriminate]. cbn [bind]. intros H. apply at_ok, H.
Qed.
(** [bound] is beyond every array *)
Definition with_b (ps : parts) (name : string) (k : key) (f : flt -> flt) (bound : nat) : bool :=
  match assoc name ps with
  | None => true
  | Some p => forallb (fun e => (length (snd e) <=? bound)%nat) p &&
      forallb (fun i => match at_b ps name PRES i, at_b ps name k i with
                        | Some x, Some y => SFeqb y m || plausible_b (f x)
                        | _, _ => true
                        end) (seq 0 bound)
  end.
Lemma assoc_in {X} (k : string) (l : list (string * X)) x : assoc k l = Some x -> In (k, x) l.
Proof.
  unfold assoc. destruct (find _ l) as [[a b]|] eqn:F; [|discriminate]. intros H. assert (b = x) as -> by (cbn in H; congruence). pose proof F as F'. apply find_some in F as [F1 F2]. cbn in F2. apply String.eqb_eq in F2. rewrite <- F2. exact F1.
Qed.
Lemma with_ok_f ps name k f bound : with_b ps name k f bound = true -> forall i x y, at_b ps name PRES i = Some x -> at_b ps name k i = Some y -> SFeqb y m = false -> @plausible W (f x).
Proof.
  unfold with_b. intros H i x y X Y G. unfold at_b in X. destruct (assoc name ps) as [p|] eqn:P; [|discriminate]. destruct (assoc (key_name PRES) p) as [l|] eqn:L; [|discriminate].
  apply andb_prop in H as [H1 H2]. rewrite forallb_forall in H1, H2. specialize (H1 _ (assoc_in _ _ _ L)). cbn [snd] in H1.
  assert (LI : (i < length l)%nat) by (apply nth_error_Some; congruence). specialize (H2 i ltac:(apply in_seq; lia)). rewrite Y in H2. unfold at_b in H2. rewrite P, L, X, G in H2. apply plausible_ok, H2.
Qed.
Lemma levels_ok ps name bound : with_b ps name PRES (fun x => x) bound = true -> @plausible_levels W m ps name.
Proof. intros H i x V G. apply val_at in V. exact (with_ok_f ps name PRES (fun x => x) bound H i x x V V G). Qed.
Lemma with_ok ps name k bound : with_b ps name k (fun x => x) bound = true -> @plausible_with W m ps name k.
Proof. intros H i x y V1 V2 G. apply val_at in V1, V2. exact (with_ok_f ps name k (fun x => x) bound H i x y V1 V2 G). Qed.
(** Winds with pressures *)
Lemma winds_ok_b ps name : arrays_b ps name PRES [PRES; DRCT; SPED] = true -> @has_winds W m ps name.
Proof.
  intros H p P. destruct (arrays_ok _ _ _ _ H p P) as (n & K). destruct (K PRES ltac:(cbn; tauto)) as (l & L1 & L2). destruct (K DRCT ltac:(cbn; tauto)) as (d & D1 & D2). destruct (K SPED ltac:(cbn; tauto)) as (v & V1 & V2).
  exists l, d, v. split; [left; exact L1|]. split; [exact D1|]. split; [exact V1|]. split; congruence.
Qed.
Lemma winds_pl_b ps name bound : arrays_b ps name PRES [PRES; DRCT; SPED] = true -> with_b ps name DRCT SFabs bound = true -> @plausible_winds W m ps name.
Proof.
  intros H1 H2 p l i x y P PI X V G. apply val_at in V. destruct (arrays_ok _ _ _ _ H1 p P) as (n & K). destruct (K PRES ltac:(cbn; tauto)) as (l' & L1 & _).
  assert (l' = l) as -> by (destruct PI as [PI|(PI & _)]; cbn [key_name] in *; congruence).
  apply (with_ok_f ps name DRCT SFabs bound H2 i x y); [|exact V|exact G]. unfold at_b. rewrite P, L1. exact X.
Qed.
Definition regular_b (ps : parts) (n1 n2 bound : nat) : bool :=
  arrays_b ps "TTAA" PRES keys && only_b ps "TTAA" n1 && with_b ps "TTAA" PRES (fun x => x) bound &&
  (arrays_b ps "TTCC" PRES keys && only_b ps "TTCC" n2 && with_b ps "TTCC" PRES (fun x => x) bound) &&
  forallb (fun n => arrays_b ps n PRES [PRES; TEMP; DWPT; DRCT; SPED] && with_b ps n TEMP (fun x => x) bound) ["TRPA"; "TRPC"] &&
  forallb (fun n => arrays_b ps n PRES [PRES; TEMP; DWPT] && with_b ps n TEMP (fun x => x) bound) ["TTBB"; "TTDD"] &&
  forallb (fun n => arrays_b ps n PRES [PRES; DRCT; SPED]) ["PPAA"; "PPCC"] &&
  forallb (fun n => arrays_b ps n PRES [PRES; DRCT; SPED] && with_b ps n DRCT (fun x => x) bound) ["MXWA"; "MXWC"] &&
  forallb (fun n => arrays_b ps n PRES [PRES; DRCT; SPED] && with_b ps n DRCT SFabs bound) ["PPBB"; "PPDD"].
Lemma regular_ok ps n1 n2 bound : regular_b ps n1 n2 bound = true -> @regular W m ps.
Proof.
  unfold regular_b. intros H. apply andb_prop in H as [H H6]. apply andb_prop in H as [H H5]. apply andb_prop in H as [H H4]. apply andb_prop in H as [H H3]. apply andb_prop in H as [H H2].
  apply andb_prop in H as [HA HC]. apply andb_prop in HA as [HA A3]. apply andb_prop in HA as [A1 A2]. apply andb_prop in HC as [HC C3]. apply andb_prop in HC as [C1 C2].
  rewrite forallb_forall in H2, H3, H4, H5, H6. split; [|split; [|split; [|split; [|split]]]].
  - intros name [<-|[<-|[]]]; (split; [eapply arrays_ok; eassumption|split; [eapply only_ok; eassumption|eapply levels_ok; eassumption]]).
  - intros name I. specialize (H2 name I). apply andb_prop in H2 as [X Y]. split; [eapply arrays_ok, X|eapply with_ok, Y].
  - intros name I. specialize (H3 name I). apply andb_prop in H3 as [X Y]. split; [eapply arrays_ok, X|eapply with_ok, Y].
  - intros name I. specialize (H4 name I). eapply arrays_ok, H4.
  - intros name I. specialize (H5 name I). apply andb_prop in H5 as [X Y]. split; [eapply arrays_ok, X|eapply with_ok, Y].
  - intros name I. specialize (H6 name I). apply andb_prop in H6 as [X Y]. split; [eapply winds_ok_b, X|eapply winds_pl_b; [exact X|exact Y]].
Qed.
Lemma size_sound : sound_parts ad su mu di md lg ex (of_Z MI) size_parts.
Proof.
  split; [apply no_nan_numbers; vm_compute; reflexivity|]. split; [|split; [|split; [|split]]].
  - intros p E. change (Some (snd (nth 0 size_parts ("", []))) = Some p) in E. inversion_clear E. repeat constructor; cbn; intuition discriminate.
  - intros p E. change (Some (snd (nth 1 size_parts ("", []))) = Some p) in E. inversion_clear E. repeat constructor; cbn; intuition discriminate.
  - left. exists (of_Z 950). split; [reflexivity|]. split; [reflexivity|]. split; [reflexivity|]. split; [reflexivity|].
    intros [|[|[|i]]] q t z V1 V2 V3 G1 G2 G3; try (destruct i; discriminate V1).
    + change (Ok (of_Z 950) = Ok q) in V1. inversion_clear V1. reflexivity.
    + change (Ok (of_Z MI) = Ok t) in V2. assert (of_Z MI = t) as ET by (inversion V2; reflexivity). rewrite <- ET in G2. change (true = false) in G2. discriminate G2.
    + change (Ok (of_Z 850) = Ok q) in V1. inversion_clear V1. reflexivity.
  - intros p E. change (Some (snd (nth 2 size_parts ("", []))) = Some p) in E. inversion_clear E. left. left. reflexivity.
  - intros p E. change (Some (snd (nth 3 size_parts ("", []))) = Some p) in E. inversion_clear E. left. left. reflexivity.
Qed.
End Decide.

(** Mandatory levels below and above 100 hPa, one of them below ground, significant winds *)
Example C73_ex : forall ad su mu di md lg ex, let W := f64_with ad su mu di md SFabs lg ex in
  missing_value (of_Z MI) /\ sound_parts ad su mu di md lg ex (of_Z MI) full_parts /\ @regular W (of_Z MI) full_parts /\ levels W full_parts "PPDD" SPED = Ok 0%nat /\
  exists s, merge_sounding W (of_Z MI) 10 full_parts (of_Z 500) = Ok (Some s) /\ get s PRES = map of_Z [950; 1000; 850; 70].
Proof.
  intros. split; [split; [discriminate|reflexivity]|]. split; [apply full_sound|]. split; [apply (regular_ok ad su mu di md lg ex (of_Z MI) full_parts 3 1 5); vm_compute; reflexivity|]. split; [reflexivity|].
  pose proof (full_case ad su mu di md lg ex) as P. fold W in P. destruct (@merged_some W _ _ _ P ltac:(discriminate)) as (s & R). rewrite R in P. exists s. split; [exact R|exact P].
Qed.

(** A regular sounding with a usable surface level and significant winds by pressure below and above
    100 hPa, all at levels already there, and one mandatory level below ground: merging fails, since
    the number of levels is never computed. *)
Theorem C73_size_refuted : forall ad su mu di md lg ex, let W := f64_with ad su mu di md SFabs lg ex in
  exists (ps : parts_t W), missing_value (of_Z MI) /\ sound_parts ad su mu di md lg ex (of_Z MI) ps /\ @regular W (of_Z MI) ps /\
  forall fuel, (10 <= fuel)%nat -> merge_sounding W (of_Z MI) fuel ps (of_Z 500) = Err UnboundLocal.
Proof.
  intros. exists size_parts. split; [split; [discriminate|reflexivity]|]. split; [apply size_sound|]. split; [apply (regular_ok ad su mu di md lg ex (of_Z MI) size_parts 3 1 5); vm_compute; reflexivity|].
  intros fuel F. replace fuel with (10 + (fuel - 10))%nat by lia. apply size_case.
Qed.
Print Assumptions C73_size_refuted.
(** A regular sounding whose surface level is missing: merging fails. *)
Theorem C73_refuted : forall ad su mu di md lg ex, let W := f64_with ad su mu di md SFabs lg ex in
  exists (ps : parts_t W), missing_value (of_Z MI) /\ @regular W (of_Z MI) ps /\ merge_sounding W (of_Z MI) 10 ps (of_Z 500) = Err ValueError.
Proof.
  intros. exists front_parts. split; [split; [discriminate|reflexivity]|]. split; [apply (regular_ok ad su mu di md lg ex (of_Z MI) front_parts 5 0 5); vm_compute; reflexivity|].
  apply front_case.
Qed.
Print Assumptions C73_refuted.
