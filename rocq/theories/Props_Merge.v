(** Properties C60, C72, C73, C74: merging the parts of a sounding. *)
From Coq Require Import Lia ZifyBool ZifyNat String.
From Verif Require Import Base Floats Calc CalcNum SpecCalc CalcFacts Merge SpecMerge MergeFacts.
From Coq Require Import List ZArith Bool SpecFloat.
Import ListNotations.
Open Scope string_scope.
Open Scope list_scope.
Open Scope Z_scope.

(** Parts for the examples *)
Definition MI : Z := -9999.
Definition part_of_Z (l : list (string * list Z)) : list (string * list flt) := map (fun e => (fst e, map of_Z (snd e))) l.
Definition parts_of_Z (l : list (string * list (string * list Z))) : list (string * list (string * list flt)) :=
  map (fun e => (fst e, part_of_Z (snd e))) l.

(** ** C60 *)

(** The parts are dictionaries; the mandatory levels above 100 hPa, if there are any, come with all
    six arrays.  Missing: parts without one of them (C60_refuted). *)
Theorem C60_aligned_partial : forall A missing fuel (ps : parts_t A) selv s,
  dictionary ps "TTAA" -> dictionary ps "TTCC" -> complete ps "TTCC" ->
  merge_sounding A missing fuel ps selv = Ok (Some s) -> equally_long s.
Proof. intros A missing fuel ps selv s. exact (merge_EL missing fuel ps selv s). Qed.
Print Assumptions C60_aligned_partial.

(** One array of a merged sounding *)
Definition merged {A} (k : key) (r : res (option (sounding (num A)))) : list (num A) :=
  match r with Ok (Some s) => get s k | _ => [] end.
Lemma merged_some : forall A k (r : res (option (sounding (num A)))) l, merged k r = l -> l <> [] -> exists s, r = Ok (Some s).
Proof. intros A k [[s|]|e] l H L; simpl in H; [|congruence..]. exists s. reflexivity. Qed.

(** Cases computed in binary64, whatever the arithmetic operations, logarithm and exponential do *)
Definition short_parts := parts_of_Z
  [("TTAA", [("PRES", [950]); ("TEMP", [10]); ("DWPT", [MI]); ("DRCT", [180]); ("SPED", [10]); ("HGHT", [500])]);
   ("TTCC", [("PRES", [70]); ("TEMP", [-60]); ("DWPT", [MI]); ("SPED", [30]); ("HGHT", [18000])])].
Definition full_parts := parts_of_Z
  [("TTAA", [("PRES", [950; 1000; 850]); ("TEMP", [10; MI; 5]); ("DWPT", [MI; MI; MI]); ("DRCT", [180; MI; MI]);
             ("SPED", [10; MI; MI]); ("HGHT", [500; 100; 1500])]);
   ("TTCC", [("PRES", [70]); ("TEMP", [-60]); ("DWPT", [MI]); ("DRCT", [270]); ("SPED", [30]); ("HGHT", [18000])]);
   ("PPBB", [("PRES", [950; 850]); ("DRCT", [MI; 185]); ("SPED", [MI; 12])])].
Definition stale_parts := parts_of_Z
  [("TTAA", [("PRES", [950; 1000; 850]); ("TEMP", [10; MI; 5]); ("DWPT", [MI; MI; MI]); ("DRCT", [180; MI; 190]);
             ("SPED", [10; MI; 15]); ("HGHT", [500; 100; 1500])]);
   ("PPBB", [("PRES", [950; 900]); ("DRCT", [MI; 185]); ("SPED", [MI; 12])]);
   ("PPDD", [("PRES", [60]); ("DRCT", [270]); ("SPED", [30])])].
Definition front_parts := parts_of_Z
  [("TTAA", [("PRES", [MI; 1000; 850; 700; 500]); ("TEMP", [MI; 12; 5; 0; -10]); ("DWPT", [MI; MI; MI; MI; MI]);
             ("DRCT", [180; 180; 190; 190; 190]); ("SPED", [10; 10; 15; 15; 15]); ("HGHT", [MI; 100; 1500; 3000; 5500])]);
   ("TTBB", [("PRES", [MI; 925]); ("TEMP", [MI; 8]); ("DWPT", [MI; MI])])].
Section Cases.
Variables (ad su mu di md : flt -> flt -> flt) (lg ex : flt -> flt).
Notation W := (f64_with ad su mu di md SFabs lg ex).
Notation run ps := (merge_sounding W (of_Z MI) 10 ps (of_Z 500)).
Lemma short_case : merged PRES (run short_parts) = map of_Z [950; 70].
Proof. vm_compute. reflexivity. Qed.
Lemma short_case_drct : merged DRCT (run short_parts) = map of_Z [180].
Proof. vm_compute. reflexivity. Qed.
Lemma full_case : merged PRES (run full_parts) = map of_Z [950; 1000; 850; 70].
Proof. vm_compute. reflexivity. Qed.
Lemma full_case_drct : merged DRCT (run full_parts) = map of_Z [180; MI; 185; 270].
Proof. vm_compute. reflexivity. Qed.
Lemma stale_case : merged PRES (run stale_parts) = map of_Z [1000; 950; 900; 850; 60].
Proof. vm_compute. reflexivity. Qed.
Lemma front_case : run front_parts = Err ValueError.
Proof. vm_compute. reflexivity. Qed.
End Cases.

(** A sounding whose levels above 100 hPa come without directions: two pressures, one direction. *)
Theorem C60_refuted : forall ad su mu di md lg ex, let W := f64_with ad su mu di md SFabs lg ex in
  exists (ps : parts_t W) selv s, dictionary ps "TTAA" /\ dictionary ps "TTCC" /\
    merge_sounding W (of_Z MI) 10 ps selv = Ok (Some s) /\ ~ equally_long s.
Proof.
  intros. pose proof (short_case ad su mu di md lg ex) as P. pose proof (short_case_drct ad su mu di md lg ex) as D. fold W in P, D.
  destruct (@merged_some W _ _ _ P ltac:(discriminate)) as (s & R). rewrite R in P, D. exists short_parts, (of_Z 500), s.
  split; [|split; [|split; [exact R|]]].
  - intros p E. change (Some (snd (nth 0 short_parts ("", []))) = Some p) in E. inversion_clear E. repeat constructor; cbn; intuition discriminate.
  - intros p E. change (Some (snd (nth 1 short_parts ("", []))) = Some p) in E. inversion_clear E. repeat constructor; cbn; intuition discriminate.
  - intros (n & AL). pose proof (AL PRES) as L1. pose proof (AL DRCT) as L2. unfold merged in P, D. rewrite P in L1. rewrite D in L2. cbn in L1, L2. congruence.
Qed.
Print Assumptions C60_refuted.

(** Mandatory levels below and above 100 hPa, one below ground, and significant winds *)
Example C60_ex : forall ad su mu di md lg ex, let W := f64_with ad su mu di md SFabs lg ex in
  exists s, merge_sounding W (of_Z MI) 10 full_parts (of_Z 500) = Ok (Some s) /\ aligned s 4 /\ get s PRES = map of_Z [950; 1000; 850; 70].
Proof.
  intros. pose proof (full_case ad su mu di md lg ex) as P. fold W in P.
  destruct (@merged_some W _ _ _ P ltac:(discriminate)) as (s & R). rewrite R in P. exists s. split; [exact R|]. split; [|exact P].
  assert (equally_long s) as (n & AL).
  { eapply (C60_aligned_partial W); [| | |exact R].
    - intros p E. change (Some (snd (nth 0 full_parts ("", []))) = Some p) in E. inversion_clear E. repeat constructor; cbn; intuition discriminate.
    - intros p E. change (Some (snd (nth 1 full_parts ("", []))) = Some p) in E. inversion_clear E. repeat constructor; cbn; intuition discriminate.
    - intros p k E. change (Some (snd (nth 1 full_parts ("", []))) = Some p) in E. inversion_clear E. destruct k; cbn; tauto. }
  pose proof (AL PRES) as L. unfold merged in P. rewrite P in L. cbn in L. subst n. exact AL.
Qed.
