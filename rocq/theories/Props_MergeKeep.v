(** Property C75: what merging keeps of the mandatory levels. *)
From Coq Require Import Lia ZifyBool ZifyNat String.
From Verif Require Import Base Floats Calc CalcNum SpecCalc Merge SpecMerge SpecMergeOrder SpecMergeKeep MergeKeep Props_Merge Props_MergeOrder.
From Coq Require Import List ZArith Bool SpecFloat.
Import ListNotations.
Open Scope string_scope.
Open Scope list_scope.
Open Scope Z_scope.

(** Every mandatory level above the surface that is reported with pressure, temperature and height
    is a level of the merged sounding, with that pressure and temperature, with its dewpoint if it
    is reported, with its wind if it is reported and the significant winds are on pressure surfaces,
    and with its height if no tropopause is reported at that pressure.
    Missing: the height at the pressure of a tropopause (C75_height_refuted), and the wind in
    soundings with winds on height surfaces (C75_wind_refuted). *)
Theorem C75_mandatory_levels_partial : forall (A : arith) (missing : num A) fuel (ps : parts_t A) selv s part i v,
  n_eq A missing missing = true -> dictionary ps "TTAA" -> dictionary ps "TTCC" -> complete ps "TTCC" ->
  reports ps part i v -> given missing (v PRES) -> given missing (v TEMP) -> given missing (v HGHT) ->
  mandatory_level missing ps part i (v PRES) ->
  merge_sounding A missing fuel ps selv = Ok (Some s) ->
  has_level s v (survives missing (no_tropopause_at ps (v PRES)) (on_pressure missing ps "PPBB" /\ on_pressure missing ps "PPDD") v).
Proof. intros A missing fuel ps selv s part i v. apply merge_keep. Qed.
Print Assumptions C75_mandatory_levels_partial.

Definition six (p h t d r w : Z) (k : key) : flt :=
  of_Z (match k with PRES => p | HGHT => h | TEMP => t | DWPT => d | DRCT => r | SPED => w end).
(** Levels 850 and 70 hPa of the sounding [full_parts] *)
Lemma full_850 ad su mu di md lg ex : let W := f64_with ad su mu di md SFabs lg ex in @mandatory_level W (of_Z MI) full_parts "TTAA" 2 (of_Z 850).
Proof.
  intros W. split.
  - split; [reflexivity|]. split.
    + intros name q [-> | ->] V G; [|discriminate V]. assert (of_Z 950 = q) as <- by (vm_compute in V |- *; congruence). reflexivity.
    + intros _ q [V|V] G; [|discriminate V]. assert (of_Z 950 = q) as <- by (vm_compute in V |- *; congruence). reflexivity.
  - left. split; [reflexivity|]. split; [lia|]. intros j q LJ V. assert (j = 1%nat) as -> by lia. assert (of_Z 1000 = q) as <- by (vm_compute in V |- *; congruence). reflexivity.
Qed.
Lemma full_70 ad su mu di md lg ex : let W := f64_with ad su mu di md SFabs lg ex in @mandatory_level W (of_Z MI) full_parts "TTCC" 0 (of_Z 70).
Proof.
  intros W. split.
  - split; [reflexivity|]. split.
    + intros name q [-> | ->] V G; [|discriminate V]. assert (of_Z 950 = q) as <- by (vm_compute in V |- *; congruence). reflexivity.
    + intros _ q [V|V] G; [|discriminate V]. assert (of_Z 950 = q) as <- by (vm_compute in V |- *; congruence). reflexivity.
  - right. split; [reflexivity|]. split; [|lia]. intros [|[|[|j]]] q LJ V; [lia| | |destruct j; discriminate V].
    + assert (of_Z 1000 = q) as <- by (vm_compute in V |- *; congruence). reflexivity.
    + assert (of_Z 850 = q) as <- by (vm_compute in V |- *; congruence). reflexivity.
Qed.
Lemma full_heights ad su mu di md lg ex : let W := f64_with ad su mu di md SFabs lg ex in
  merged HGHT (merge_sounding W (of_Z MI) 10 full_parts (of_Z 500)) = map of_Z [500; 100; 1500; 18000].
Proof. vm_compute. reflexivity. Qed.
Example C75_ex : forall ad su mu di md lg ex, let W := f64_with ad su mu di md SFabs lg ex in
  exists s, merge_sounding W (of_Z MI) 10 full_parts (of_Z 500) = Ok (Some s) /\
  dictionary (A := W) full_parts "TTAA" /\ dictionary (A := W) full_parts "TTCC" /\ complete (A := W) full_parts "TTCC" /\
  @on_pressure W (of_Z MI) full_parts "PPBB" /\ @on_pressure W (of_Z MI) full_parts "PPDD" /\
  @reports W full_parts "TTAA" 2 (six 850 1500 5 MI MI MI) /\ @mandatory_level W (of_Z MI) full_parts "TTAA" 2 (of_Z 850) /\
  @reports W full_parts "TTCC" 0 (six 70 18000 (-60) MI 270 30) /\ @mandatory_level W (of_Z MI) full_parts "TTCC" 0 (of_Z 70) /\
  @no_tropopause_at W full_parts (of_Z 70) /\ get s HGHT = map of_Z [500; 100; 1500; 18000].
Proof.
  intros. pose proof (full_heights ad su mu di md lg ex) as P. cbv zeta in P. fold W in P. destruct (@merged_some W _ _ _ P ltac:(discriminate)) as (s & R). rewrite R in P.
  destruct (full_sound ad su mu di md lg ex) as (_ & D1 & D2 & _ & OB & OD). exists s.
  split; [exact R|]. split; [exact D1|]. split; [exact D2|]. split.
  { intros p k E. change (Some (snd (nth 1 full_parts ("", []))) = Some p) in E. inversion_clear E. destruct k; cbn; tauto. }
  split; [exact OB|]. split; [exact OD|]. split; [intros []; reflexivity|]. split; [apply full_850|]. split; [intros []; reflexivity|]. split; [apply full_70|].
  split; [intros name l x [-> | ->] E; discriminate E|exact P].
Qed.

(** The tropopause reported at a mandatory level: the height of that level is gone. *)
Definition trop_parts := parts_of_Z
  [("TTAA", [("PRES", [950; 250]); ("TEMP", [MI; -50]); ("DWPT", [MI; MI]); ("DRCT", [180; 200]);
             ("SPED", [10; 40]); ("HGHT", [MI; 10400])]);
   ("TRPA", [("PRES", [250]); ("TEMP", [-50]); ("DWPT", [MI]); ("DRCT", [200]); ("SPED", [40])])].
Lemma trop_case ad su mu di md lg ex : let W := f64_with ad su mu di md SFabs lg ex in
  merged HGHT (merge_sounding W (of_Z MI) 10 trop_parts (of_Z 500)) = map of_Z [500; MI].
Proof. vm_compute. reflexivity. Qed.
Theorem C75_height_refuted : forall ad su mu di md lg ex, let W := f64_with ad su mu di md SFabs lg ex in
  exists (ps : parts_t W) s v, dictionary ps "TTAA" /\ assoc "TTCC" ps = None /\ assoc "PPBB" ps = None /\ assoc "PPDD" ps = None /\
  @reports W ps "TTAA" 1 v /\ @given W (of_Z MI) (v PRES) /\ @given W (of_Z MI) (v TEMP) /\ @given W (of_Z MI) (v HGHT) /\ @mandatory_level W (of_Z MI) ps "TTAA" 1 (v PRES) /\
  merge_sounding W (of_Z MI) 10 ps (of_Z 500) = Ok (Some s) /\ ~ In (v HGHT) (get s HGHT).
Proof.
  intros. pose proof (trop_case ad su mu di md lg ex) as P. cbv zeta in P. fold W in P. destruct (@merged_some W _ _ _ P ltac:(discriminate)) as (s & R). rewrite R in P. unfold merged in P.
  exists trop_parts, s, (six 250 10400 (-50) MI 200 40).
  split; [intros p E; change (Some (snd (nth 0 trop_parts ("", []))) = Some p) in E; inversion_clear E; repeat constructor; cbn; intuition discriminate|].
  do 3 (split; [reflexivity|]). split; [intros []; reflexivity|]. do 3 (split; [reflexivity|]). split; [|split; [exact R|]].
  - split; [|left; split; [reflexivity|split; [lia|intros; lia]]]. split; [reflexivity|]. split.
    + intros name q [-> | ->] V G; [|discriminate V]. assert (of_Z 950 = q) as <- by (vm_compute in V |- *; congruence). reflexivity.
    + intros _ q [V|V] G; discriminate V.
  - rewrite P. intros [E|[E|[]]]; vm_compute in E; discriminate E.
Qed.
Print Assumptions C75_height_refuted.

(** Winds on height surfaces: the wind of a mandatory level is replaced by one reported for its
    height, because the test looks at the level below. *)
Definition zw_parts := parts_of_Z
  [("TTAA", [("PRES", [950; 850; 700]); ("TEMP", [MI; 5; 0]); ("DWPT", [MI; MI; MI]); ("DRCT", [MI; 190; 200]);
             ("SPED", [MI; 15; 40]); ("HGHT", [MI; 1500; 3000])]);
   ("PPBB", [("HGHT", [0; 1500]); ("DRCT", [MI; 10]); ("SPED", [MI; 1])])].
Lemma zw_case lg ex md : let W := f64 lg ex md in merged DRCT (merge_sounding W (of_Z MI) 10 zw_parts (of_Z 500)) = map of_Z [MI; 10; 200].
Proof. vm_compute. reflexivity. Qed.
Theorem C75_wind_refuted : forall lg ex md, let W := f64 lg ex md in
  exists (ps : parts_t W) s v, dictionary ps "TTAA" /\ assoc "TTCC" ps = None /\ assoc "TRPA" ps = None /\ assoc "TRPC" ps = None /\
  @reports W ps "TTAA" 1 v /\ @given W (of_Z MI) (v PRES) /\ @given W (of_Z MI) (v TEMP) /\ @given W (of_Z MI) (v HGHT) /\
  @given W (of_Z MI) (v DRCT) /\ @given W (of_Z MI) (v SPED) /\ @mandatory_level W (of_Z MI) ps "TTAA" 1 (v PRES) /\
  merge_sounding W (of_Z MI) 10 ps (of_Z 500) = Ok (Some s) /\ ~ In (v DRCT) (get s DRCT).
Proof.
  intros. pose proof (zw_case lg ex md) as P. cbv zeta in P. fold W in P. destruct (@merged_some W _ _ _ P ltac:(discriminate)) as (s & R). rewrite R in P. unfold merged in P.
  exists zw_parts, s, (six 850 1500 5 MI 190 15).
  split; [intros p E; change (Some (snd (nth 0 zw_parts ("", []))) = Some p) in E; inversion_clear E; repeat constructor; cbn; intuition discriminate|].
  do 3 (split; [reflexivity|]). split; [intros []; reflexivity|]. do 5 (split; [reflexivity|]). split; [|split; [exact R|]].
  - split; [|left; split; [reflexivity|split; [lia|intros; lia]]]. split; [reflexivity|]. split.
    + intros name q [-> | ->] V G; [|discriminate V]. assert (of_Z 950 = q) as <- by (vm_compute in V |- *; congruence). reflexivity.
    + intros OP. exfalso. destruct (OP _ eq_refl) as [I|(h & z & E & I & G & L)]; [cbn in I; intuition discriminate|].
      change (Some (map of_Z [0; 1500]) = Some h) in E. assert (map of_Z [0; 1500] = h) as <- by congruence. destruct I as [<-|[<-|[]]]; discriminate L.
  - rewrite P. intros [E|[E|[E|[]]]]; vm_compute in E; discriminate E.
Qed.
Print Assumptions C75_wind_refuted.
