(** Property C79: tropopause, significant and maximum wind levels in a merged sounding. *)
From Coq Require Import Lia ZifyBool ZifyNat String.
From Verif Require Import Base Floats Calc CalcNum SpecCalc Merge SpecMerge SpecMergeOrder SpecMergeKeep SpecMergeReport MergeOrder FloatOrder MergeReport Props_Merge Props_MergeOrder.
From Coq Require Import List ZArith Bool SpecFloat.
Import ListNotations.
Open Scope string_scope.
Open Scope list_scope.
Open Scope Z_scope.

(** ** Equality of binary64 values *)
Lemma float_eq_nan x y : SFeqb x y = true -> not_nan x /\ not_nan y.
Proof. unfold not_nan. destruct x, y; cbn; split; congruence. Qed.
Lemma float_eq_join x y z : SFeqb x y = true -> SFeqb x z = true -> SFeqb y z = true.
Proof.
  intros E F. destruct (float_eq_nan _ _ E) as [X Y]. destruct (float_eq_nan _ _ F) as [_ Z]. apply eqb_place in E; [|assumption..]. apply eqb_place in F; [|assumption..]. apply eqb_place; [assumption..|congruence].
Qed.
Lemma float_eq_abs x r : SFeqb x (SFabs r) = true -> SFeqb (SFabs x) (SFabs r) = true.
Proof.
  intros E. destruct x as [s|s| |s m e]; [exact E| |exact E|]; destruct s; try exact E; exfalso; destruct r as [t|t| |t n f]; try destruct t; cbn in E; discriminate.
Qed.

(** What the parts must be like for their temperatures: nothing is asked of the winds. *)
Definition sound_levels {A : arith} (ok : num A -> Prop) (missing : num A) (ps : parts_t A) : Prop :=
  numbers ok ps /\ dictionary ps "TTAA" /\ dictionary ps "TTCC" /\ surface_reported missing ps.

Section T.
Variables (ad su mu di md : flt -> flt -> flt) (lg ex : flt -> flt).
Notation W := (f64_with ad su mu di md SFabs lg ex).
Lemma float_report (w : bool) missing fuel (ps : parts_t W) selv s parts part i p a b :
  missing_value missing -> @sound_levels W not_nan missing ps -> (w = true -> @on_pressure W missing ps "PPBB" /\ @on_pressure W missing ps "PPDD") -> complete ps "TTCC" ->
  In parts (if w then wind_parts else temperature_parts) -> in_order ps parts part i p -> SFeqb p (of_Z 0) = false -> @above_surface W missing ps p ->
  val W ps part (k1 w) i = Ok a -> val W ps part (k2 w) i = Ok b -> @given W missing a -> (w = true -> @given W missing b) ->
  merge_sounding W missing fuel ps selv = Ok (Some s) ->
  exists a' b', reported ps p (k1 w) (k2 w) a' b' /\ @given W missing a' /\ (w = true -> @given W missing b') /\ @level_with W missing s p (k1 w) (k2 w) a' b'.
Proof.
  intros (MN & M0) (NB & D1 & D2 & SR) OW C2 IP IO PZ AS VA VB GA GB H.
  apply (merge_report (float_ordered ad su mu di md lg ex) missing MN (fun x X => abs_not_negative x missing X MN M0) M0 ltac:(discriminate) float_eq_join float_eq_abs w fuel ps selv s parts part i p a b); try assumption; intros CW; apply (OW CW).
Qed.
End T.

(** A temperature reported for a tropopause or a significant level: the merged sounding has a level
    of that pressure, with a temperature and dewpoint reported for that pressure.  Missing: levels
    reported out of order (C79_order_refuted) and soundings without a usable surface level. *)
Theorem C79_temperature_partial : forall ad su mu di md lg ex missing fuel selv, let W := f64_with ad su mu di md SFabs lg ex in
  forall (ps : parts_t W) s parts part i p t d, missing_value missing -> @sound_levels W not_nan missing ps -> complete ps "TTCC" ->
  In parts temperature_parts -> in_order ps parts part i p -> SFeqb p (of_Z 0) = false -> @above_surface W missing ps p ->
  val W ps part TEMP i = Ok t -> val W ps part DWPT i = Ok d -> @given W missing t ->
  merge_sounding W missing fuel ps selv = Ok (Some s) ->
  exists t' d', reported ps p TEMP DWPT t' d' /\ @given W missing t' /\ @level_with W missing s p TEMP DWPT t' d'.
Proof.
  intros ad su mu di md lg ex missing fuel selv W ps s parts part i p t d MV SP C2 IP IO PZ AS VA VB GA H.
  destruct (float_report ad su mu di md lg ex false missing fuel ps selv s parts part i p t d MV SP ltac:(discriminate) C2 IP IO PZ AS VA VB GA ltac:(discriminate) H) as (a & b & R & GV & _ & L). exists a, b. auto.
Qed.
Print Assumptions C79_temperature_partial.

(** The same of winds reported for significant levels and levels of maximum wind.  Missing: as
    above, and soundings with winds on height surfaces. *)
Theorem C79_wind_partial : forall ad su mu di md lg ex missing fuel selv, let W := f64_with ad su mu di md SFabs lg ex in
  forall (ps : parts_t W) s parts part i p r v, missing_value missing -> sound_parts ad su mu di md lg ex missing ps -> complete ps "TTCC" ->
  In parts wind_parts -> in_order ps parts part i p -> SFeqb p (of_Z 0) = false -> @above_surface W missing ps p ->
  val W ps part DRCT i = Ok r -> val W ps part SPED i = Ok v -> @given W missing r -> @given W missing v ->
  merge_sounding W missing fuel ps selv = Ok (Some s) ->
  exists r' v', reported ps p DRCT SPED r' v' /\ @given W missing r' /\ @given W missing v' /\ @level_with W missing s p DRCT SPED r' v'.
Proof.
  intros ad su mu di md lg ex missing fuel selv W ps s parts part i p t d MV (NB & D1 & D2 & SR & OB & OD) C2 IP IO PZ AS VA VB GA GB H.
  destruct (float_report ad su mu di md lg ex true missing fuel ps selv s parts part i p t d MV (conj NB (conj D1 (conj D2 SR))) (fun _ => conj OB OD) C2 IP IO PZ AS VA VB GA (fun _ => GB) H) as (a & b & R & GV & GW & L). exists a, b. auto.
Qed.
Print Assumptions C79_wind_partial.

(** So if no other temperature (wind) is reported for that pressure, it is the reported one. *)
Theorem C79_own_temperature_partial : forall ad su mu di md lg ex missing fuel selv, let W := f64_with ad su mu di md SFabs lg ex in
  forall (ps : parts_t W) s parts part i p t d, missing_value missing -> @sound_levels W not_nan missing ps -> complete ps "TTCC" ->
  In parts temperature_parts -> in_order ps parts part i p -> SFeqb p (of_Z 0) = false -> @above_surface W missing ps p ->
  val W ps part TEMP i = Ok t -> val W ps part DWPT i = Ok d -> @given W missing t ->
  (forall t' d', reported ps p TEMP DWPT t' d' -> @given W missing t' -> t' = t /\ d' = d) ->
  merge_sounding W missing fuel ps selv = Ok (Some s) -> @level_with W missing s p TEMP DWPT t d.
Proof.
  intros ad su mu di md lg ex missing fuel selv W ps s parts part i p t d MV SP C2 IP IO PZ AS VA VB GA U H.
  destruct (C79_temperature_partial ad su mu di md lg ex missing fuel selv ps s parts part i p t d MV SP C2 IP IO PZ AS VA VB GA H) as (a & b & R & GV & L). destruct (U a b R GV) as [-> ->]. exact L.
Qed.
Print Assumptions C79_own_temperature_partial.
Theorem C79_own_wind_partial : forall ad su mu di md lg ex missing fuel selv, let W := f64_with ad su mu di md SFabs lg ex in
  forall (ps : parts_t W) s parts part i p r v, missing_value missing -> sound_parts ad su mu di md lg ex missing ps -> complete ps "TTCC" ->
  In parts wind_parts -> in_order ps parts part i p -> SFeqb p (of_Z 0) = false -> @above_surface W missing ps p ->
  val W ps part DRCT i = Ok r -> val W ps part SPED i = Ok v -> @given W missing r -> @given W missing v ->
  (forall r' v', reported ps p DRCT SPED r' v' -> @given W missing r' -> @given W missing v' -> r' = r /\ v' = v) ->
  merge_sounding W missing fuel ps selv = Ok (Some s) -> @level_with W missing s p DRCT SPED r v.
Proof.
  intros ad su mu di md lg ex missing fuel selv W ps s parts part i p t d MV SP C2 IP IO PZ AS VA VB GA GB U H.
  destruct (C79_wind_partial ad su mu di md lg ex missing fuel selv ps s parts part i p t d MV SP C2 IP IO PZ AS VA VB GA GB H) as (a & b & R & GV & GW & L). destruct (U a b R GV GW) as [-> ->]. exact L.
Qed.
Print Assumptions C79_own_wind_partial.

(** ** A sounding with all of them (computed with the identity for logarithm and exponential) *)
Definition report_parts := parts_of_Z
  [("TTAA", [("PRES", [950; 850; 500]); ("TEMP", [10; 5; -20]); ("DWPT", [MI; MI; MI]); ("DRCT", [180; 190; 200]);
             ("SPED", [10; 15; 40]); ("HGHT", [500; 1500; 5500])]);
   ("TRPA", [("PRES", [250]); ("TEMP", [-50]); ("DWPT", [MI]); ("DRCT", [200]); ("SPED", [40])]);
   ("TTBB", [("PRES", [950; 900; 700]); ("TEMP", [10; 8; 0]); ("DWPT", [2; 3; MI])]);
   ("PPBB", [("HGHT", [-950; -600]); ("DRCT", [MI; 185]); ("SPED", [MI; 12])]);
   ("MXWA", [("PRES", [300]); ("DRCT", [210]); ("SPED", [99])])].
Definition W0 : arith := f64 (fun x => x) (fun x => x) (fun x _ => x).
Definition report_run : res (option (sounding flt)) := merge_sounding W0 (of_Z MI) 10 report_parts (of_Z 500).
Lemma report_pressures : merged (A := W0) PRES report_run = map of_Z [950; 900; 850; 700; 600; 500; 300; 250].
Proof. vm_compute. reflexivity. Qed.
Lemma report_temperatures : nth_error (merged (A := W0) TEMP report_run) 1 = Some (of_Z 8) /\ nth_error (merged (A := W0) TEMP report_run) 7 = Some (of_Z (-50)).
Proof. vm_compute. auto. Qed.
Lemma report_winds : nth_error (merged (A := W0) DRCT report_run) 4 = Some (of_Z 185) /\ nth_error (merged (A := W0) SPED report_run) 6 = Some (of_Z 99).
Proof. vm_compute. auto. Qed.
Definition missing0 : flt := of_Z MI.
Definition sound0 (ps : parts_t W0) : Prop := sound_parts fadd fsub fmul fdiv (fun x _ => x) (fun x => x) (fun x => x) missing0 ps.
Lemma report_sound : sound0 report_parts.
Proof.
  split; [apply no_nan_numbers; vm_compute; reflexivity|]. split; [|split; [|split; [|split]]].
  - intros p E. change (Some (snd (nth 0 report_parts ("", []))) = Some p) in E. inversion_clear E. repeat constructor; cbn; intuition discriminate.
  - intros p E. discriminate E.
  - right. exists (of_Z 950), (of_Z 10). repeat split; reflexivity.
  - intros p E. change (Some (snd (nth 3 report_parts ("", []))) = Some p) in E. inversion_clear E. right. exists (map of_Z [-950; -600]), (of_Z (-950)). split; [reflexivity|]. split; [left; reflexivity|]. split; reflexivity.
  - intros p E. discriminate E.
Qed.
Lemma report_above p : SFltb p (of_Z 950) = true -> SFltb p (of_Z 2000) = true -> @above_surface W0 missing0 report_parts p.
Proof.
  intros L1 L2. split; [exact L2|]. split.
  - intros name q [-> | ->] V G; assert (of_Z 950 = q) as <- by (vm_compute in V |- *; congruence); exact L1.
  - intros _ q [V|V] G; [discriminate V|]. assert (of_Z (-950) = q) as <- by (vm_compute in V |- *; congruence). exact L1.
Qed.
Example C79_ex : exists s, report_run = Ok (Some s) /\ missing_value missing0 /\ sound0 report_parts /\ complete (A := W0) report_parts "TTCC" /\
  in_order (A := W0) report_parts ("TTBB", "TTDD") "TTBB" 1 (of_Z 900) /\ @above_surface W0 missing0 report_parts (of_Z 900) /\
  in_order (A := W0) report_parts ("TRPA", "TRPC") "TRPA" 0 (of_Z 250) /\ @above_surface W0 missing0 report_parts (of_Z 250) /\
  in_order (A := W0) report_parts ("PPBB", "PPDD") "PPBB" 1 (of_Z 600) /\ @above_surface W0 missing0 report_parts (of_Z 600) /\
  in_order (A := W0) report_parts ("MXWA", "MXWC") "MXWA" 0 (of_Z 300) /\ @above_surface W0 missing0 report_parts (of_Z 300) /\
  get s PRES = map of_Z [950; 900; 850; 700; 600; 500; 300; 250] /\ nth_error (get s TEMP) 1 = Some (of_Z 8) /\ nth_error (get s TEMP) 7 = Some (of_Z (-50)) /\
  nth_error (get s DRCT) 4 = Some (of_Z 185) /\ nth_error (get s SPED) 6 = Some (of_Z 99).
Proof.
  pose proof report_pressures as P. destruct report_temperatures as [T1 T2]. destruct report_winds as [D1 D2].
  destruct (@merged_some W0 PRES report_run _ P ltac:(discriminate)) as (s & R). rewrite R in *. exists s. split; [reflexivity|]. split; [split; [discriminate|reflexivity]|]. split; [exact report_sound|]. split; [intros p k E; discriminate E|].
  split.
  { split; [exists (of_Z 900); split; [eexists _, (map of_Z [950; 900; 700]); split; [reflexivity|]; split; [reflexivity|left; reflexivity]|reflexivity]|]. split; [left; reflexivity|].
    intros j y LJ H. assert (j = 0%nat) as -> by lia. destruct H as (p & l & PP & X & C). assert (snd (nth 2 report_parts ("", [])) = p) as <- by (apply (f_equal (fun o => match o with Some q => q | None => [] end)) in PP; exact PP). destruct C as [C|[[C|C] _]]; [|discriminate C..].
    assert (map of_Z [950; 900; 700] = l) as <- by (apply (f_equal (fun o => match o with Some q => q | None => [] end)) in C; exact C). assert (of_Z 950 = y) as <- by (apply (f_equal (fun o => match o with Some q => q | None => of_Z 0 end)) in X; exact X). reflexivity. }
  split; [apply report_above; reflexivity|]. split.
  { split; [exists (of_Z 250); split; [eexists _, (map of_Z [250]); split; [reflexivity|]; split; [reflexivity|left; reflexivity]|reflexivity]|]. split; [left; reflexivity|]. intros j y LJ; lia. }
  split; [apply report_above; reflexivity|]. split.
  { split; [exists (of_Z (-600)); split; [eexists _, (map of_Z [-950; -600]); split; [reflexivity|]; split; [reflexivity|right; split; [left; reflexivity|split; reflexivity]]|reflexivity]|]. split; [left; reflexivity|].
    intros j y LJ H. assert (j = 0%nat) as -> by lia. destruct H as (p & l & PP & X & C). assert (snd (nth 3 report_parts ("", [])) = p) as <- by (apply (f_equal (fun o => match o with Some q => q | None => [] end)) in PP; exact PP). destruct C as [C|[_ [_ C]]]; [discriminate C|].
    assert (map of_Z [-950; -600] = l) as <- by (apply (f_equal (fun o => match o with Some q => q | None => [] end)) in C; exact C). assert (of_Z (-950) = y) as <- by (apply (f_equal (fun o => match o with Some q => q | None => of_Z 0 end)) in X; exact X). reflexivity. }
  split; [apply report_above; reflexivity|]. split.
  { split; [exists (of_Z 300); split; [eexists _, (map of_Z [300]); split; [reflexivity|]; split; [reflexivity|left; reflexivity]|reflexivity]|]. split; [left; reflexivity|]. intros j y LJ; lia. }
  split; [apply report_above; reflexivity|]. auto.
Qed.

(** Winds on height surfaces: the temperature of the significant level at 900 hPa is there. *)
Definition climb_parts := parts_of_Z
  [("TTAA", [("PRES", [950; 850; 500]); ("TEMP", [10; 5; -20]); ("DWPT", [MI; MI; MI]); ("DRCT", [180; 190; 200]);
             ("SPED", [10; 15; 40]); ("HGHT", [500; 1500; 5500])]);
   ("TTBB", [("PRES", [950; 900]); ("TEMP", [10; 8]); ("DWPT", [2; 3])]);
   ("PPBB", [("HGHT", [0; 1500]); ("DRCT", [MI; 10]); ("SPED", [MI; 1])])].
Definition climb_run : res (option (sounding flt)) := merge_sounding W0 (of_Z MI) 10 climb_parts (of_Z 500).
Lemma climb_values : merged (A := W0) PRES climb_run = map of_Z [950; 900; 850; 500] /\ nth_error (merged (A := W0) TEMP climb_run) 1 = Some (of_Z 8).
Proof. vm_compute. auto. Qed.
Lemma climb_not_on_pressure : ~ @on_pressure W0 missing0 climb_parts "PPBB".
Proof.
  intros OP. destruct (OP _ eq_refl) as [I|(h & z & E & I & G & L)]; [cbn in I; intuition discriminate|].
  change (Some (map of_Z [0; 1500]) = Some h) in E. assert (map of_Z [0; 1500] = h) as <- by congruence. destruct I as [<-|[<-|[]]]; discriminate L.
Qed.
Example C79_climb_ex : exists s, climb_run = Ok (Some s) /\ @sound_levels W0 not_nan missing0 climb_parts /\ ~ @on_pressure W0 missing0 climb_parts "PPBB" /\ complete (A := W0) climb_parts "TTCC" /\
  in_order (A := W0) climb_parts ("TTBB", "TTDD") "TTBB" 1 (of_Z 900) /\ @above_surface W0 missing0 climb_parts (of_Z 900) /\
  get s PRES = map of_Z [950; 900; 850; 500] /\ nth_error (get s TEMP) 1 = Some (of_Z 8).
Proof.
  destruct climb_values as (P & T). destruct (@merged_some W0 PRES climb_run _ P ltac:(discriminate)) as (s & R). rewrite R in *. exists s. split; [reflexivity|]. split.
  { split; [apply no_nan_numbers; vm_compute; reflexivity|]. split; [|split].
    - intros p E. change (Some (snd (nth 0 climb_parts ("", []))) = Some p) in E. inversion_clear E. repeat constructor; cbn; intuition discriminate.
    - intros p E. discriminate E.
    - right. exists (of_Z 950), (of_Z 10). repeat split; reflexivity. }
  split; [exact climb_not_on_pressure|]. split; [intros p k E; discriminate E|]. split.
  { split; [exists (of_Z 900); split; [eexists _, (map of_Z [950; 900]); split; [reflexivity|]; split; [reflexivity|left; reflexivity]|reflexivity]|]. split; [left; reflexivity|].
    intros j y LJ H. assert (j = 0%nat) as -> by lia. destruct H as (p & l & PP & X & C). assert (snd (nth 1 climb_parts ("", [])) = p) as <- by (apply (f_equal (fun o => match o with Some q => q | None => [] end)) in PP; exact PP). destruct C as [C|[[C|C] _]]; [|discriminate C..].
    assert (map of_Z [950; 900] = l) as <- by (apply (f_equal (fun o => match o with Some q => q | None => [] end)) in C; exact C). assert (of_Z 950 = y) as <- by (apply (f_equal (fun o => match o with Some q => q | None => of_Z 0 end)) in X; exact X). reflexivity. }
  split; [|auto]. split; [reflexivity|]. split.
  - intros name q [-> | ->] V G; assert (of_Z 950 = q) as <- by (vm_compute in V |- *; congruence); reflexivity.
  - intros OP. destruct (climb_not_on_pressure OP).
Qed.

(** Significant winds for 500 hPa and then for 850 hPa: the wind for 850 hPa is in no level. *)
Definition unordered_parts := parts_of_Z
  [("TTAA", [("PRES", [950; 850; 500]); ("TEMP", [10; 5; -20]); ("DWPT", [MI; MI; MI]); ("DRCT", [MI; MI; MI]);
             ("SPED", [MI; MI; MI]); ("HGHT", [500; 1500; 5500])]);
   ("PPBB", [("PRES", [950; 500; 850]); ("DRCT", [MI; 270; 185]); ("SPED", [MI; 30; 12])])].
Lemma unordered_case ad su mu di md lg ex : let W := f64_with ad su mu di md SFabs lg ex in
  merged DRCT (merge_sounding W (of_Z MI) 10 unordered_parts (of_Z 500)) = map of_Z [MI; MI; 270].
Proof. vm_compute. reflexivity. Qed.
Lemma unordered_sound ad su mu di md lg ex : sound_parts ad su mu di md lg ex (of_Z MI) unordered_parts.
Proof.
  split; [apply no_nan_numbers; vm_compute; reflexivity|]. split; [|split; [|split; [|split]]].
  - intros p E. change (Some (snd (nth 0 unordered_parts ("", []))) = Some p) in E. inversion_clear E. repeat constructor; cbn; intuition discriminate.
  - intros p E. discriminate E.
  - left. exists (of_Z 950). split; [reflexivity|]. split; [reflexivity|]. split; [reflexivity|]. split; [reflexivity|].
    intros [|[|[|i]]] q t z V1 V2 V3 G1 G2 G3; try (destruct i; discriminate V1).
    + change (Ok (of_Z 950) = Ok q) in V1. inversion_clear V1. reflexivity.
    + change (Ok (of_Z 850) = Ok q) in V1. inversion_clear V1. reflexivity.
    + change (Ok (of_Z 500) = Ok q) in V1. inversion_clear V1. reflexivity.
  - intros p E. change (Some (snd (nth 1 unordered_parts ("", []))) = Some p) in E. inversion_clear E. left. left. reflexivity.
  - intros p E. discriminate E.
Qed.
Theorem C79_order_refuted : forall ad su mu di md lg ex, let W := f64_with ad su mu di md SFabs lg ex in
  exists (ps : parts_t W) s i p r v, missing_value (of_Z MI) /\ sound_parts ad su mu di md lg ex (of_Z MI) ps /\ complete ps "TTCC" /\
  pressure ps "PPBB" i p /\ @above_surface W (of_Z MI) ps p /\ val W ps "PPBB" DRCT i = Ok r /\ val W ps "PPBB" SPED i = Ok v /\ @given W (of_Z MI) r /\ @given W (of_Z MI) v /\
  merge_sounding W (of_Z MI) 10 ps (of_Z 500) = Ok (Some s) /\ ~ In r (get s DRCT).
Proof.
  intros. pose proof (unordered_case ad su mu di md lg ex) as P. cbv zeta in P. fold W in P. destruct (@merged_some W _ _ _ P ltac:(discriminate)) as (s & R). rewrite R in P. unfold merged in P.
  exists unordered_parts, s, 2%nat, (of_Z 850), (of_Z 185), (of_Z 12). split; [split; [discriminate|reflexivity]|]. split; [apply unordered_sound|]. split; [intros p k E; discriminate E|].
  split; [eexists _, (map of_Z [950; 500; 850]); split; [reflexivity|]; split; [reflexivity|left; reflexivity]|]. split.
  { split; [reflexivity|]. split.
    - intros name q [-> | ->] V G; [|discriminate V]. assert (of_Z 950 = q) as <- by (vm_compute in V |- *; congruence). reflexivity.
    - intros _ q [V|V] G; [|discriminate V]. assert (of_Z 950 = q) as <- by (vm_compute in V |- *; congruence). reflexivity. }
  do 4 (split; [reflexivity|]). split; [exact R|]. rewrite P. intros [E|[E|[E|[]]]]; vm_compute in E; discriminate E.
Qed.
Print Assumptions C79_order_refuted.
