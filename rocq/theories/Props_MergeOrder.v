(** Properties C72 and C74: the order of the levels of a merged sounding. *)
From Coq Require Import Lia ZifyBool ZifyNat String Sorted.
From Verif Require Import Base Floats Calc CalcNum SpecCalc Merge SpecMerge SpecMergeOrder MergeFacts MergeOrder FloatOrder Props_Merge.
From Coq Require Import List ZArith Bool SpecFloat.
Import ListNotations.
Open Scope string_scope.
Open Scope list_scope.
Open Scope Z_scope.

Section P.
Variables (ad su mu di md : flt -> flt -> flt) (lg ex : flt -> flt).
Notation W := (f64_with ad su mu di md SFabs lg ex).
Variable missing : flt.
(** A pressure that a part other than the mandatory levels reports, with or without a sign *)
Definition reported_elsewhere (ps : parts_t W) (p : flt) : Prop :=
  exists name l x, In name ["TRPA"; "TRPC"; "TTBB"; "TTDD"; "PPBB"; "PPDD"; "MXWA"; "MXWC"] /\
    (arr W ps name PRES = Ok l \/ arr W ps name HGHT = Ok l) /\ In x l /\ p = SFabs x.
(** The pressure the mandatory levels, the significant temperatures or another part give for the
    lowest level *)
Definition surface_pressure (ps : parts_t W) (p : flt) : Prop :=
  val W ps "TTAA" PRES 0 = Ok p \/ val W ps "TTBB" PRES 0 = Ok p \/ reported_elsewhere ps p.
(** What the parts must be like *)
Definition sound_parts (ps : parts_t W) : Prop :=
  @numbers W not_nan ps /\ dictionary ps "TTAA" /\ dictionary ps "TTCC" /\ @surface_reported W missing ps /\
  @on_pressure W missing ps "PPBB" /\ @on_pressure W missing ps "PPDD".
Definition missing_value : Prop := not_nan missing /\ SFltb missing (of_Z 0) = true.
End P.

(** Without levels below ground, the pressures fall from the surface up; those below ground are put
    in between.  Missing: soundings without a usable surface level, and winds on height surfaces. *)
Theorem C72_order_partial : forall ad su mu di md lg ex missing fuel selv, let W := f64_with ad su mu di md SFabs lg ex in
  forall (ps : parts_t W) s, missing_value missing -> sound_parts ad su mu di md lg ex missing ps ->
  merge_sounding W missing fuel ps selv = Ok (Some s) ->
  exists p levels below, @descending W (p :: levels) /\ Forall (@given W missing) (p :: levels) /\
    surface_pressure ad su mu di md lg ex ps p /\ woven (p :: levels) below (get s PRES) /\
    forall q, In q below -> SFltb p q = true /\ exists i, val W ps "TTAA" PRES i = Ok q.
Proof.
  intros ad su mu di md lg ex missing fuel selv W ps s (MN & M0) (NB & D1 & D2 & SR & OB & OD) H.
  destruct (merge_order (float_ordered ad su mu di md lg ex) missing MN (fun x X => abs_not_negative x missing X MN M0) (reported_elsewhere ad su mu di md lg ex ps) M0 ltac:(discriminate)
    fuel ps selv s NB D1 D2 SR OB OD) as (p & l & b & C & D & G & WV & HB); [|exact H|].
  - intros name l x I E X. exists name, l, x. auto.
  - exists p, l, b. repeat (split; [assumption|]). exact HB.
Qed.
Print Assumptions C72_order_partial.

(** The mandatory levels below ground directly follow the surface level, in their order, and above
    them the pressures fall.  Missing: soundings that have significant winds on pressure surfaces
    both below and above 100 hPa (C74_refuted), soundings without a usable surface level, and winds
    on height surfaces. *)
Theorem C74_below_ground_partial : forall ad su mu di md lg ex missing fuel selv, let W := f64_with ad su mu di md SFabs lg ex in
  forall (ps : parts_t W) s mandatory_pressures, missing_value missing -> sound_parts ad su mu di md lg ex missing ps -> complete ps "TTCC" ->
  (levels W ps "PPBB" SPED = Ok 0%nat \/ levels W ps "PPDD" SPED = Ok 0%nat) ->
  arr W ps "TTAA" PRES = Ok mandatory_pressures -> @descending W (skipn 1 mandatory_pressures) ->
  merge_sounding W missing fuel ps selv = Ok (Some s) ->
  exists p levels, surface_pressure ad su mu di md lg ex ps p /\ @descending W (p :: levels) /\ Forall (@given W missing) (p :: levels) /\
    get s PRES = p :: filter (fun q => SFltb p q) (skipn 1 mandatory_pressures) ++ levels.
Proof.
  intros ad su mu di md lg ex missing fuel selv W ps s pl (MN & M0) (NB & D1 & D2 & SR & OB & OD) C2 ZZ PL DS H.
  destruct (merge_below (float_ordered ad su mu di md lg ex) missing MN (fun x X => abs_not_negative x missing X MN M0) (reported_elsewhere ad su mu di md lg ex ps) M0 ltac:(discriminate)
    fuel ps selv s pl NB D1 D2 C2 SR OB OD ZZ PL DS) as (p & l & C & D & G & E); [|exact H|].
  - intros name l x I E X. exists name, l, x. auto.
  - exists p, l. auto.
Qed.
Print Assumptions C74_below_ground_partial.

(** ** Cases *)
Definition no_nan (ps : list (string * list (string * list flt))) : bool :=
  forallb (fun e => forallb (fun f => forallb (fun x => match x with S754_nan => false | _ => true end) (snd f)) (snd e)) ps.
Lemma no_nan_numbers ad su mu di md lg ex ps : no_nan ps = true -> @numbers (f64_with ad su mu di md SFabs lg ex) not_nan ps.
Proof.
  intros H name p k l I J. unfold no_nan in H. rewrite forallb_forall in H. specialize (H _ I). rewrite forallb_forall in H. specialize (H _ J). rewrite forallb_forall in H.
  apply Forall_forall. intros x X. specialize (H x X). unfold not_nan. destruct x; congruence.
Qed.
Ltac part_cases p E := cbn in E; first [discriminate E | (match type of E with Some ?x = Some _ => assert (x = p) as <- by congruence end)].
Lemma stale_sound ad su mu di md lg ex : sound_parts ad su mu di md lg ex (of_Z MI) stale_parts.
Proof.
  split; [apply no_nan_numbers; vm_compute; reflexivity|]. split; [|split; [|split; [|split]]].
  - intros p E. change (Some (snd (nth 0 stale_parts ("", []))) = Some p) in E. inversion_clear E. repeat constructor; cbn; intuition discriminate.
  - intros p E. discriminate E.
  - left. exists (of_Z 950). split; [reflexivity|]. split; [reflexivity|]. split; [reflexivity|]. split; [reflexivity|].
    intros [|[|[|i]]] q t z V1 V2 V3 G1 G2 G3; try (destruct i; discriminate V1).
    + change (Ok (of_Z 950) = Ok q) in V1. inversion_clear V1. reflexivity.
    + change (Ok (of_Z MI) = Ok t) in V2. assert (of_Z MI = t) as ET by (inversion V2; reflexivity). rewrite <- ET in G2. change (true = false) in G2. discriminate G2.
    + change (Ok (of_Z 850) = Ok q) in V1. inversion_clear V1. reflexivity.
  - intros p E. change (Some (snd (nth 1 stale_parts ("", []))) = Some p) in E. inversion_clear E. left. left. reflexivity.
  - intros p E. change (Some (snd (nth 2 stale_parts ("", []))) = Some p) in E. inversion_clear E. left. left. reflexivity.
Qed.
Lemma full_sound ad su mu di md lg ex : sound_parts ad su mu di md lg ex (of_Z MI) full_parts.
Proof.
  split; [apply no_nan_numbers; vm_compute; reflexivity|]. split; [|split; [|split; [|split]]].
  - intros p E. change (Some (snd (nth 0 full_parts ("", []))) = Some p) in E. inversion_clear E. repeat constructor; cbn; intuition discriminate.
  - intros p E. change (Some (snd (nth 1 full_parts ("", []))) = Some p) in E. inversion_clear E. repeat constructor; cbn; intuition discriminate.
  - left. exists (of_Z 950). split; [reflexivity|]. split; [reflexivity|]. split; [reflexivity|]. split; [reflexivity|].
    intros [|[|[|i]]] q t z V1 V2 V3 G1 G2 G3; try (destruct i; discriminate V1).
    + change (Ok (of_Z 950) = Ok q) in V1. inversion_clear V1. reflexivity.
    + change (Ok (of_Z MI) = Ok t) in V2. assert (of_Z MI = t) as ET by (inversion V2; reflexivity). rewrite <- ET in G2. change (true = false) in G2. discriminate G2.
    + change (Ok (of_Z 850) = Ok q) in V1. inversion_clear V1. reflexivity.
  - intros p E. change (Some (snd (nth 2 full_parts ("", []))) = Some p) in E. inversion_clear E. left. left. reflexivity.
  - intros p E. discriminate E.
Qed.
Example C72_ex : forall ad su mu di md lg ex, let W := f64_with ad su mu di md SFabs lg ex in
  exists s, missing_value (of_Z MI) /\ sound_parts ad su mu di md lg ex (of_Z MI) full_parts /\
  merge_sounding W (of_Z MI) 10 full_parts (of_Z 500) = Ok (Some s) /\ get s PRES = map of_Z [950; 1000; 850; 70].
Proof.
  intros. pose proof (full_case ad su mu di md lg ex) as P. fold W in P. destruct (@merged_some W _ _ _ P ltac:(discriminate)) as (s & R). rewrite R in P.
  exists s. split; [split; [discriminate|reflexivity]|]. split; [apply full_sound|]. split; [exact R|exact P].
Qed.
(** A sounding with significant winds on pressure surfaces below and above 100 hPa, surface at
    950 hPa: the 1000 hPa level comes first, below the surface level. *)
Theorem C74_refuted : forall ad su mu di md lg ex, let W := f64_with ad su mu di md SFabs lg ex in
  exists (ps : parts_t W) s mandatory_pressures, missing_value (of_Z MI) /\ sound_parts ad su mu di md lg ex (of_Z MI) ps /\ complete ps "TTCC" /\
  arr W ps "TTAA" PRES = Ok mandatory_pressures /\ @descending W (skipn 1 mandatory_pressures) /\
  merge_sounding W (of_Z MI) 10 ps (of_Z 500) = Ok (Some s) /\
  val W ps "TTAA" PRES 0 = Ok (of_Z 950) /\ nth_error (get s PRES) 0 = Some (of_Z 1000) /\
  ~ exists p levels, surface_pressure ad su mu di md lg ex ps p /\ @descending W (p :: levels) /\
      get s PRES = p :: filter (fun q => SFltb p q) (skipn 1 mandatory_pressures) ++ levels.
Proof.
  intros. pose proof (stale_case ad su mu di md lg ex) as P. fold W in P. destruct (@merged_some W _ _ _ P ltac:(discriminate)) as (s & R). rewrite R in P. unfold merged in P.
  exists stale_parts, s, (map of_Z [950; 1000; 850]). split; [split; [discriminate|reflexivity]|]. split; [apply stale_sound|]. split; [intros p k E; discriminate E|].
  split; [reflexivity|]. split; [repeat constructor|]. split; [exact R|]. split; [reflexivity|]. split; [rewrite P; reflexivity|].
  intros (p & l & SP & _ & E). rewrite P in E. pose proof (f_equal (@hd_error flt) E) as E1. change (Some (of_Z 1000) = Some p) in E1. clear E. assert (of_Z 1000 = p) as <- by (inversion E1; reflexivity). clear E1.
  destruct SP as [V|[V|(name & a & x & I & V & X & E)]]; [change (Ok (of_Z 950) = Ok (of_Z 1000)) in V; vm_compute in V; discriminate V|discriminate V|].
  cbn in I. destruct I as [<-|[<-|[<-|[<-|[<-|[<-|[<-|[<-|[]]]]]]]]]; (destruct V as [V|V]; try discriminate V).
  - change (Ok (map of_Z [950; 900]) = Ok a) in V. assert (map of_Z [950; 900] = a) as <- by (inversion V; reflexivity). cbn in X. destruct X as [<-|[<-|[]]]; vm_compute in E; discriminate E.
  - change (Ok (map of_Z [60]) = Ok a) in V. assert (map of_Z [60] = a) as <- by (inversion V; reflexivity). cbn in X. destruct X as [<-|[]]; vm_compute in E; discriminate E.
Qed.
Print Assumptions C74_refuted.
Example C74_ex : forall ad su mu di md lg ex, let W := f64_with ad su mu di md SFabs lg ex in
  exists s, merge_sounding W (of_Z MI) 10 full_parts (of_Z 500) = Ok (Some s) /\ sound_parts ad su mu di md lg ex (of_Z MI) full_parts /\
  @complete W full_parts "TTCC" /\ levels W full_parts "PPDD" SPED = Ok 0%nat /\ @descending W (map of_Z [1000; 850]) /\
  get s PRES = of_Z 950 :: filter (fun q => SFltb (of_Z 950) q) (map of_Z [1000; 850]) ++ map of_Z [850; 70].
Proof.
  intros. pose proof (full_case ad su mu di md lg ex) as P. fold W in P. destruct (@merged_some W _ _ _ P ltac:(discriminate)) as (s & R). rewrite R in P.
  exists s. split; [exact R|]. split; [apply full_sound|]. split.
  { intros p k E. change (Some (snd (nth 1 full_parts ("", []))) = Some p) in E. inversion_clear E. destruct k; cbn; tauto. }
  split; [reflexivity|]. split; [repeat constructor|]. exact P.
Qed.
