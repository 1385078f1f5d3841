(** Properties C43 (contents of surface reports) and C76 (sounding datasets). *)
From Coq Require Import Lia ZifyBool ZifyNat QArith Sorted Permutation.
From Verif Require Import Base BaseFacts Floats Strings StringsFacts Dates Headers Order OrderFacts DmFile DmHookFacts
  Station Text StationRead StationFacts HistoryFacts Query SpecQuery QueryFacts SnOut SpecSnOut SnOutFacts.
From Verif Require Props_Station Props_Query.
From Coq Require Import List.
Open Scope Z_scope.

Lemma Forall2_with {A B} (P : A -> Prop) (R R' : A -> B -> Prop) l l' : (forall x y, P x -> R x y -> R' x y) -> Forall P l -> Forall2 R l l' -> Forall2 R' l l'.
Proof. intros H F G. induction G as [|x y l l' G1 G2 IH]; [constructor|]. inversion F; subst. constructor; auto. Qed.

(** ** C43: what the surface reports say *)
(** Every returned report describes its record: time, identifier, position and values. *)
Theorem C43_surface_contents : forall f a special objs,
  sfjson f a special = Ok objs ->
  exists l sel recs, info f = Ok l /\ st_select KSurface l a = Ok sel /\
    unpack f (map (fun x => (ls_row x, ls_col x)) sel) = Ok recs /\
    Forall2 describes (filter (fun r => negb (match r with [] => true | _ => false end) && (special || negb (has k_SPCL r))) recs) objs.
Proof.
  intros f a special objs H. destruct (Props_Query.C43_surface_reports _ _ _ _ H) as (l & sel & recs & H1 & H2 & H3 & H4).
  exists l, sel, recs. repeat (split; [assumption|]). apply (Forall2_with keys_ok (fun r o => json_of r = Ok o)); [exact json_describes| |exact H4].
  apply unpack_keys in H3. rewrite Forall_forall in *. intros r Hr. apply filter_In in Hr as [Hr _]. exact (H3 r Hr).
Qed.
Print Assumptions C43_surface_contents.
(* two reports: identifiers and names of the values *)
Definition all_stations : stargs := mk_sta None None None None None None.
Example C43_contents_example :
  match open_station KSurface Props_Query.ex_sf_bytes with
  | Ok f => match sfjson f all_stations true with Ok l => map (fun o => (ob_id o, map fst (ob_values o))) l | Err _ => [] end
  | Err _ => []
  end = [([75;79;85;78], [[112;114;101;115]; [116;109;112;99]]); ([75;79;75;67;88;53], [[112;114;101;115]; [116;109;112;99]])].
Proof. vm_compute. reflexivity. Qed.

(** ** C76: sounding datasets *)
(** One dataset for each selected sounding, in order.  All its levels are there once, with falling
    pressure or rising height; every variable has its values at the same levels, and is masked
    exactly where the value is the file's missing value; attributes are those of the station. *)
Theorem C76_sounding_datasets : forall f a dss,
  snxarray f a = Ok dss ->
  exists l sel recs, info f = Ok l /\ st_select KSounding l a = Ok sel /\
    unpack f (map (fun x => (ls_row x, ls_col x)) sel) = Ok recs /\
    Forall2 (fun r ds => exists order levels, shows (lb_missing_float (gf_label (rf_file f))) r ds order levels) recs dss.
Proof.
  intros f a dss H. unfold snxarray, select_records in H. destruct (info f) as [l|]; cbn [bind] in H; [|discriminate H].
  destruct (st_select KSounding l a) as [sel|] eqn:ES; cbn [bind] in H; [|discriminate H].
  destruct (unpack f _) as [recs|] eqn:EU; cbn [bind] in H; [|discriminate H].
  exists l, sel, recs. repeat (split; [assumption || reflexivity|]). apply mapM_ok_Forall2 in H.
  eapply Forall2_with; [|exact (unpack_keys _ _ _ EU)|exact H]. intros r ds K D. exact (dataset_shows _ _ _ K D).
Qed.
Print Assumptions C76_sounding_datasets.
(** Datasets are returned whenever the selected soundings are complete. *)
Theorem C76_returned : forall f a l sel recs,
  info f = Ok l -> st_select KSounding l a = Ok sel -> unpack f (map (fun x => (ls_row x, ls_col x)) sel) = Ok recs ->
  Forall complete recs -> exists dss, snxarray f a = Ok dss.
Proof.
  intros f a l sel recs H1 H2 H3 F. unfold snxarray, select_records. rewrite H1. cbn [bind]. rewrite H2. cbn [bind]. rewrite H3. cbn [bind].
  apply unpack_keys in H3. clear H1 H2. induction recs as [|r recs IH]; [eexists; reflexivity|].
  inversion F as [|? ? F1 F2]; inversion H3 as [|? ? K1 K2]; subst. destruct (complete_dataset (lb_missing_float (gf_label (rf_file f))) r K1 F1) as (ds & E).
  destruct (IH K2 F2) as (dss & EE). exists (ds :: dss). cbn [mapM]. rewrite E. cbn [bind]. rewrite EE. reflexivity.
Qed.
Print Assumptions C76_returned.
(** With falling pressures in the file and a missing value. *)
Definition ex_mf : flt := of_Z (-9999).
Definition ex_head : record :=
  [(k_STID, DHead (HText [79])); (k_STNM, DHead (HInt 1)); (k_SLAT, DHead (HText [])); (k_SLON, DHead (HText [])); (k_SELV, DHead (HInt 300));
   (k_STAT, DHead (HText [79])); (k_COUN, DHead (HText [85])); (k_DATE, DHead (HDate (mk_date 2024 2 29))); (k_TIME, DHead (HTime (mk_time 12 0 0 0)))].
Definition ex_rec : record := ex_head ++ [(k_PRES, DArr (map of_Z [900; 950; 500])); ([84;77;80;67], DArr (map of_Z [10; 12; -9999]))].
Lemma ex_rec_complete : complete ex_rec.
Proof.
  split; [|split].
  - intros k Hk. unfold entry, ex_rec. cbn [ex_head app In] in *. repeat (destruct Hk as [<-|Hk]; [eexists; tauto|]). destruct Hk.
  - exists (mk_dt 2024 2 29 12 0 0 0). split; unfold entry, ex_rec; cbn [ex_head app In]; tauto.
  - exists VPres, (DArr (map of_Z [900; 950; 500])), (map LF (map of_Z [900; 950; 500])).
    split; [split; [intros _; exists (DArr (map of_Z [900; 950; 500])); unfold entry, ex_rec; cbn [ex_head app In]; tauto|reflexivity]|].
    split; [unfold entry, ex_rec; cbn [ex_head app In coordinate]; tauto|].
    split; [apply array_of_array; reflexivity|]. split; [discriminate|].
    intros k v H N. unfold entry, ex_rec in H. cbn [ex_head app In] in H. unfold not_variables in N. cbn [coordinate text_keys app In] in N.
    do 10 (destruct H as [H|H]; [exfalso; apply N; injection H as <- _; repeat ((left; reflexivity) || right)|]). destruct H as [H|[]].
    exists (map LF (map of_Z [10; 12; -9999])). injection H as _ <-. split; [apply array_of_array; reflexivity|reflexivity].
Qed.
Example C76_example : match dataset_of ex_mf ex_rec with Ok ds => Some (ds_levels ds, ds_vars ds, ds_pressure ds) | Err _ => None end =
  Some (map LF (map of_Z [950; 900; 500]), [([116;109;112;99], [Some (LF (of_Z 12)); Some (LF (of_Z 10)); None])], Some (LF (of_Z 900))) /\ complete ex_rec.
Proof. split; [vm_compute; reflexivity|exact ex_rec_complete]. Qed.
(** Through a file: two soundings written and returned. *)
Definition out_of (r : res rfile) : list (dval * nat * list str) :=
  match r with
  | Ok f => match snxarray f all_stations with
            | Ok l => map (fun ds => (ds_id ds, length (ds_levels ds), map fst (ds_vars ds))) l
            | Err _ => []
            end
  | Err _ => []
  end.
Example C76_file_example : out_of (open_station KSounding Props_Query.ex_snd_bytes) =
  [(DHead (HText [75;79;85;78]), 2%nat, [[116;109;112;99]]); (DHead (HText [75;79;75;67]), 2%nat, [[116;109;112;99]])].
Proof. vm_compute. reflexivity. Qed.
