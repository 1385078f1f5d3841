(** C90, C91: queries on an open object, one after the other and at the same time. *)
From Coq Require Import ZArith QArith Lia.
From Verif Require Import Base Words Floats Structs Strings Dates Headers Order DmFile Station StationRead Grid GridRead Query SnOut Unmerged
  Tools ReaderIO ReaderIOFacts SpecSession.
From Verif Require Calc Props_Station Props_Query Props_GridFile Props_Unmerged.
From Coq Require Import List.
Import ListNotations.
Open Scope Z_scope.

Lemma open_gempak_data d g : open_gempak d = Ok g -> gf_data g = d.
Proof.
  unfold open_gempak. intros H.
  repeat match type of H with
         | bind ?a _ = Ok _ => let X := fresh in destruct a eqn:X; cbn [bind] in H; [|discriminate H]
         end.
  injection H as <-. reflexivity.
Qed.
Lemma open_station_data k d f : open_station k d = Ok f -> gf_data (rf_file f) = d.
Proof.
  unfold open_station. intros H. destruct (open_gempak d) as [g|] eqn:E; cbn [bind] in H; [|discriminate H].
  repeat match type of H with
         | bind ?a _ = Ok _ => destruct a; cbn [bind] in H; [|discriminate H]
         end.
  injection H as <-. exact (open_gempak_data _ _ E).
Qed.
Lemma open_grid_data d f : open_grid d = Ok f -> gf_data (rg_file f) = d.
Proof.
  unfold open_grid. intros H. destruct (open_gempak d) as [g|] eqn:E; cbn [bind] in H; [|discriminate H]. cbv zeta in H.
  repeat match type of H with
         | bind ?a _ = Ok _ => destruct a; cbn [bind] in H; [|discriminate H]
         end.
  injection H as <-. exact (open_gempak_data _ _ E).
Qed.

Section Calls.
Variable of_q : Q -> flt.
Variable W : Calc.arith.
Variable num_of : flt -> Calc.num W.
Variable flt_of : Calc.num W -> flt.
Variable fuel : nat.
Variable order : list str -> list str.

(** A call as it runs on the buffer of the object, and the answer worked out from the file alone *)
Definition on_object (f : rfile) (c : scall) : prog sresult :=
  match c with
  | CSnxarray a => x <~ snxarray_io of_q W num_of flt_of fuel f a ;; ret (Datasets x)
  | CSfjson a sp => x <~ sfjson_io f a sp ;; ret (Objects x)
  | CNearest when a sp => x <~ nearest_time_io order f when a sp ;; ret (Objects x)
  end.
Definition from_file (f : rfile) (c : scall) : res sresult :=
  match c with
  | CSnxarray a => x <- snxarray_any of_q W num_of flt_of fuel f a ;; Ok (Datasets x)
  | CSfjson a sp => x <- sfjson f a sp ;; Ok (Objects x)
  | CNearest when a sp => x <- nearest_time order f when a sp ;; Ok (Objects x)
  end.
Lemma call_answers f c : answers (gf_data (rf_file f)) (on_object f c) (from_file f c).
Proof.
  destruct c; (apply ans_bind; [|intros; apply ans_done]); [apply ans_snxarray|apply ans_sfjson|apply ans_nearest].
Qed.

(** ** C90 *)
(** Each answer in a series of calls is the one the same call gives on the object just after opening, when it is the only one:
    whatever was asked before, and whichever of those calls raised. *)
Theorem C90_stations : forall k d f opening calls, open_station k d = Ok f ->
  snd (session (map (on_object f) calls) (opened_by opening d)) =
  map (fun c => snd (run (on_object f c) (opened_by opening d))) calls.
Proof.
  intros k d f opening calls HO. pose proof (open_station_data _ _ _ HO) as D.
  assert (K : kept (gf_data (rf_file f)) (opened_by opening d)) by (rewrite D; apply opened_kept).
  destruct (session_answers _ (on_object f) (from_file f) calls _ K (call_answers f)) as [-> _]. apply map_ext. intros c.
  destruct (answers_kept _ _ _ _ (call_answers f c) K) as [-> _]. reflexivity.
Qed.
(** They are the answers worked out from the bytes of the file, with no state: the ones the other properties are about. *)
Theorem C90_stations_file : forall k d f opening calls, open_station k d = Ok f ->
  snd (session (map (on_object f) calls) (opened_by opening d)) = map (from_file f) calls.
Proof.
  intros k d f opening calls HO. pose proof (open_station_data _ _ _ HO) as D.
  assert (K : kept (gf_data (rf_file f)) (opened_by opening d)) by (rewrite D; apply opened_kept).
  exact (proj1 (session_answers _ (on_object f) (from_file f) calls _ K (call_answers f))).
Qed.
End Calls.

Theorem C90_grids : forall d f opening calls, open_grid d = Ok f ->
  snd (session (map (gdxarray_io f) calls) (opened_by opening d)) =
  map (fun a => snd (run (gdxarray_io f a) (opened_by opening d))) calls.
Proof.
  intros d f opening calls HO. pose proof (open_grid_data _ _ HO) as D.
  assert (K : kept (gf_data (rg_file f)) (opened_by opening d)) by (rewrite D; apply opened_kept).
  destruct (session_answers _ (gdxarray_io f) (gdxarray f) calls _ K (ans_gdxarray f)) as [-> _]. apply map_ext. intros c.
  destruct (answers_kept _ _ _ _ (ans_gdxarray f c) K) as [-> _]. reflexivity.
Qed.
Theorem C90_grids_file : forall d f opening calls, open_grid d = Ok f ->
  snd (session (map (gdxarray_io f) calls) (opened_by opening d)) = map (gdxarray f) calls.
Proof.
  intros d f opening calls HO. pose proof (open_grid_data _ _ HO) as D.
  assert (K : kept (gf_data (rg_file f)) (opened_by opening d)) by (rewrite D; apply opened_kept).
  exact (proj1 (session_answers _ (gdxarray_io f) (gdxarray f) calls _ K (ans_gdxarray f))).
Qed.
Print Assumptions C90_stations.
Print Assumptions C90_stations_file.
Print Assumptions C90_grids.
Print Assumptions C90_grids_file.

(* a file that ends in the middle of the data of one station: the call on that station raises after it has moved the buffer,
   an unknown station raises before, and the calls on the other station answer as if nothing had happened *)
Definition sf_d : bytes := Props_Query.ex_sf_bytes.
Definition first_id : stargs := by_id [75;79;85;78].               (* KOUN *)
Definition second_id : stargs := by_id [75;79;75;67;88;53].        (* KOKCX5 *)
Definition cut_d : bytes := firstn (length sf_d - 4) sf_d.
Definition temps (r : res sresult) : res (list (str * option dval)) :=
  match r with
  | Ok (Objects l) => Ok (map (fun o => (ob_id o, dict_get str_cmp [116;109;112;99] (ob_values o))) l)
  | Ok (Datasets _) => Ok []
  | Err x => Err x
  end.
Definition ex_calls : list scall :=
  [CSfjson second_id true; CSfjson (by_id [88]) true; CSfjson first_id true; CSfjson second_id true; CSfjson first_id false].
Definition ex_temps : list (res (list (str * option dval))) :=
  [Err StructError; Err KeyError; Ok [([75;79;85;78], Some (DFlt (S754_finite false 11534336 (-19))))]; Err StructError;
   Ok [([75;79;85;78], Some (DFlt (S754_finite false 11534336 (-19))))]].
Example C90_example : exists f opening, open_station KSurface cut_d = Ok f /\ map temps (snd (session (map (on_object (fun _ => S754_nan) Props_Unmerged.ex_W widen (fun x => x) 10 (fun l => l) f) ex_calls) (opened_by opening cut_d))) =
    ex_temps.
Proof.
  assert (V : (match open_station KSurface cut_d with
              | Ok f => map temps (snd (session (map (on_object (fun _ => S754_nan) Props_Unmerged.ex_W widen (fun x => x) 10 (fun l => l) f) ex_calls) (opened_by (_ <~ read_word LE ;; ret tt) cut_d)))
              | Err _ => [] end) = ex_temps) by (vm_compute; reflexivity).
  destruct (open_station KSurface cut_d) as [f|]; [|discriminate V]. exists f, (_ <~ read_word LE ;; ret tt). split; [reflexivity|exact V].
Qed.
(* the grid file of C06 *)
Definition all_grids : gdargs := mk_gda None None None None None None.
Definition ex_grids : list (res (list (str * option Z))) :=
  [Err KeyError; Ok [([116;109;112;99], Some 500); ([116;109;112;99], Some 850)]; Ok [([116;109;112;99], Some 500); ([116;109;112;99], Some 850)]].
Example C90_grids_example : exists f, open_grid Props_GridFile.ex_bytes = Ok f /\
  map (fun r => match r with Ok l => Ok (map (fun g => (go_name g, go_level g)) l) | Err x => Err x end)
    (snd (session (map (gdxarray_io f) [mk_gda (Some (One [88])) None None None None None; all_grids; all_grids]) (opened_by (ret tt) Props_GridFile.ex_bytes))) = ex_grids.
Proof.
  assert (V : (match open_grid Props_GridFile.ex_bytes with
               | Ok f => map (fun r => match r with Ok l => Ok (map (fun g => (go_name g, go_level g)) l) | Err x => Err x end)
                   (snd (session (map (gdxarray_io f) [mk_gda (Some (One [88])) None None None None None; all_grids; all_grids]) (opened_by (ret tt) Props_GridFile.ex_bytes)))
               | Err _ => []
               end) = ex_grids) by (vm_compute; reflexivity).
  destruct (open_grid Props_GridFile.ex_bytes) as [f|]; [|discriminate V]. exists f. split; [reflexivity|exact V].
Qed.

(** ** C91 *)
(** Each thread has an object of its own: whatever the schedule, a query that has come to its end has given the answer it gives
    alone, and one that has not is on the way to it. *)
Theorem C91_own_objects : forall (A : Type) (schedule : list bool) (p q : prog A) b c p' q' b' c',
  interleave2 schedule p q b c = (p', q', b', c') ->
  (forall r, p' = Done r -> r = snd (run p b)) /\ (forall r, q' = Done r -> r = snd (run q c)) /\
  snd (run p' b') = snd (run p b) /\ snd (run q' c') = snd (run q c).
Proof.
  intros A s p q b c p' q' b' c' H. apply interleave2_run in H as [H1 H2]. rewrite <- H1, <- H2. repeat split; intros r ->; reflexivity.
Qed.
Print Assumptions C91_own_objects.

(** On one object the calls may follow each other in any order (C90), but not run at the same time. *)
Definition bad_schedule : list bool := [true; false] ++ repeat true 60 ++ repeat false 60.
Definition both (d : bytes) (schedule : list bool) : option (res (list sfobj) * res (list sfobj)) :=
  match open_station KSurface d with
  | Ok f => match interleave schedule (sfjson_io f first_id true) (sfjson_io f second_id true) (opened_by (ret tt) d) with
            | (Done r, Done q, _) => Some (r, q)
            | _ => None
            end
  | Err _ => None
  end.
Definition alone (d : bytes) : option (res (list sfobj)) :=
  match open_station KSurface d with
  | Ok f => Some (snd (run (sfjson_io f first_id true) (opened_by (ret tt) d)))
  | Err _ => None
  end.
Definition tmpc (r : res (list sfobj)) : res (list (option dval)) :=
  match r with Ok l => Ok (map (fun o => dict_get str_cmp [116;109;112;99] (ob_values o)) l) | Err x => Err x end.
Lemma disturbed d schedule x y : option_map (fun z => tmpc (fst z)) (both d schedule) = Some x -> option_map tmpc (alone d) = Some y -> x <> y ->
  ~ (forall k d f opening a b sp schedule, open_station k d = Ok f ->
       undisturbed schedule (sfjson_io f a sp) (sfjson_io f b sp) (opened_by opening d)).
Proof.
  intros V U N H. unfold both in V. unfold alone in U. destruct (open_station KSurface d) as [f|] eqn:E; [|discriminate V].
  specialize (H _ _ _ (ret tt) first_id second_id true schedule E). unfold undisturbed in H.
  destruct (interleave _ _ _ _) as [[[r| | | |] [q| | | |]] b']; try discriminate V. rewrite <- (H _ _ _ eq_refl) in U.
  cbn [option_map fst] in V, U. apply N. congruence.
Qed.
(** Two threads ask the same object for a station each.  The first gets, under its own station, the temperature stored for the
    other station (21 for 22), and no exception. *)
Theorem C91_shared_object_refuted :
  ~ (forall k d f opening a b sp schedule, open_station k d = Ok f ->
       undisturbed schedule (sfjson_io f a sp) (sfjson_io f b sp) (opened_by opening d)).
Proof.
  intros H. assert (V : option_map (fun x => tmpc (fst x)) (both sf_d bad_schedule) = Some (Ok [Some (DFlt (S754_finite false 11010048 (-19)))])) by (vm_compute; reflexivity).
  assert (U : option_map tmpc (alone sf_d) = Some (Ok [Some (DFlt (S754_finite false 11534336 (-19)))])) by (vm_compute; reflexivity).
  exact (disturbed sf_d bad_schedule _ _ V U ltac:(discriminate) H).
Qed.
Print Assumptions C91_shared_object_refuted.
(** Calls that are not in progress at the same time do not disturb each other: this is C90.  In the terms of schedules: one
    thread runs to its end, whatever was done before, and then the other. *)
Theorem C91_shared_object_partial : forall k d f opening a b sp n m p' q' c', open_station k d = Ok f ->
  interleave (repeat true n ++ repeat false m) (sfjson_io f a sp) (sfjson_io f b sp) (opened_by opening d) = (p', q', c') ->
  (forall r s, p' = Done r -> q' = Done s ->
    r = snd (run (sfjson_io f a sp) (opened_by opening d)) /\ s = snd (run (sfjson_io f b sp) (opened_by opening d))).
Proof.
  intros k d f opening a b sp n m p' q' c' HO H r s -> ->. pose proof (open_station_data _ _ _ HO) as D.
  assert (K : kept (gf_data (rf_file f)) (opened_by opening d)) by (rewrite D; apply opened_kept).
  apply (interleave_turns n m _ _ _ _ _ _ r s) in H as (b1 & E1 & E2); [|reflexivity].
  destruct (answers_kept _ _ _ _ (ans_sfjson f a sp) K) as [EA KA]. split; [rewrite E1; reflexivity|].
  rewrite E1 in KA. cbn [fst] in KA.
  destruct (answers_kept _ _ _ _ (ans_sfjson f b sp) KA) as [EB _]. destruct (answers_kept _ _ _ _ (ans_sfjson f b sp) K) as [EB' _].
  rewrite EB'. rewrite <- EB, E2. reflexivity.
Qed.
Print Assumptions C91_shared_object_partial.
Example C91_turns_example : match both sf_d (repeat true 60 ++ repeat false 60) with
  | Some (r, s) => (tmpc r, tmpc s) = (Ok [Some (DFlt (S754_finite false 11534336 (-19)))], Ok [Some (DFlt (S754_finite false 11010048 (-19)))])
  | None => False
  end.
Proof. vm_compute. reflexivity. Qed.

(** The calls may be in progress at the same time if a thread loses its turn only between two reads: whatever the schedule
    otherwise, a call that has come to its end has given the answer it gives alone, and one that has not is on the way to it. *)
Theorem C91_turns_partial : forall of_q W num_of flt_of fuel order k d f opening call1 call2 turn schedule p' q' b', open_station k d = Ok f ->
  let query := on_object of_q W num_of flt_of fuel order f in
  let b := opened_by opening d in
  turns_between_reads turn schedule (query call1) (query call2) b ->
  interleave schedule (query call1) (query call2) b = (p', q', b') ->
  (forall r, p' = Done r -> r = snd (run (query call1) b)) /\ (forall r, q' = Done r -> r = snd (run (query call2) b)) /\
  snd (run p' b') = snd (run (query call1) b) /\ snd (run q' b') = snd (run (query call2) b).
Proof.
  intros of_q W num_of flt_of fuel order k d f opening c1 c2 turn schedule p' q' b' HO query b T E. pose proof (open_station_data _ _ _ HO) as D.
  assert (K : kept (gf_data (rf_file f)) b) by (unfold b; rewrite D; apply opened_kept).
  pose proof (call_answers of_q W num_of flt_of fuel order f) as H.
  destruct (answers_kept _ _ _ _ (H c1) K) as [E1 _]. destruct (answers_kept _ _ _ _ (H c2) K) as [E2 _]. fold query in E1, E2. rewrite E1, E2.
  destruct (interleave_queries _ _ _ _ _ _ _ _ _ _ _ (H c1) (H c2) K T E) as [R1 R2]. rewrite <- R1, <- R2.
  repeat split; intros r ->; reflexivity.
Qed.
Theorem C91_grid_turns_partial : forall d f opening call1 call2 turn schedule p' q' b', open_grid d = Ok f ->
  let b := opened_by opening d in
  turns_between_reads turn schedule (gdxarray_io f call1) (gdxarray_io f call2) b ->
  interleave schedule (gdxarray_io f call1) (gdxarray_io f call2) b = (p', q', b') ->
  (forall r, p' = Done r -> r = snd (run (gdxarray_io f call1) b)) /\ (forall r, q' = Done r -> r = snd (run (gdxarray_io f call2) b)) /\
  snd (run p' b') = snd (run (gdxarray_io f call1) b) /\ snd (run q' b') = snd (run (gdxarray_io f call2) b).
Proof.
  intros d f opening c1 c2 turn schedule p' q' b' HO b T E. pose proof (open_grid_data _ _ HO) as D.
  assert (K : kept (gf_data (rg_file f)) b) by (unfold b; rewrite D; apply opened_kept).
  destruct (answers_kept _ _ _ _ (ans_gdxarray f c1) K) as [E1 _]. destruct (answers_kept _ _ _ _ (ans_gdxarray f c2) K) as [E2 _]. rewrite E1, E2.
  destruct (interleave_queries _ _ _ _ _ _ _ _ _ _ _ (ans_gdxarray f c1) (ans_gdxarray f c2) K T E) as [R1 R2]. rewrite <- R1, <- R2.
  repeat split; intros r ->; reflexivity.
Qed.
Print Assumptions C91_turns_partial.
Print Assumptions C91_grid_turns_partial.
(* the two threads take turns before each pointer and before each block of data: both are in progress at the same time *)
Definition ex_query (f : rfile) : scall -> prog sresult := on_object (fun _ => S754_nan) Props_Unmerged.ex_W widen (fun x => x) 10 (fun l => l) f.
Definition ex_turns : list bool := [true; true; false; false] ++ repeat true 5 ++ repeat false 5 ++ repeat true 30 ++ repeat false 30.
Example C91_turns_between_reads : match open_station KSurface sf_d with
  | Ok f => turns_between_reads true ex_turns (ex_query f (CSfjson first_id true)) (ex_query f (CSfjson second_id true)) (opened_by (ret tt) sf_d)
  | Err _ => False
  end.
Proof. vm_compute. repeat (split; [auto|]). exact Logic.I. Qed.
Example C91_turns_answers : match open_station KSurface sf_d with
  | Ok f => match interleave ex_turns (ex_query f (CSfjson first_id true)) (ex_query f (CSfjson second_id true)) (opened_by (ret tt) sf_d) with
            | (Done r, Done s, _) => (temps r, temps s) = (Ok [([75;79;85;78], Some (DFlt (S754_finite false 11534336 (-19))))],
                                                           Ok [([75;79;75;67;88;53], Some (DFlt (S754_finite false 11010048 (-19))))])
            | _ => False
            end
  | Err _ => False
  end.
Proof. vm_compute. reflexivity. Qed.
(* the schedule of the counterexample takes the turn between a jump and its read *)
Example C91_bad_schedule : match open_station KSurface sf_d with
  | Ok f => ~ turns_between_reads true bad_schedule (ex_query f (CSfjson first_id true)) (ex_query f (CSfjson second_id true)) (opened_by (ret tt) sf_d)
  | Err _ => False
  end.
Proof. vm_compute. intros [_ [[H|[]] _]]. discriminate H. Qed.
(* the grid file of C06 *)
Definition grid_turns : list bool := [false; false; true; true] ++ repeat false 40 ++ repeat true 40.
Example C91_grid_turns_between_reads : match open_grid Props_GridFile.ex_bytes with
  | Ok f => turns_between_reads false grid_turns (gdxarray_io f all_grids) (gdxarray_io f all_grids) (opened_by (ret tt) Props_GridFile.ex_bytes)
  | Err _ => False
  end.
Proof. vm_compute. repeat (split; [auto|]). exact Logic.I. Qed.
Example C91_grid_turns_answers : match open_grid Props_GridFile.ex_bytes with
  | Ok f => match interleave grid_turns (gdxarray_io f all_grids) (gdxarray_io f all_grids) (opened_by (ret tt) Props_GridFile.ex_bytes) with
            | (Done (Ok r), Done (Ok s), _) => map go_level r = [Some 500; Some 850] /\ map go_level s = [Some 500; Some 850]
            | _ => False
            end
  | Err _ => False
  end.
Proof. vm_compute. split; reflexivity. Qed.
