(** Property C80: a sounding or surface file whose reports fit the format can be written. *)
From Coq Require Import Lia ZifyBool ZifyNat Permutation QArith Qabs.
From Verif Require Import Base Floats Strings Dates SpecDates Headers Order Structs DmFile Layout Station StationRead SpecLayout SpecStation SpecWrite
  HistoryFacts CallFacts RoundTripFacts StationWriteFacts Props_Station.
From Coq Require Import List.
Open Scope Z_scope.

(** Every history of accepted calls whose fields fit can be written, in either byte order. *)
Theorem C80_fitting_file_written : forall k e params calls o0 o,
  new_file k params false = Ok o0 -> add_all o0 calls = Ok o ->
  Forall (fits_call k (param_names params)) calls -> fits_file k (param_names params) calls ->
  exists o' b, save e o = (o', Ok b).
Proof. intros. eapply can_write; eassumption. Qed.
Print Assumptions C80_fitting_file_written.

(** With proper years and names, what was written reads back: nothing on the way can fail. *)
Theorem C80_written_and_read : forall k e params calls o0 o,
  new_file k params false = Ok o0 -> add_all o0 calls = Ok o ->
  Forall (fits_call k (param_names params)) calls -> fits_file k (param_names params) calls ->
  Forall (fun c => in_window (dt_y (time_arg c))) calls -> names_ok k (param_names params) ->
  exists o' b f ls recs,
    save e o = (o', Ok b) /\ open_station k b = Ok f /\ info f = Ok ls /\
    unpack f (map (fun l => (ls_row l, ls_col l)) ls) = Ok recs /\ length recs = length ls /\
    Permutation (map (reported k (param_names params)) (combine ls recs))
      (map (expected k (param_names params)) (keep_last (same_entry k) calls)).
Proof.
  intros k e params calls o0 o H0 HA HF HS HY HN.
  destruct (can_write k e params calls o0 o H0 HA HF HS) as (o' & b & HW). exists o', b.
  assert (HC : Forall (call_ok k) calls).
  { apply Forall_forall. intros c Hc. rewrite Forall_forall in HF, HY. specialize (HF c Hc). specialize (HY c Hc).
    assert (FC : forall n, fits_coord n -> coord_ok n).
    { intros [z|f]; cbn; [lia|]. intros (F1 & F2 & F3). repeat split; try assumption. eapply Qle_lt_trans; [exact F3|reflexivity]. }
    destruct HF as (F1 & _ & _ & _ & _ & _ & F7 & F8 & F9 & F10 & _).
    split; [exact F1|]. split; [exact HY|]. split; [apply FC, F7|]. split; [apply FC, F8|]. split; [exact F10|].
    destruct (pri_arg k c); [exact I|contradiction]. }
  destruct (round_trip k e params calls o0 o o' b H0 HA HW HC HN) as (f & ls & recs & H). exists f, ls, recs. tauto.
Qed.
Print Assumptions C80_written_and_read.

(** The converse for the station's fields: what was written had ASCII texts and 32-bit numbers. *)
Theorem C80_written_fits : forall k e params calls o0 o o' b,
  new_file k params false = Ok o0 -> add_all o0 calls = Ok o -> save e o = (o', Ok b) ->
  Forall (fun c => is_ascii (firstn 8 (text_arg si_id c)) = true /\ is_ascii (firstn 4 (text_arg si_state c)) = true /\
    is_ascii (firstn 4 (text_arg si_country c)) = true /\ fits_int (int_arg si_number c) /\ fits_int (int_arg si_elev c)) calls.
Proof. exact written_fits. Qed.
Print Assumptions C80_written_fits.

Lemma ex_call_fits h id n v : 0 <= h <= 23 -> is_ascii (firstn 8 (upper id)) = true -> 0 <= n <= 1000 -> fits_value (of_Z v) ->
  fits_call KSounding (param_names ex_params) (ex_call h id n v) /\ fits_call KSurface (param_names ex_params) (ex_one (ex_call h id n v)).
Proof.
  intros H HI HN HV. assert (V : valid_dt (mk_dt 2024 2 29 h 30 0 0) = true).
  { unfold valid_dt, valid_time. cbn. lia. }
  assert (FV : fits_value (of_Z 1000) /\ fits_value (of_Z 850) /\ fits_value S754_nan).
  { repeat split; try discriminate; intros _; vm_compute; discriminate. }
  destruct FV as (V1 & V2 & V3).
  assert (LA : fits_coord (PFloat (S754_finite false 5348024557502464 (-47)))).
  { split; [reflexivity|]. split; [reflexivity|]. vm_compute. discriminate. }
  split; (split; [exact V|]; split; [exact HI|]; split; [reflexivity|]; split; [reflexivity|]; split; [cbn; unfold fits_int; lia|];
    split; [cbn; unfold fits_int; lia|]; split; [exact LA|]; split; [cbn; lia|]; split; [cbn; unfold fits_int; lia|];
    split; [try exact I; repeat constructor|]);
    unfold param_names; cbn [ex_params map]; constructor; [|constructor; [|constructor]| |constructor; [|constructor]];
    cbn; repeat constructor; assumption.
Qed.
Example C80_example : forall k, exists o0 calls o,
  new_file k ex_params false = Ok o0 /\ add_all o0 calls = Ok o /\
  Forall (fits_call k (param_names ex_params)) calls /\ fits_file k (param_names ex_params) calls /\
  Forall (fun c => in_window (dt_y (time_arg c))) calls /\ names_ok k (param_names ex_params) /\ length calls = 3%nat.
Proof.
  assert (FV : forall v, In v [20; 21; 22] -> fits_value (of_Z v)).
  { intros v [<-|[<-|[<-|[]]]] _; vm_compute; discriminate. }
  destruct k.
  - exists (file_or_new (new_file KSounding ex_params false)), ex_calls, (ex_file KSounding ex_calls).
    split; [reflexivity|]. split; [vm_compute; reflexivity|].
    split; [repeat (constructor; [apply ex_call_fits; [lia|reflexivity|lia|apply FV; cbn; tauto]|]); constructor|].
    split; [vm_compute; discriminate|]. split; [repeat (apply Forall_cons; [vm_compute; split; discriminate|]); apply Forall_nil|]. split; [|reflexivity].
    split; [|exact I]. vm_compute. repeat constructor; cbn; intuition discriminate.
  - exists (file_or_new (new_file KSurface ex_params false)), (map ex_one ex_calls), (ex_file KSurface (map ex_one ex_calls)).
    split; [reflexivity|]. split; [vm_compute; reflexivity|].
    split; [repeat (constructor; [apply ex_call_fits; [lia|reflexivity|lia|apply FV; cbn; tauto]|]); constructor|].
    split; [vm_compute; discriminate|]. split; [repeat (apply Forall_cons; [vm_compute; split; discriminate|]); apply Forall_nil|]. split; [|reflexivity].
    split; [vm_compute; repeat constructor; cbn; intuition discriminate|]. split; vm_compute; intuition discriminate.
Qed.
(** A call that is accepted although the file can then not be written: station number 10^12, a
    value of 10^39, or a state written with a non-ASCII letter. *)
Example C80_misfits : forall c, In c
    [ex_call 0 [75] 1000000000000 20; ex_call 0 [75] 1 (10 ^ 39);
     mk_call (c_data (ex_call 0 [75] 1 2)) (Some (PInt 0)) (Some (PInt 0)) (ex_t 0)
       (Some (mk_si None None None (Some [214; 214]) None None))] ->
  exists o x, add_all (file_or_new (new_file KSounding ex_params false)) [c] = Ok o /\ snd (save LE o) = Err x.
Proof. intros c [<-|[<-|[<-|[]]]]; eexists; eexists; (split; [vm_compute; reflexivity|vm_compute; reflexivity]). Qed.
