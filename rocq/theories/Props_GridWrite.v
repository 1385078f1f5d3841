(** Grid files that can be written. *)
From Coq Require Import Lia ZifyBool ZifyNat QArith Qabs Lqa Permutation Sorted.
From Verif Require Import Base BaseFacts Floats FloatsFacts Strings Dates Headers SpecGrib Grib GribFacts GribQFacts Order DmFile
  Station StationRead SpecStation SpecWrite Real RoundFacts Grid GridRead SpecGrid SpecGridWrite GridFacts GridDataFacts GridHistoryFacts
  GridWriteFacts Props_GridFile.
From Coq Require Import List.
Open Scope Z_scope.

(** ** C65: a grid file with three rows and columns or more whose fields fit can be written *)
(** [lon], [lat]: the coordinate arrays given to the constructor; [sized]: they have as many cells as
    their shape says; [bits]: the precision attribute; [e]: the byte order asked for. *)
Theorem C65_fitting_file_written : forall e lon lat proj a1 a2 a3 g bits calls o,
  sized lon lat -> geographic lon lat proj a1 a2 a3 = Ok g -> geom_ok g ->
  3 <= gm_nx g -> 3 <= gm_ny g -> fits_geometry lon lat a1 a2 a3 ->
  1 <= bits <= 31 -> 32 < bits * (gm_nx g * gm_ny g) ->
  (forall q, In q calls -> call_ok g q) -> Forall fits_grid calls ->
  add_grids (new_grid_file g) calls = Ok o ->
  fits_grid_file bits (gm_nx g * gm_ny g) calls ->
  exists o' b, save_grid e (set_precision bits o) = (o', Ok b).
Proof. intros. eapply grid_can_write; eassumption. Qed.
Print Assumptions C65_fitting_file_written.

(** With C06: it is written and read back, every grid as one array of as many cells; a missing cell
    comes back as -9999 and every other cell that is not within half a step of the top code within
    half a step plus the rounding of the reference to binary32. *)
Theorem C65_written_and_read : forall e lon lat proj a1 a2 a3 g bits calls o,
  sized lon lat -> geographic lon lat proj a1 a2 a3 = Ok g -> geom_ok g ->
  3 <= gm_nx g -> 3 <= gm_ny g -> fits_geometry lon lat a1 a2 a3 ->
  1 <= bits <= 31 -> 32 < bits * (gm_nx g * gm_ny g) ->
  (forall q, In q calls -> call_ok g q) -> Forall fits_grid calls ->
  add_grids (new_grid_file g) calls = Ok o ->
  fits_grid_file bits (gm_nx g * gm_ny g) calls ->
  exists o' b f cs, save_grid e (set_precision bits o) = (o', Ok b) /\ open_grid b = Ok f /\
    Permutation cs (keep_last same_header calls) /\
    rg_info f = map (fun '(n, q) => expected_listing n q) (indexed cs) /\
    forall n q, In (n, q) (indexed cs) ->
      exists ref scale words vals,
        pack_grib (map q_of (cells_of q)) (q_of missing_float) bits = Ok (ref, scale, words) /\
        read_grid f n = Ok [CQ vals] /\ length vals = length (cells_of q) /\
        forall i x y, nth_error (cells_of q) i = Some x -> nth_error vals i = Some y ->
          (q_of x == -9999 -> y == -9999)%Q /\
          (~ (q_of x == -9999) -> q_of x - ref < (inject_Z (2 ^ bits - 1) - (1#2)) * scale ->
             Qabs (y - q_of x) <= scale * (1#2) + Qabs ref * pow2q (-23) + pow2q (-149))%Q.
Proof.
  intros e lon lat proj a1 a2 a3 g bits calls o H1 H2 H3 H4 H5 H6 H7 H8 H9 H10 H11 H12.
  destruct (C65_fitting_file_written e _ _ _ _ _ _ _ _ _ _ H1 H2 H3 H4 H5 H6 H7 H8 H9 H10 H11 H12) as (o' & b & HS).
  destruct (C06_grid_values _ _ _ _ _ _ _ H3 H9 H11 HS) as (f & cs & F1 & F2 & F3 & F4).
  exists o', b, f, cs. split; [exact HS|]. split; [exact F1|]. split; [exact F2|]. split; [exact F3|].
  intros n q Hq. apply (F4 n q Hq H8).
Qed.
Print Assumptions C65_written_and_read.

(** The file of C06 meets the hypotheses. *)
Lemma ex_call_fits l n z : is_ascii (ljust 12 (upper n)) = true -> 0 <= z <= 1000 ->
  Forall (fun v => -9999 <= v <= 100) l -> (forall v, In v l -> (q_of (of_Z v) == inject_Z v)%Q) -> (forall v, In v l -> fnan (of_Z v) = false) ->
  fits_grid (ex_call l n z).
Proof.
  intros HA HZ HL HQ HN. split; [|split; [|split; [|split; [|split]]]].
  - intros z1 z2 H. cbn [ex_call q_time] in H. vm_compute in H. injection H as <- <-. unfold fits_int. lia.
  - intros a [=].
  - cbn. unfold fits_int. lia.
  - cbn. unfold fits_int. lia.
  - exact HA.
  - assert (C : forall x, In x (cells_of (ex_call l n z)) -> exists v, In v l /\ (q_of x == inject_Z v)%Q).
    { intros x Hx. unfold cells_of in Hx. cbn [ex_call q_grid ex_nd snd] in Hx. rewrite map_map in Hx. apply in_map_iff in Hx as (v & <- & Hv).
      exists v. split; [exact Hv|]. rewrite (HN v Hv). apply HQ, Hv. }
    intros x y Hx Hy. destruct (C x Hx) as (v & Hv & ->). destruct (C y Hy) as (w & Hw & ->).
    rewrite Forall_forall in HL. apply HL in Hv, Hw. unfold Qminus. rewrite <- inject_Z_opp, <- inject_Z_plus. change 2147483647%Q with (inject_Z 2147483647). rewrite <- Zle_Qle. lia.
Qed.
Example C65_written_example :
  sized (gm_lon ex_geom) (gm_lat ex_geom) /\
  geographic (gm_lon ex_geom) (gm_lat ex_geom) [67;69;68] (of_Z 0) (of_Z 0) (of_Z 0) = Ok ex_geom /\
  3 <= gm_nx ex_geom /\ 3 <= gm_ny ex_geom /\ fits_geometry (gm_lon ex_geom) (gm_lat ex_geom) (of_Z 0) (of_Z 0) (of_Z 0) /\
  32 < 12 * (gm_nx ex_geom * gm_ny ex_geom) /\ Forall fits_grid ex_calls /\ fits_grid_file 12 9 ex_calls.
Proof.
  split. { intros ny nx [= <- <-]. vm_compute. repeat split; discriminate. }
  split; [vm_compute; reflexivity|]. split; [vm_compute; discriminate|]. split; [vm_compute; discriminate|].
  split. { split; [|split; [|split]]; [| | |vm_compute; split; discriminate];
           repeat (apply Forall_cons; [intros _; vm_compute; discriminate|]); apply Forall_nil. }
  split; [vm_compute; reflexivity|]. split; [|vm_compute; discriminate].
  repeat (apply Forall_cons; [apply ex_call_fits;
    [vm_compute; reflexivity|lia|repeat (apply Forall_cons; [lia|]); apply Forall_nil
    |intros v Hv; repeat (destruct Hv as [<-|Hv]; [vm_compute; reflexivity|]); destruct Hv
    |intros v Hv; repeat (destruct Hv as [<-|Hv]; [vm_compute; reflexivity|]); destruct Hv]|]).
  apply Forall_nil.
Qed.
(** What does not fit: a grid whose cells are further apart than 2147483647 is accepted and the file
    is not written. *)
Definition wide_calls : list gcall := [ex_call [0;0;0;0;2147483648;0;0;0;0] [116;109;112;99] 500].
Theorem C65_wide_refuted : exists o, add_grids (new_grid_file ex_geom) wide_calls = Ok o /\
  forall e, exists x, snd (save_grid e o) = Err x.
Proof.
  exists (ok_or (new_grid_file ex_geom) (add_grids (new_grid_file ex_geom) wide_calls)).
  split; [vm_compute; reflexivity|]. intros []; eexists; vm_compute; reflexivity.
Qed.
Print Assumptions C65_wide_refuted.
