(** Property C85 continued: sigmets and watch boxes of versions the reader does not know. *)
From Coq Require Import Lia ZifyBool.
From Verif Require Import Base BaseFacts Floats Strings Structs Tools VgfBase VgfRead SpecVgf SpecVgfLoop SpecVgfFields VgfLoopFacts VgfRecordFacts.
From Verif Require Props_VgfTrip.
From Coq Require Import List.
Import ListNotations.
Open Scope string_scope.
Open Scope list_scope.
Open Scope Z_scope.

(** The kinds of records that have versions, and how many *)
Definition unknown_version (d : bytes) (p : nat) : Prop :=
  (class_at d p = 11 /\ 27 <= type_at d p <= 31 /\ 2 <= version_at d p) \/
  (class_at d p = 2 /\ 7 <= version_at d p).

(** Wherever the reader comes to such a record with an acceptable header, it raises, whatever
    follows the header. *)
Theorem C85_unknown_version : forall tca d p s, valid_bytes d = true ->
  io_data (vs_buf s) = d -> io_offset (vs_buf s) = Z.of_nat p -> accepted d p -> known_at d p -> unknown_version d p ->
  vstep tca s = Err UnboundLocal.
Proof.
  intros tca d p s VB D O (A1 & A2 & A3 & A4 & A5) (K1 & K2) U. unfold vstep. cbv zeta. rewrite not_at_end by (rewrite ?O, ?D; lia).
  destruct (header_at3 (vs_buf s)) as (h & b1 & RH & _); [lia|rewrite O, D; lia|]. rewrite RH.
  apply (header_here d p VB) in RH as (HH & (D1 & _)); [|repeat split; [exact D|lia|lia]].
  destruct HH as (H1 & H2 & H3 & _ & _ & _ & HV & _ & _ & H4 & H5 & H6 & _).
  assert (V : invalid_header h (io_len b1) = false).
  { unfold invalid_header. rewrite H1, H2, H3, H4, H5, H6. unfold io_len. rewrite D1. change (nth (p + 1) d 0) with (type_at d p). change (nth (p + 2) d 0) with (class_at d p).
    change (int_at d p 12) with (i32_at d (p + 12)). change (int_at d p 16) with (i32_at d (p + 16)). change (int_at d p 20) with (size_at d p).
    unfold known_type, known_class, between. rewrite !Bool.orb_false_iff. repeat split; lia. }
  rewrite V. change (nth (p + 1) d 0) with (type_at d p) in H2. change (nth (p + 2) d 0) with (class_at d p) in H3. change (nth (p + 6) d 0) with (version_at d p) in HV.
  assert (E : dispatch tca h b1 = Err UnboundLocal).
  { unfold dispatch. cbv zeta. rewrite H2, H3. destruct U as [(C & T & W)|(C & W)]; rewrite C; cbn [Z.eqb Pos.eqb andb].
    - assert (X : between 27 31 (type_at d p) = true) by (unfold between; lia). rewrite X. unfold elems, bindR, dec_sigmet. rewrite HV.
      assert ((version_at d p =? 0) = false) as -> by lia. assert ((version_at d p =? 1) = false) as -> by lia. reflexivity.
    - unfold elems, bindR, dec_watches, watch_info. rewrite HV.
      assert ((version_at d p =? 0) = false) as -> by lia. assert ((version_at d p =? 1) = false) as -> by lia. assert ((version_at d p =? 2) = false) as -> by lia.
      assert ((version_at d p =? 3) = false) as -> by lia. assert ((version_at d p =? 4) = false) as -> by lia. assert ((version_at d p =? 5) = false) as -> by lia.
      assert ((version_at d p =? 6) = false) as -> by lia. reflexivity. }
  rewrite E. reflexivity.
Qed.
Print Assumptions C85_unknown_version.

(** A sigmet of version 2 and nothing else *)
Definition sigmet2 : bytes := [0; 27; 11; 0; 0; 0; 2; 0] ++ [0;0;0;0; 0;0;0;1; 0;0;0;1; 0;0;0;40] ++ repeat 0 16.
Example C85_unknown_version_ex : valid_bytes sigmet2 = true /\ accepted sigmet2 0 /\ known_at sigmet2 0 /\ unknown_version sigmet2 0 /\
  vgf_open Props_VgfTrip.no_tca 5 sigmet2 = Some (Err UnboundLocal).
Proof.
  split; [reflexivity|]. split; [vm_compute; repeat split; try discriminate; lia|]. split; [vm_compute; repeat split; try discriminate; right; right; split; discriminate|].
  split; [left; vm_compute; repeat split; discriminate|]. vm_compute. reflexivity.
Qed.
