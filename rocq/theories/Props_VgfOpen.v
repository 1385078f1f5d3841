(** Which vector graphics files can be opened (C85).

    The specification is SpecVgfOpen.v: what the bytes at the places of a record have to be. *)
From Coq Require Import Lia ZifyBool ZifyNat.
From Verif Require Import Base Floats Strings Structs Tools VgfBase VgfTables VgfRead SpecVgf SpecVgfLoop SpecVgfFields SpecVgfOpen VgfLoopFacts VgfFieldFacts VgfRecordFacts VgfOpenFacts VgfSoundFacts Props_VgfFields.
From Coq Require Import String List.
Import ListNotations.
Open Scope string_scope.
Open Scope list_scope.
Open Scope Z_scope.

(** Wherever the reader comes to a complete record with an acceptable header, it decodes it
    exactly when the record is sound, and otherwise it raises. *)
Theorem C85_record_decoded : forall tca d p s L, valid_bytes d = true ->
  io_data (vs_buf s) = d -> io_offset (vs_buf s) = Z.of_nat p ->
  accepted d p -> known_at d p -> layout_at d p = Some L -> Z.of_nat p + l_end L <= Zlen d ->
  ((exists s' e, vstep tca s = Ok (inl s') /\ vs_elements s' = vs_elements s ++ [e] /\ element_of d p L e) <-> sound d p L) /\
  ((exists x, vstep tca s = Err x) <-> ~ sound d p L).
Proof.
  intros tca d p s L V D O A K HL LE. pose proof (step_returns d p V tca s L A K D O HL LE) as SR. split.
  - rewrite <- SR. split.
    + intros (s' & e & S & _). eauto.
    + intros (s' & S). destruct (step_read d p V _ _ _ _ S D O HL LE) as (e & E1 & _ & E3 & _). eauto.
  - rewrite <- SR. destruct (vstep tca s) as [[s'|s']|x] eqn:S.
    + split; [intros [y Y]; discriminate Y|]. intros N. exfalso. apply N. eauto.
    + exfalso. exact (goes_on d p V _ _ _ A K D O S).
    + split; [|eauto]. intros _ [y Y]. discriminate Y.
Qed.
Print Assumptions C85_record_decoded.

(** A file that is records to its end can be opened exactly when every record the reader shows is
    sound; it then has one element for each, in the order of the file. *)
Theorem C85_file_opens : forall tca d l, valid_bytes d = true -> chain d 0%nat l ->
  ((exists st, opens tca d (Ok st) /\ Forall2 (fun x e => element_of d (fst x) (snd x) e) l (vs_elements st)) <->
   Forall (fun x => sound d (fst x) (snd x)) l).
Proof.
  intros tca d l V C. rewrite <- (chain_opens tca d 0 l V C (vgf_start d) eq_refl eq_refl). split.
  - intros (st & (n & R) & _). eauto.
  - intros (n & st & R). exists st. split; [exists n; exact R|]. apply (C82_whole_file tca d l st V C). exists n. exact R.
Qed.
Print Assumptions C85_file_opens.

(** One record that is not sound makes the whole file unreadable: opening it raises. *)
Theorem C85_one_bad_record : forall tca d l p L, valid_bytes d = true -> chain d 0%nat l -> In (p, L) l -> ~ sound d p L ->
  exists x, opens tca d (Err x).
Proof.
  intros tca d l p L V C I N. destruct (chain_ends tca d 0 l V C (vgf_start d) eq_refl eq_refl) as (n & [st|x] & R).
  - exfalso. apply N. pose proof (proj1 (chain_opens tca d 0 l V C (vgf_start d) eq_refl eq_refl) (ex_intro _ n (ex_intro _ st R))) as F.
    rewrite Forall_forall in F. exact (F _ I).
  - exists x, n. exact R.
Qed.
Print Assumptions C85_one_bad_record.

(** The file of Props_VgfFields.v is records to its end, and they are sound. *)
Example C85_satisfiable : exists l, valid_bytes small_file = true /\ chain small_file 0%nat l /\ length l = 2%nat /\
  Forall (fun x => sound small_file (fst x) (snd x)) l.
Proof.
  destruct (C82_satisfiable no_tca) as (V & (L & M & C & _) & st & OP & _). eexists. split; [exact V|]. split; [exact C|]. split; [reflexivity|].
  apply (C85_file_opens no_tca small_file _ V C). exists st. split; [exact OP|]. exact (C82_whole_file _ _ _ _ V C OP).
Qed.

(** Not every file of complete records can be opened.  The width of a convective forecast's text is
    stored like any 32-bit number; 128 is one, and makes the file unreadable. *)
Definition wide_ccf : bytes := header40 11 32 0 1480 ++ repeat 0 92 ++ [128; 0; 0; 0] ++ repeat 0 1344.
Theorem C85_ccf_refuted : forall tca, exists d L, valid_bytes d = true /\ chain d 0%nat [(0%nat, L)] /\
  shows d 0%nat (NatLE 132) (VInt 128) /\ In ("width", NatLE 132) (l_fields L) /\ opens tca d (Err OverflowError).
Proof.
  intros tca. exists wide_ccf. eexists. split; [vm_compute; reflexivity|]. split.
  - eapply chain_record; [vm_compute; repeat split; try discriminate; lia|vm_compute; intuition discriminate|vm_compute; reflexivity|vm_compute; discriminate|].
    match goal with |- chain _ ?p _ => let q := eval vm_compute in p in change p with q end. change 1480%nat with (length wide_ccf). constructor.
  - split; [vm_compute; reflexivity|]. split; [vm_compute; tauto|]. exists 1%nat. vm_compute. reflexivity.
Qed.
Print Assumptions C85_ccf_refuted.
(** The same for a front of 501 points. *)
Definition long_front : bytes := header40 1 2 0 4076 ++ [0; 0; 1; 245] ++ [0; 0; 0; 2] ++ repeat 0 4028.
Theorem C85_points_refuted : forall tca, exists d L x, valid_bytes d = true /\ chain d 0%nat [(0%nat, L)] /\ int_at d 0%nat 40 = 501 /\ opens tca d (Err x).
Proof.
  intros tca. exists long_front. eexists. eexists. split; [vm_compute; reflexivity|]. split.
  - eapply chain_record; [vm_compute; repeat split; try discriminate; lia|vm_compute; intuition discriminate|vm_compute; reflexivity|vm_compute; discriminate|].
    match goal with |- chain _ ?p _ => let q := eval vm_compute in p in change p with q end. change 4076%nat with (length long_front). constructor.
  - split; [vm_compute; reflexivity|]. exists 1%nat. vm_compute. reflexivity.
Qed.
Print Assumptions C85_points_refuted.
