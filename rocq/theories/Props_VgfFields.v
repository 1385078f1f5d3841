(** Attributes of decoded vector graphics elements (C81) and the elements of a whole file (C82).

    The specification is SpecVgfFields.v: for every kind of record, the byte each attribute is
    stored at. *)
From Coq Require Import Lia ZifyBool ZifyNat.
From Verif Require Import Base Floats Strings Structs Tools VgfBase VgfTables VgfRead SpecVgf SpecVgfLoop SpecVgfFields VgfLoopFacts VgfFieldFacts VgfRecordFacts.
From Coq Require Import String List.
Import ListNotations.
Open Scope string_scope.
Open Scope list_scope.
Open Scope Z_scope.

(** ** C81 *)

(** Wherever the reader comes to a complete record of a kind it shows, and does not raise, it adds
    one element: of the kind of the record, with the header's numbers, every attribute, part and
    point as stored at its place; it goes on at the byte after the record. *)
Theorem C81_record_shown : forall tca d p s s' L, valid_bytes d = true ->
  io_data (vs_buf s) = d -> io_offset (vs_buf s) = Z.of_nat p ->
  layout_at d p = Some L -> Z.of_nat p + l_end L <= Zlen d ->
  vstep tca s = Ok (inl s') ->
  exists e, vs_elements s' = vs_elements s ++ [e] /\ vs_header s' = vs_header s /\ element_of d p L e /\
    io_data (vs_buf s') = d /\ io_offset (vs_buf s') = Z.of_nat p + l_end L.
Proof.
  intros tca d p s s' L V D O HL LE S. destruct (step_read d p V _ _ _ _ S D O HL LE) as (e & E1 & E2 & E3 & E4 & E5 & _). exists e. auto.
Qed.
Print Assumptions C81_record_shown.

(** The file header adds no element; it is kept with its version and notes. *)
Theorem C81_file_header : forall tca d p s s', valid_bytes d = true ->
  io_data (vs_buf s) = d -> io_offset (vs_buf s) = Z.of_nat p ->
  class_at d p = 0 -> type_at d p = 22 -> 168 <= size_at d p -> Z.of_nat p + size_at d p <= Zlen d ->
  vstep tca s = Ok (inl s') ->
  vs_elements s' = vs_elements s /\ (exists x, vs_header s' = Some x /\ file_header_of d p x) /\
  io_offset (vs_buf s') = Z.of_nat p + size_at d p.
Proof.
  intros tca d p s s' V D O C T SZ LE S. destruct (step_header d p V _ _ _ S D O C T SZ LE) as (E1 & E2 & _ & E4). auto.
Qed.
Print Assumptions C81_file_header.

(** Records with a header of this class, type, version and size, the number [k] twice, and zeros *)
Definition header40 (c t v size : Z) : bytes :=
  [0; t; c; 0; 0; 0; v; 0] ++ [0; 0; 0; 0] ++ [0; 0; 0; 1] ++ [0; 0; 0; 1] ++ enc_uint BE 4 size ++ repeat 0 16.
Definition blank (c t v k size : Z) : bytes := header40 c t v size ++ [0; 0; 0; k] ++ [0; 0; 0; k] ++ repeat 0 (Z.to_nat (size - 48)).
Definition no_tca (h : vhdr) (s : str) : res (list velem) := Ok [].
(** The layout of the record is defined and as long as the record, and the reader accepts it. *)
Definition met (c t v k size : Z) : bool :=
  let d := blank c t v k size in
  match layout_at d 0, vstep no_tca (vgf_start d) with
  | Some L, Ok (inl s) => (l_end L =? size) && Nat.eqb (length (vs_elements s)) 1
  | _, _ => false
  end.
(* fronts, circles, lines, symbols, texts, winds, tracks, lists *)
Example C81_kinds_1 :
  met 1 2 0 2 84 && met 12 4 0 2 76 && met 3 1 0 3 84 && met 3 20 0 3 88 && met 4 5 0 1 76 && met 5 17 0 1 200 && met 5 21 0 1 200 &&
  met 6 23 0 1 76 && met 10 26 0 1 1400 && met 14 33 0 1 8560 = true.
Proof. vm_compute. reflexivity. Qed.
(* watch boxes of all versions *)
Example C81_kinds_2 :
  met 2 6 0 1 196 && met 2 6 1 3 708 && met 2 6 2 3 3116 && met 2 6 3 3 3164 && met 2 6 4 3 4084 && met 2 6 5 3 5684 && met 2 6 6 3 5696 = true.
Proof. vm_compute. reflexivity. Qed.
(* sigmets, convective forecasts, volcanoes, ash clouds, jet streams, graphical forecasts *)
Example C81_kinds_3 :
  met 11 27 0 1 436 && met 11 27 1 1 784 && met 11 32 0 1 1480 && met 11 35 0 1 5916 && met 11 36 0 1 840 && met 15 37 0 1 24076 && met 15 38 0 0 48 = true.
Proof. vm_compute. reflexivity. Qed.
(* the file header *)
Definition small_header : bytes := blank 0 22 0 0 170.
Example C81_header_satisfiable : forall tca, valid_bytes small_header = true /\ class_at small_header 0 = 0 /\ type_at small_header 0 = 22 /\
  size_at small_header 0 = 170 /\ exists s, vstep tca (vgf_start small_header) = Ok (inl s).
Proof. intros tca. repeat split. eexists. vm_compute. reflexivity. Qed.

(** The fields of sigmets leave out the status, which is stored as an integer at byte 100: the
    element shows the area's text instead. *)
Definition sigmet_2 : bytes :=
  header40 11 27 0 428 ++ repeat 0 20 ++ [75; 75; 67; 73; 0; 0; 0; 0] ++ repeat 0 32 ++ [0; 0; 0; 2] ++ repeat 0 324.
Theorem C81_sigmet_status_refuted : exists d s, vstep no_tca (vgf_start d) = Ok (inl s) /\ (exists L, layout_at d 0%nat = Some L) /\
  int_at d 0%nat 100 = 2 /\ map (fun e => lookup "status" (ve_attrs e)) (vs_elements s) = [Some (VText [75; 75; 67; 73])].
Proof. exists sigmet_2. eexists. split; [vm_compute; reflexivity|]. split; [eexists; vm_compute; reflexivity|]. vm_compute. auto. Qed.
Print Assumptions C81_sigmet_status_refuted.

(** ** C82 *)

(** A file that is records to its end, when it can be opened, has exactly one element for each
    record of a kind the reader shows, in the order of the file, and each shows its record. *)
Theorem C82_whole_file : forall tca d l st, valid_bytes d = true -> chain d 0%nat l -> opens tca d (Ok st) ->
  Forall2 (fun x e => element_of d (fst x) (snd x) e) l (vs_elements st).
Proof.
  intros tca d l st V C [n R]. destruct (chain_run tca d 0 l V C n (vgf_start d) st eq_refl eq_refl R) as (es & E & F).
  cbn [vgf_start vs_elements app] in E. rewrite E. exact F.
Qed.
Print Assumptions C82_whole_file.

(* a header, a front of two points, a record that is passed over, a text *)
Definition small_file : bytes :=
  small_header ++ blank 1 2 0 2 84 ++ blank 7 5 0 0 48 ++ blank 5 17 0 1 83.
Example C82_satisfiable : forall tca, valid_bytes small_file = true /\
  (exists L M, chain small_file 0%nat [(170%nat, L); (302%nat, M)] /\ l_kind L = "FrontElement" /\ l_kind M = "TextElement") /\
  exists st, opens tca small_file (Ok st) /\ map ve_kind (vs_elements st) = ["FrontElement"; "TextElement"].
Proof.
  intros tca. split; [vm_compute; reflexivity|]. split.
  - do 2 eexists. split.
    + apply chain_header; [vm_compute; repeat split; try discriminate; lia|vm_compute; intuition discriminate|reflexivity|reflexivity|vm_compute; discriminate|vm_compute; discriminate|].
      change (at_byte 0 (size_at small_file 0%nat)) with 170%nat.
      eapply chain_record; [vm_compute; repeat split; try discriminate; lia|vm_compute; intuition discriminate|vm_compute; reflexivity|vm_compute; discriminate|].
      match goal with |- chain _ ?p _ => let q := eval vm_compute in p in change p with q end.
      apply chain_other; [vm_compute; repeat split; try discriminate; lia|vm_compute; intuition discriminate|reflexivity|vm_compute; discriminate|].
      match goal with |- chain _ ?p _ => let q := eval vm_compute in p in change p with q end.
      eapply chain_record; [vm_compute; repeat split; try discriminate; lia|vm_compute; intuition discriminate|vm_compute; reflexivity|vm_compute; discriminate|].
      match goal with |- chain _ ?p _ => let q := eval vm_compute in p in change p with q end.
      change 385%nat with (length small_file). constructor.
    + split; reflexivity.
  - eexists. split; [exists 5%nat; vm_compute; reflexivity|reflexivity].
Qed.
