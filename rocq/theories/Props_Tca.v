(** Property C84: tropical cyclone advisories. *)
From Coq Require Import Ascii String QArith Lia ZifyBool ZifyNat.
From Verif Require Import Base BaseFacts Floats Strings StringsFacts Tools Structs VgfBase VgfTables VgfRead VgfLoopFacts SpecVgf SpecVgfLoop SpecVgfFields
  Utf8Facts VgfFieldFacts VgfRecordFacts Props_VgfLoop Tca SpecNearest SpecTca TcaFacts.
From Coq Require Import List.
Import ListNotations.
Open Scope string_scope.
Open Scope list_scope.
Open Scope Z_scope.

(** Missing: one element for each advisory.  There is one for each watch or warning, each of them
    showing the whole advisory. *)
Theorem C84_text_partial : forall h a fs, advisory_ok a -> writes a fs ->
  exists e, tca_elements h (tagged fs) = Ok (repeat e (length (a_warnings a))) /\ shows_advisory h a e.
Proof. intros h a fs O (U & I & G & (fs' & i & v & ->)). apply advisory_read; assumption. Qed.
Print Assumptions C84_text_partial.

(** The fields in the order of the format are such a text. *)
Theorem C84_usual_order : forall a, advisory_ok a -> a_warnings a <> [] -> writes a (fields_of a).
Proof. exact in_order. Qed.
Print Assumptions C84_usual_order.

(** An advisory without watches and warnings ends with their number, after which no tag comes:
    the file cannot be opened. *)
Theorem C84_no_watches_refuted : forall h a, advisory_ok a -> a_warnings a = [] -> tca_elements h (tagged (fields_of a)) = Err AttributeError.
Proof. exact no_watches. Qed.
Print Assumptions C84_no_watches_refuted.

(** ** Records in a file *)

Lemma header_reads b : 0 <= io_offset b -> io_offset b + 40 <= Zlen (io_data b) -> exists h b1, read_header b = Ok (h, b1).
Proof.
  intros O L. assert (E : r_struct BE (formats vgf_header_info) b = Ok (unpack_vals BE (formats vgf_header_info) (skipn (Z.to_nat (io_offset b)) (io_data b)), io_skip (Some 40) b)).
  { unfold r_struct, io_read_struct, struct_unpack_from. change (Z.of_nat (calcsize (formats vgf_header_info))) with 40.
    destruct (Z.ltb_spec (io_offset b) 0); [lia|]. destruct (Z.ltb_spec (Zlen (io_data b) - io_offset b) 40); [lia|]. reflexivity. }
  unfold read_header, r_named, bindR. rewrite E. eexists. eexists. reflexivity.
Qed.

(** A whole record of type 39: its element shows the record's own header. *)
Theorem C84_record_partial : forall d p s a fs x field, valid_bytes d = true ->
  io_data (vs_buf s) = d -> io_offset (vs_buf s) = Z.of_nat p -> accepted d p -> class_at d p = 15 -> type_at d p = 39 ->
  advisory_ok a -> writes a fs -> text (tagged fs) -> ~ In 0 (tagged fs) -> utf8_encode (tagged fs) = Ok x ->
  field = x \/ (exists junk, field = x ++ 0 :: junk) ->
  bytes_at d p 40 (size_at d p - 40) = field -> Zlen field = size_at d p - 40 ->
  exists s' e, vstep tca_elements s = Ok (inl s') /\
    vs_elements s' = vs_elements s ++ repeat e (length (a_warnings a)) /\
    shows_advisory (ve_hdr e) a e /\ has_header d p (ve_hdr e) /\ io_offset (vs_buf s') = Z.of_nat p + size_at d p.
Proof.
  intros d p s a fs x field V D O (A1 & A2 & A3 & A4 & A5) C T AO W TX NZ EN F FB FL.
  assert (NE : exists r, io_at_end (vs_buf s) = false /\ read_header (vs_buf s) = Ok r).
  { destruct (header_reads (vs_buf s)) as (h & b1 & E); [lia|rewrite D, O; unfold Zlen; lia|]. exists (h, b1). split; [|exact E].
    apply not_at_end; rewrite ?O, ?D; unfold Zlen; lia. }
  destruct NE as ([h b1] & NA & RH). unfold vstep. cbv zeta. rewrite NA, RH.
  destruct (header_here d p V _ _ _ RH) as (HH & H1); [repeat split; [exact D|lia|lia]|].
  pose proof HH as (Q1 & Q2 & Q3 & _ & _ & _ & _ & _ & _ & Q4 & Q5 & Q6 & _).
  change (nth (p + 1) d 0) with (type_at d p) in Q2. change (nth (p + 2) d 0) with (class_at d p) in Q3. change (int_at d p 20) with (size_at d p) in Q6.
  assert (VH : invalid_header h (io_len b1) = false).
  { unfold invalid_header. rewrite Q1, Q2, Q3, Q4, Q5, Q6, C, T. unfold io_len. rewrite (proj1 H1).
    change (int_at d p 12) with (i32_at d (p + 12)). change (int_at d p 16) with (i32_at d (p + 16)).
    unfold known_type, known_class, between. rewrite !Bool.orb_false_iff. repeat split; lia. }
  rewrite VH.
  assert (DI : dispatch tca_elements h b1 = elems (dec_tca tca_elements h) b1) by (unfold dispatch; cbv zeta; rewrite Q2, Q3, C, T; reflexivity).
  rewrite DI. unfold elems, dec_tca, bindR. rewrite Q6. change VGF_HEADER_SIZE with 40. rewrite <- FL.
  destruct (C53_text (tagged fs) x field b1 TX NZ EN F) as (b2 & RT & OT).
  { destruct H1 as (D1 & O1 & _). split; [rewrite O1; lia|]. rewrite D1, O1. rewrite <- FB at 2. unfold bytes_at. rewrite <- FL. f_equal; [unfold Zlen; lia|].
    f_equal. unfold at_byte. lia. }
  rewrite RT. unfold liftR, retR. destruct (C84_text_partial h a fs AO W) as (e & E & SH). rewrite E.
  eexists. exists e. split; [reflexivity|]. cbn [vs_elements vs_buf]. split; [reflexivity|].
  rewrite (sa_header _ _ _ SH). split; [exact SH|]. split; [exact HH|]. rewrite OT. destruct H1 as (_ & O1 & _). lia.
Qed.
Print Assumptions C84_record_partial.

(** ** Cases *)

Definition num (l : list Z) : number := mk_number false l.
Definition two_warnings : list warning :=
  [mk_warning (num [1]) (num [1]) (num [0]) (num [2])
     [mk_point (mk_decimal false [2; 5] [7; 5]) (mk_decimal true [8; 0] [1]) (ascii_text "Miami");
      mk_point (mk_decimal false [2; 7] []) (mk_decimal true [8; 0] []) (ascii_text "Jupiter Inlet")];
   mk_warning (num [0]) (num [0]) (num [2]) (num [0; 1])
     [mk_point (mk_decimal false [3; 0] [5]) (mk_decimal true [8; 1] [5]) []]].
Definition an_advisory (ws : list warning) : advisory :=
  mk_advisory (num [1; 2]) (ascii_text "E") (num [0]) (num [0; 0; 3]) (ascii_text "Katrina") (num [1])
    (ascii_text "050825/0300") (ascii_text "EDT") (mk_decimal false [2; 9] [5]) (mk_decimal true [7; 7] [3]) (num [1])
    (mk_decimal false [1] [2; 5]) (num [1]) (num [Zlen ws]) ws.

Lemma number_ok_b n : n_digits n <> [] -> forallb (fun d => (0 <=? d) && (d <=? 9)) (n_digits n) = true -> number_ok n.
Proof. intros N F. split; [exact N|]. apply Forall_forall. rewrite forallb_forall in F. intros d I. specialize (F d I). lia. Qed.
Lemma decimal_ok_b d : d_whole d <> [] -> (length (d_whole d) <= 300)%nat -> forallb (fun d => (0 <=? d) && (d <=? 9)) (d_whole d ++ d_fraction d) = true -> decimal_ok d.
Proof.
  intros N L F. split; [exact N|]. split; [exact L|]. rewrite forallb_app in F. apply andb_prop in F as [F1 F2]. rewrite forallb_forall in F1, F2.
  split; apply Forall_forall; intros x I; [specialize (F1 x I)|specialize (F2 x I)]; lia.
Qed.
Lemma none_in c s : existsb (Z.eqb c) s = false -> ~ In c s.
Proof. intros E I. assert (existsb (Z.eqb c) s = true); [apply existsb_exists; exists c; split; [exact I|apply Z.eqb_refl]|congruence]. Qed.
Ltac fits :=
  repeat match goal with
         | |- _ /\ _ => split
         | |- Forall _ (w_points _) => cbn [w_points]
         | |- Forall _ [] => constructor
         | |- Forall _ (_ :: _) => constructor
         | |- number_ok _ => apply number_ok_b; [discriminate|reflexivity]
         | |- decimal_ok _ => apply decimal_ok_b; [discriminate|cbn; lia|reflexivity]
         | |- plain _ => split; [discriminate|]
         | |- ~ In _ _ => apply none_in; reflexivity
         | |- _ <> _ => discriminate
         | |- warning_ok _ => unfold warning_ok
         | |- point_ok _ => unfold point_ok
         | |- _ <= _ => vm_compute; discriminate
         | |- _ = _ => reflexivity
         end.
Lemma example_fits : advisory_ok (an_advisory two_warnings) /\ advisory_ok (an_advisory []) /\ advisory_ok (an_advisory (firstn 1 two_warnings)).
Proof. unfold advisory_ok, an_advisory, two_warnings. cbn [firstn a_storm_number a_issue_status a_basin a_number a_storm_name a_storm_type a_valid a_timezone a_text_lat a_text_lon a_text_font a_text_size a_text_width a_count a_warnings]. fits. Qed.

(** Hypotheses are met: the advisory with two warnings gives two elements, with one warning one. *)
Example C84_satisfiable : forall h,
  writes (an_advisory two_warnings) (fields_of (an_advisory two_warnings)) /\
  exists e1 e2, tca_elements h (tagged (fields_of (an_advisory two_warnings))) = Ok [e1; e1] /\
    map fst (ve_subs e1) = ["ww"; "break_point"; "break_point"; "ww"; "break_point"] /\
    lookup "storm_name" (ve_attrs e1) = Some (VText (ascii_text "Katrina")) /\
    lookup "advisory_number" (ve_attrs e1) = Some (VInt 3) /\
    tca_elements h (tagged (fields_of (an_advisory (firstn 1 two_warnings)))) = Ok [e2].
Proof.
  intros h. split; [apply C84_usual_order; [apply example_fits|discriminate]|]. do 2 eexists.
  split; [vm_compute; reflexivity|]. vm_compute. auto.
Qed.

(** Refuted: one element for each advisory.  For every advisory with two or more watches and
    warnings there are as many elements. *)
Theorem C84_one_element_refuted : exists a fs, advisory_ok a /\ writes a fs /\ forall h e, tca_elements h (tagged fs) <> Ok [e].
Proof.
  exists (an_advisory two_warnings), (fields_of (an_advisory two_warnings)). split; [apply example_fits|].
  split; [apply C84_usual_order; [apply example_fits|discriminate]|]. intros h e E.
  destruct (C84_satisfiable h) as (_ & e1 & _ & E1 & _). rewrite E1 in E. apply (f_equal (fun r => match r with Ok l => length l | Err _ => O end)) in E. discriminate E.
Qed.
Print Assumptions C84_one_element_refuted.

(** Refuted: an empty value.  The name of a storm without a name is the tag and value after it. *)
Definition unnamed : list (str * str) :=
  map (fun f => if str_eqb (fst f) (ascii_text "tca_stormName") then (fst f, []) else f) (fields_of (an_advisory (firstn 1 two_warnings))).
Theorem C84_empty_value_refuted : forall h, exists e, tca_elements h (tagged unnamed) = Ok [e] /\
  lookup "storm_name" (ve_attrs e) = Some (VText (ascii_text "<tca_stormType>1")).
Proof. intros h. eexists. split; vm_compute; reflexivity. Qed.
Print Assumptions C84_empty_value_refuted.

(** A file with such a record, and one that cannot be opened *)
Definition tca_file (a : advisory) : bytes :=
  let t := tagged (fields_of a) in header_bytes 39 15 (41 + Zlen t) ++ t ++ [0].
Example C84_record_satisfiable : exists e st, vstep tca_elements (vgf_start (tca_file (an_advisory two_warnings))) = Ok (inl st) /\
  vs_elements st = [e; e] /\ opens tca_elements (tca_file (an_advisory two_warnings)) (Ok st) /\
  accepted (tca_file (an_advisory two_warnings)) 0 /\ text (tagged (fields_of (an_advisory two_warnings))) /\
  utf8_encode (tagged (fields_of (an_advisory two_warnings))) = Ok (tagged (fields_of (an_advisory two_warnings))).
Proof.
  do 2 eexists. split; [vm_compute; reflexivity|]. split; [reflexivity|]. split; [exists 2%nat; vm_compute; reflexivity|]. split.
  - unfold accepted. vm_compute. repeat split; try discriminate. lia.
  - split; [|vm_compute; reflexivity]. unfold text. apply Forall_forall. intros c I.
    assert (F : forallb (fun c => (0 <=? c) && (c <=? 127)) (tagged (fields_of (an_advisory two_warnings))) = true) by (vm_compute; reflexivity).
    rewrite forallb_forall in F. specialize (F c I). unfold scalar. lia.
Qed.
Theorem C84_file_refuted : exists a, advisory_ok a /\ opens tca_elements (tca_file a) (Err AttributeError).
Proof. exists (an_advisory []). split; [apply example_fits|]. exists 1%nat. vm_compute. reflexivity. Qed.
Print Assumptions C84_file_refuted.
