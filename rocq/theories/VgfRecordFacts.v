(** Every decoder returns an element that shows its record. *)
From Coq Require Import Lia ZifyBool ZifyNat.
From Verif Require Import Base BaseFacts Floats Strings Structs StructsFacts Tools ToolsFacts VgfBase VgfTables VgfRead SpecVgf SpecVgfLoop SpecVgfFields VgfLoopFacts VgfFieldFacts.
From Coq Require Import List.
Import ListNotations.
Open Scope string_scope.
Open Scope list_scope.
Open Scope Z_scope.

Section Records.
Variables (d : bytes) (p : nat).
Hypothesis bytes_d : valid_bytes d = true.
Local Notation here := (here d p).
Local Notation tracks := (tracks d p).

(** All of the element but its header *)
Definition body (L : layout) (e : velem) : Prop :=
  ve_kind e = l_kind L /\ has_fields d p (l_fields L) (ve_attrs e) /\ Forall2 (has_sub d p) (l_subs L) (ve_subs e) /\
  Forall2 (has_array d p) (l_arrays L) (ve_arrs e) /\ has_points d p (l_lat L) (ve_lat e) /\ has_points d p (l_lon L) (ve_lon e).
(** [m] reads the record laid out as [L]. *)
Definition reads (h : vhdr) (m : rd (list velem)) (L : layout) : Prop :=
  forall b l b', m b = Ok (l, b') -> here b 40 -> Z.of_nat p + l_end L <= Zlen d ->
    exists e, l = [e] /\ ve_hdr e = h /\ body L e /\ here b' (l_end L).

Lemma geti_tracks pls e k o : tracks pls e -> find_place k pls = Some (Int o) -> geti e k = int_at d p o.
Proof. intros T F. pose proof (find_tracks d p k _ _ T) as H. rewrite F in H. destruct H as (v & V & ->). unfold geti. rewrite V. reflexivity. Qed.
Lemma geti_none pls e k : tracks pls e -> find_place k pls = None -> geti e k = 0.
Proof. intros T F. pose proof (find_tracks d p k _ _ T) as H. rewrite F in H. unfold geti. rewrite H. reflexivity. Qed.

Lemma some_inj {A} (x y : A) : Some x = Some y -> x = y.
Proof. intros [= H]. exact H. Qed.
Lemma ret_one {A} (x y : A) (b b' : iobuf) : retR x b = Ok (y, b') -> y = x /\ b' = b.
Proof. intros H. unfold retR in H. split; congruence. Qed.
Lemma lift_one {A} (r : res A) a (b b' : iobuf) : liftR r b = Ok (a, b') -> r = Ok a /\ b' = b.
Proof. unfold liftR. destruct r; intros H; split; congruence. Qed.
Lemma bind_inv {A B} (m : rd A) (f : A -> rd B) b x b' : bindR m f b = Ok (x, b') -> exists a b1, m b = Ok (a, b1) /\ f a b1 = Ok (x, b').
Proof. unfold bindR. destruct (m b) as [[a b1]|]; [|discriminate]. eauto. Qed.

Ltac next H a b1 E := apply bind_inv in H as (a & b1 & E & H).
Ltac structure E HB T HN := eapply named_here in E; [|exact bytes_d|exact HB|vm_compute; reflexivity]; destruct E as [T HN];
  match type of HN with VgfFieldFacts.here _ _ _ ?o => let o' := eval vm_compute in o in change o with o' in HN end.
Ltac lifted E := apply lift_one in E as (E & ->).
Ltac fields := vm_compute; repeat constructor.

Lemma body_intro kind fs subs arrs la lo len h a xs ys lat lon :
  has_fields d p fs a -> Forall2 (has_sub d p) subs xs -> Forall2 (has_array d p) arrs ys ->
  has_points d p la lat -> has_points d p lo lon ->
  body (mk_layout kind fs subs arrs la lo len) (mk_velem kind h a xs ys lat lon).
Proof. intros. repeat split; assumption. Qed.
Lemma fields_all pls a fs : tracks pls a -> Forall (fun f => find_place (fst f) pls = Some (snd f)) fs -> has_fields d p fs a.
Proof. intros T F. rewrite <- (app_nil_r a). eapply tracks_fields; eauto. Qed.
Ltac finish H := apply ret_one in H as (-> & ->); eexists; split; [reflexivity|]; split; [reflexivity|].
Ltac chosen E T := apply (select_tracks d p _ _ _ T) in E.
Ltac count E T k o := rewrite (geti_tracks _ _ k o T eq_refl) in E.

Lemma fronts_read h : reads h (dec_fronts h) (with_points "FrontElement" front_fields 68 (int_at d p 40)).
Proof.
  intros b l b' H HB _. unfold dec_fronts in H.
  next H e b1 E. structure E HB T H1. next H ll b2 E2. destruct ll as [lat lon]. count E2 T "front.number_points" 40.
  apply (latlon_here d p) with (o := 68) in E2 as (_ & LA & LO & H2); [|exact H1].
  next H a b3 E3. lifted E3. next H q b4 E4. lifted E4. finish H. split; [|exact H2]. chosen E3 T.
  apply body_intro; try assumption; [|constructor|constructor]. eapply tracks_fields; [exact E3|]. fields.
Qed.
Lemma circles_read h : reads h (dec_circles h) (with_points "CircleElement" line_fields 60 (int_at d p 40)).
Proof.
  intros b l b' H HB _. unfold dec_circles in H.
  next H e b1 E. structure E HB T H1. next H ll b2 E2. destruct ll as [lat lon]. count E2 T "line.number_points" 40.
  apply (latlon_here d p) with (o := 60) in E2 as (_ & LA & LO & H2); [|exact H1].
  next H a b3 E3. lifted E3. next H q b4 E4. lifted E4. finish H. split; [|exact H2]. chosen E3 T.
  apply body_intro; try assumption; [|constructor|constructor]. eapply tracks_fields; [exact E3|]. fields.
Qed.
Lemma symbols_read h : reads h (dec_symbols h) (without_points "SymbolElement" symbol_fields 76).
Proof.
  intros b l b' H HB _. unfold dec_symbols in H. next H e b1 E. structure E HB T H1. next H a b3 E3. lifted E3. finish H. split; [|exact H1]. chosen E3 T.
  apply body_intro; [|constructor|constructor|reflexivity|reflexivity]. eapply fields_all; [exact E3|]. fields.
Qed.
Lemma winds_read h : reads h (dec_winds h) (without_points "WindElement" wind_fields 76).
Proof.
  intros b l b' H HB _. unfold dec_winds in H. next H e b1 E. structure E HB T H1. next H a b3 E3. lifted E3. finish H. split; [|exact H1]. chosen E3 T.
  apply body_intro; [|constructor|constructor|reflexivity|reflexivity]. eapply fields_all; [exact E3|]. fields.
Qed.
Lemma volcanoes_read h : reads h (dec_volcanoes h) (without_points "VolcanoElement" volcano_fields 5916).
Proof.
  intros b l b' H HB _. unfold dec_volcanoes in H. next H e b1 E. structure E HB T H1. next H a b3 E3. lifted E3. finish H. split; [|exact H1]. chosen E3 T.
  apply body_intro; [|constructor|constructor|reflexivity|reflexivity]. eapply fields_all; [exact E3|]. fields.
Qed.

(** Lines *)
Lemma close_if (c : bool) lat lon (b : iobuf) x y b' qa qo : has_points d p qa lat -> has_points d p qo lon ->
  (if c then bindR (liftR (close_coords lat)) (fun x => bindR (liftR (close_coords lon)) (fun y => retR (x, y))) else retR (lat, lon)) b = Ok ((x, y), b') ->
  has_points d p (closing c qa) x /\ has_points d p (closing c qo) y /\ b' = b.
Proof.
  intros A O H. destruct c.
  - next H x1 b1 E1. lifted E1. next H y1 b2 E2. lifted E2. apply ret_one in H as (E & ->). injection E as -> ->.
    split; [eapply close_here; eassumption|]. split; [eapply close_here; eassumption|reflexivity].
  - apply ret_one in H as (E & ->). injection E as -> ->. rewrite !closing_false. auto.
Qed.
Lemma flip_if (c : bool) lat lon (b : iobuf) x y b' qa qo : has_points d p qa lat -> has_points d p qo lon ->
  (if c then bindR (liftR (flip_coords lat)) (fun x => bindR (liftR (flip_coords lon)) (fun y => retR (x, y))) else retR (lat, lon)) b = Ok ((x, y), b') ->
  has_points d p (turning c qa) x /\ has_points d p (turning c qo) y /\ b' = b.
Proof.
  intros A O H. destruct c.
  - next H x1 b1 E1. lifted E1. next H y1 b2 E2. lifted E2. apply ret_one in H as (E & ->). injection E as -> ->.
    split; [eapply flip_here; eassumption|]. split; [eapply flip_here; eassumption|reflexivity].
  - apply ret_one in H as (E & ->). injection E as -> ->. rewrite !turning_false. auto.
Qed.
Lemma lines_read h L : vh_closed h = closed_at d p -> line_layout d p = Some L -> reads h (dec_lines h) L.
Proof.
  intros HC HL b l b' H HB _. unfold line_layout in HL. cbv zeta in HL. destruct (Z.leb_spec 1 (int_at d p 40)) as [N|]; [|discriminate]. apply some_inj in HL; subst L.
  unfold dec_lines in H. next H e b1 E. structure E HB T H1. cbv zeta in H. next H ll b2 E2. destruct ll as [lat lon].
  count E2 T "line.number_points" 40. apply (latlon_here d p) with (o := 60) in E2 as (_ & LA & LO & H2); [|exact H1].
  assert (exists xs, lat = CoArr xs) as (xs & EX).
  { unfold rounded in LA. destruct (Z.leb_spec 1 (int_at d p 40)); [|lia]. destruct LA as (xs & -> & _). eauto. }
  rewrite EX in H. rewrite <- EX in H. next H ll b3 E3. destruct ll as [x y]. count E3 T "line.number_points" 40. rewrite HC in E3.
  eapply close_if in E3 as (LA' & LO' & ->); [|exact LA|exact LO].
  next H a b4 E4. lifted E4. next H q b5 E5. lifted E5. finish H. cbn [l_end]. split; [|replace (60 + 8 * int_at d p 40) with (60 + 8 * Z.max 0 (int_at d p 40)) by lia; exact H2]. chosen E4 T.
  apply body_intro; try assumption; [|constructor|constructor]. eapply tracks_fields; [exact E4|]. fields.
Qed.
Lemma special_lines_read h L : vh_closed h = closed_at d p -> special_line_layout d p = Some L -> reads h (dec_special_lines h) L.
Proof.
  intros HC HL b l b' H HB _. unfold special_line_layout in HL. cbv zeta in HL. destruct (Z.leb_spec 1 (int_at d p 40)) as [N|]; [|discriminate]. apply some_inj in HL; subst L.
  unfold dec_special_lines in H. next H e b1 E. structure E HB T H1. cbv zeta in H. next H ll b2 E2. destruct ll as [lat lon].
  count E2 T "special_line.number_points" 40. apply (latlon_here d p) with (o := 64) in E2 as (_ & LA & LO & H2); [|exact H1].
  assert (exists xs, lat = CoArr xs) as (xs & EX).
  { unfold rounded in LA. destruct (Z.leb_spec 1 (int_at d p 40)); [|lia]. destruct LA as (xs & -> & _). eauto. }
  rewrite EX in H. rewrite <- EX in H. next H ll b3 E3. destruct ll as [x y]. count E3 T "special_line.number_points" 40. rewrite HC in E3.
  eapply close_if in E3 as (LA' & LO' & ->); [|exact LA|exact LO].
  next H ll b4 E4. destruct ll as [x2 y2]. count E4 T "special_line.direction" 52.
  eapply flip_if in E4 as (LA2 & LO2 & ->); [|exact LA'|exact LO'].
  next H a b4 E4. lifted E4. next H q b5 E5. lifted E5. finish H. cbn [l_end]. split; [|replace (64 + 8 * int_at d p 40) with (64 + 8 * Z.max 0 (int_at d p 40)) by lia; exact H2]. chosen E4 T.
  apply body_intro; try assumption; [|constructor|constructor]. eapply tracks_fields; [exact E4|]. fields.
Qed.

(** Texts *)
Lemma text_tracks k o n s pls e : tracks pls e -> decode_strict (before_nul (bytes_at d p o n)) = Ok s ->
  tracks (pls ++ [(k, Text o n)]) (e ++ [(k, VText s)]).
Proof. intros T E. apply tracks_app; [exact T|]. constructor; [|constructor]. split; [reflexivity|]. exists s. auto. Qed.
Lemma clean_tracks k o n s pls e : tracks pls e -> decode_strict (before_nul (bytes_at d p o n)) = Ok s ->
  tracks (pls ++ [(k, Clean o n)]) (e ++ [(k, VText (clean_text s))]).
Proof. intros T E. apply tracks_app; [exact T|]. constructor; [|constructor]. split; [reflexivity|]. exists s. auto. Qed.
Lemma dtext_read h L : vh_record_size h = size_at d p -> text_layout d p "TextElement" text_fields 80 = Some L -> reads h (dec_text h) L.
Proof.
  intros HS HL b l b' H HB LE. unfold text_layout in HL. cbv zeta in HL. destruct (Z.leb_spec 0 (size_at d p - 80)) as [N|]; [|discriminate]. apply some_inj in HL; subst L.
  cbn [without_points l_end] in LE. unfold dec_text in H. next H e b1 E. structure E HB T H1. next H s b2 E2.
  change (Z.of_nat (calcsize (formats text_info))) with 40 in E2. rewrite HS in E2. unfold VGF_HEADER_SIZE in E2.
  replace (size_at d p - 40 - 40) with (size_at d p - 80) in E2 by lia.
  apply (text_here d p) with (o := 80) in E2 as (TX & H2); [|exact H1|exact N|lia].
  next H a b3 E3. lifted E3. finish H. split; [|exact H2].
  apply (select_tracks d p _ _ _ (clean_tracks "clean_text" _ _ _ _ _ T TX)) in E3.
  apply body_intro; [|constructor|constructor|reflexivity|reflexivity]. eapply fields_all; [exact E3|].
  generalize (size_at d p - 80). intros z. vm_compute. repeat constructor.
Qed.
Lemma special_text_read h L : vh_record_size h = size_at d p -> text_layout d p "SpecialTextElement" special_text_fields 100 = Some L -> reads h (dec_special_text h) L.
Proof.
  intros HS HL b l b' H HB LE. unfold text_layout in HL. cbv zeta in HL. destruct (Z.leb_spec 0 (size_at d p - 100)) as [N|]; [|discriminate]. apply some_inj in HL; subst L.
  cbn [without_points l_end] in LE. unfold dec_special_text in H. next H e b1 E. structure E HB T H1. next H s b2 E2.
  change (Z.of_nat (calcsize (formats special_text_info))) with 60 in E2. rewrite HS in E2. unfold VGF_HEADER_SIZE in E2.
  replace (size_at d p - 40 - 60) with (size_at d p - 100) in E2 by lia.
  apply (text_here d p) with (o := 100) in E2 as (TX & H2); [|exact H1|exact N|lia].
  next H a b3 E3. lifted E3. finish H. split; [|exact H2].
  apply (select_tracks d p _ _ _ (clean_tracks "clean_text" _ _ _ _ _ T TX)) in E3.
  apply body_intro; [|constructor|constructor|reflexivity|reflexivity]. eapply fields_all; [exact E3|].
  generalize (size_at d p - 100). intros z. vm_compute. repeat constructor.
Qed.

(** Sigmets *)
Lemma sigmet_read h L : vh_version h = version_at d p -> sigmet_layout d p = Some L -> reads h (dec_sigmet h) L.
Proof.
  intros HV HL b l b' H HB _. unfold sigmet_layout in HL. cbv zeta in HL. destruct (Z.leb_spec 0 (int_at d p 44)) as [N|]; [|discriminate].
  unfold dec_sigmet in H. rewrite HV in H. next H e b1 E.
  destruct (version_at d p =? 0); [|destruct (version_at d p =? 1); [|discriminate]]; apply some_inj in HL; subst L.
  - structure E HB T H1. next H lat b2 E2. next H lon b3 E3. count E2 T "sigmet.number_points" 44. count E3 T "sigmet.number_points" 44.
    apply (raw_here d p) with (o := 428) in E2 as (LA & H2); [|exact H1|exact N]. eapply raw_here in E3 as (LO & H3); [|exact H2|exact N].
    next H a b4 E4. lifted E4. finish H. cbn [l_end]. split; [|replace (428 + 8 * int_at d p 44) with (428 + 4 * int_at d p 44 + 4 * int_at d p 44) by lia; exact H3]. chosen E4 T.
    apply body_intro; try assumption; [|constructor|constructor]. eapply fields_all; [exact E4|]. fields.
  - structure E HB T H1. next H lat b2 E2. next H lon b3 E3. count E2 T "sigmet.number_points" 44. count E3 T "sigmet.number_points" 44.
    apply (raw_here d p) with (o := 776) in E2 as (LA & H2); [|exact H1|exact N]. eapply raw_here in E3 as (LO & H3); [|exact H2|exact N].
    next H a b4 E4. lifted E4. finish H. cbn [l_end]. split; [|replace (776 + 8 * int_at d p 44) with (776 + 4 * int_at d p 44 + 4 * int_at d p 44) by lia; exact H3]. chosen E4 T.
    apply body_intro; try assumption; [|constructor|constructor]. eapply fields_all; [exact E4|]. fields.
Qed.

(** Records inside the record *)
Lemma rebase b o : here b o -> VgfFieldFacts.here d (at_byte p o) b 0.
Proof. intros (D & O & N). repeat split; [exact D| |lia]. unfold at_byte. lia. Qed.
Lemma unbase b o k : VgfFieldFacts.here d (at_byte p o) b k -> 0 <= o -> here b (o + k).
Proof. intros (D & O & N) P. repeat split; [exact D| |lia]. unfold at_byte in O. lia. Qed.
Lemma subs_shown name o w n fs xs : Forall2 (fun k x => has_fields d (at_byte p (o + w * k)) fs x) (range n) xs ->
  Forall2 (has_sub d p) (subs_at name o w n fs) (map (fun x => (name, x)) xs).
Proof. unfold subs_at. induction 1 as [|k x ks xs F _ IH]; cbn [map]; constructor; [|exact IH]. split; [reflexivity|exact F]. Qed.
Lemma texts_shown name o w n l b b' : repeatR (Z.to_nat n) (read_text w) b = Ok (l, b') -> here b o -> 0 <= w -> 0 <= n ->
  Z.of_nat p + o + w * n <= Zlen d ->
  Forall2 (has_sub d p) (subs_at name o w n [("value", Text 0 w)]) (items name l) /\ here b' (o + w * n).
Proof.
  intros H HB W N LE.
  destruct (repeat_here d p (read_text w) (fun o1 s => has_fields d (at_byte p o1) [("value", Text 0 w)] [("value", VText s)]) w n W N _ _ _ _ H HB) as (F & H').
  { intros b1 s b2 o1 M HB1 L1 L2. pose proof HB1 as (_ & _ & P1). apply (text_here d p) with (o := o1) in M as (TX & H2); [|exact HB1|exact W|lia].
    split; [|exact H2]. constructor; [|constructor]. eexists. split; [reflexivity|]. cbn [snd shows]. exists s. split; [|reflexivity].
    unfold bytes_at in *. replace (at_byte (at_byte p o1) 0) with (at_byte p o1) by (unfold at_byte; lia). exact TX. }
  split; [|exact H']. unfold items. rewrite <- (map_map (fun s => [("value", VText s)]) (fun x => (name, x))). apply subs_shown.
  clear - F. induction F as [|k s ks l F1 F IH]; cbn [map]; constructor; [exact F1|exact IH].
Qed.
Lemma skip_here n b u b' o : r_skip n b = Ok (u, b') -> here b o -> 0 <= o + n -> here b' (o + n).
Proof. intros H HB N. unfold r_skip in H. assert (b' = io_skip (Some n) b) as -> by congruence. apply here_skip; assumption. Qed.
Lemma here_eq b o o' : here b o -> o = o' -> here b o'.
Proof. intros H <-. exact H. Qed.

Lemma lists_read h L : list_layout d p = Some L -> reads h (dec_lists h) L.
Proof.
  intros HL b l b' H HB LE. unfold list_layout in HL. cbv zeta in HL. destruct (within 0 500 (int_at d p 56)) eqn:W; [|discriminate]. apply some_inj in HL; subst L.
  assert (N : 0 <= int_at d p 56 <= 500) by (unfold within in W; lia). cbn [l_end] in LE.
  unfold dec_lists in H. next H e b1 E. structure E HB T H1. cbv zeta in H. rewrite (geti_tracks _ _ "list_meta.number_items" 56 T eq_refl) in H.
  unfold LIST_MEMBER_SIZE, MAX_POINTS in H. next H ts b2 E2. destruct (texts_shown "list_items" 60 9 _ _ _ _ E2 H1) as (SB & H2); [lia|lia|lia|].
  next H u b3 E3. eapply skip_here in E3; [|exact H2|lia].
  next H lat b4 E4. eapply raw_here in E4 as (LA & H4); [|exact E3|lia].
  next H u2 b5 E5. eapply skip_here in E5; [|exact H4|lia].
  next H lon b6 E6. eapply raw_here in E6 as (LO & H6); [|exact E5|lia].
  next H u3 b7 E7. eapply skip_here in E7; [|exact H6|lia].
  next H a b8 E8. lifted E8. next H q b9 E9. lifted E9. finish H. chosen E8 T. split; [|eapply here_eq; [exact E7|cbn [l_end]; lia]].
  set (n := int_at d p 56) in *. replace (60 + 9 * n + (500 - n) * 9) with 4560 in * by lia. replace (4560 + 4 * n + 4 * (500 - n)) with 6560 in * by lia.
  apply body_intro; try assumption; [|constructor]. eapply tracks_fields; [exact E8|]. fields.
Qed.

(** The forms of storm tracks *)
Lemma tracks_read h L : track_layout d p = Some L -> reads h (dec_tracks h) L.
Proof.
  intros HL b l b' H HB LE. unfold track_layout in HL. cbv zeta in HL. destruct (within 0 50 (int_at d p 44)) eqn:W; [|discriminate].
  assert (N : 0 <= int_at d p 44 <= 50) by (unfold within in W; lia).
  unfold dec_tracks in H. next H mark b0 E0. unfold r_mark, io_set_mark in E0.
  assert (EM : mark = Zlen (io_marks b)) by congruence. assert (EB : b0 = mk_iobuf (io_data b) (io_offset b) (io_marks b ++ [io_offset b])) by congruence.
  assert (H0 : here b0 40) by (rewrite EB; exact HB). assert (M0 : io_marks b0 = io_marks b ++ [io_offset b]) by (rewrite EB; reflexivity). clear E0 EB.
  next H e0 b1 E1. pose proof (named_inv _ _ _ _ _ _ E1) as (_ & M1 & _). structure E1 H0 T H1.
  next H sz b2 E2. pose proof (named_inv _ _ _ _ _ _ E2) as (_ & M2 & _). structure E2 H1 T2 H2. cbv zeta in H.
  rewrite (geti_tracks _ _ "track.skip" 84 T eq_refl), (geti_tracks _ _ "track.font" 88 T eq_refl) in H.
  assert (J : r_jump mark b2 = Ok (tt, mk_iobuf (io_data b2) (io_offset b) (io_marks b2))) by (rewrite EM; apply jump_back; congruence).
  assert (HJ : here (mk_iobuf (io_data b2) (io_offset b) (io_marks b2)) 40).
  { destruct HB as (D & O & _). destruct H2 as (D2 & _). repeat split; cbn; [exact D2|exact O|lia]. }
  next H es b3 E3. destruct es as [e size].
  (* the part after the structure *)
  assert (REST : forall fs o spl pls, L = mk_layout "TrackElement" fs (subs_at "times" o 18 (int_at d p 44) [("value", Text 0 18)]) []
                     (rounded (o + 900) (int_at d p 44)) (rounded (o + 900 + 4 * int_at d p 44) (int_at d p 44)) (o + 1300) ->
            here b3 o -> tracks pls e -> find_place "track.total_points" pls = Some (Int 44) -> shows d p spl size ->
            Forall (fun f => find_place (fst f) (selected TrackElement_sel (pls ++ [("track_font_size", spl)])) = Some (snd f)) fs ->
            exists e1, l = [e1] /\ ve_hdr e1 = h /\ body L e1 /\ here b' (l_end L)).
  { intros fs o spl pls EL H3 T3 F3 S3 FS. subst L. cbn [l_end] in LE. clear E3. pose proof H3 as (_ & _ & O3).
    rewrite (geti_tracks _ _ "track.total_points" 44 T3 F3) in H. unfold MAX_TRACKS, TRACK_DT_SIZE in H.
    next H ts b4 E4. destruct (texts_shown "times" o 18 _ _ _ _ E4 H3) as (SB & H4); [lia|lia|lia|].
    next H u b5 E5. eapply skip_here in E5; [|exact H4|lia].
    next H ll b6 E6. destruct ll as [lat lon]. eapply latlon_here in E6 as (_ & LA & LO & H6); [|exact E5].
    next H u2 b7 E7. eapply skip_here in E7; [|exact H6|lia].
    next H a b8 E8. lifted E8. finish H. split; [|eapply here_eq; [exact E7|cbn [l_end]; lia]].
    assert (T4 : tracks (pls ++ [("track_font_size", spl)]) (e ++ [("track_font_size", size)])).
    { apply tracks_app; [exact T3|]. constructor; [|constructor]. split; [reflexivity|exact S3]. }
    chosen E8 T4. set (n := int_at d p 44) in *. replace (o + 18 * n + (50 - n) * 18) with (o + 900) in * by lia.
    apply body_intro; try assumption; [|constructor]. eapply fields_all; [exact E8|exact FS]. }
  destruct (within (-3) 4 (int_at d p 84)) eqn:W1; cbn [negb] in HL.
  - destruct (Z.ltb_spec (int_at d p 84) (-3)); [unfold within in W1; lia|]. destruct (Z.ltb_spec 4 (int_at d p 84)); [unfold within in W1; lia|]. cbn [orb] in E3.
    destruct (within 0 33 (int_at d p 88)) eqn:W2; cbn [negb] in HL; apply some_inj in HL.
    + destruct (Z.ltb_spec (int_at d p 88) 0); [unfold within in W2; lia|]. destruct (Z.ltb_spec 33 (int_at d p 88)); [unfold within in W2; lia|]. cbn [orb] in E3.
      apply ret_one in E3 as (EE & ->). injection EE as -> ->.
      eapply (REST _ 100 (RealLE 96 1)); [symmetry; exact HL|exact H2|exact T|reflexivity| |fields].
      pose proof (find_tracks d p "size.value" _ _ T2) as (v & V & SV). unfold getf. rewrite V. cbn [shows] in SV. rewrite SV. reflexivity.
    + assert (C : (int_at d p 88 <? 0) || (33 <? int_at d p 88) = true) by (unfold within in W2; lia). rewrite C in E3.
      next E3 u b4 E4. rewrite J in E4. assert (b4 = mk_iobuf (io_data b2) (io_offset b) (io_marks b2)) as -> by congruence.
      next E3 e2 b5 E5. structure E5 HJ T3 HT3. apply ret_one in E3 as (EE & ->). injection EE as -> ->.
      eapply (REST _ 88 (Fixed (VFloat (of_Z 1)))); [symmetry; exact HL|exact HT3|exact T3|reflexivity|reflexivity|fields].
  - assert (C : (int_at d p 84 <? -3) || (4 <? int_at d p 84) = true) by (unfold within in W1; lia). rewrite C in E3. apply some_inj in HL.
    next E3 u b4 E4. rewrite J in E4. assert (b4 = mk_iobuf (io_data b2) (io_offset b) (io_marks b2)) as -> by congruence.
    next E3 e2 b5 E5. structure E5 HJ T3 HT3. apply ret_one in E3 as (EE & ->). injection EE as -> ->.
    eapply (REST _ 84 (Fixed (VFloat (of_Z 1)))); [symmetry; exact HL|exact HT3|exact T3|reflexivity|reflexivity|fields].
Qed.

Lemma ccf_read h L : ccf_layout d p = Some L -> reads h (dec_ccf h) L.
Proof.
  intros HL b l b' H HB LE. unfold ccf_layout in HL. cbv zeta in HL. destruct (within 0 100 (int_at d p 44)) eqn:W; [|discriminate]. apply some_inj in HL; subst L.
  assert (N : 0 <= int_at d p 44 <= 100) by (unfold within in W; lia). cbn [l_end] in LE.
  unfold dec_ccf in H. next H e1 b1 E1. structure E1 HB T1 H1. next H e2 b2 E2. structure E2 H1 T2 H2. next H e3 b3 E3. structure E3 H2 T3 H3.
  next H s b4 E4. apply (text_here d p) with (o := 424) in E4 as (TX & H4); [|exact H3|lia|lia].
  cbv zeta in H. rewrite (geti_tracks _ _ "ccf.number_points" 44 T1 eq_refl) in H. unfold MAX_SIGMET in H.
  next H ll b5 E5. destruct ll as [lat lon]. eapply latlon_here in E5 as (_ & LA & LO & H5); [|exact H4].
  next H a b6 E6. lifted E6. next H u b7 E7. eapply skip_here in E7; [|exact H5|lia].
  finish H. split; [|eapply here_eq; [exact E7|cbn [l_end]; lia]].
  pose proof (tracks_app d p _ _ _ _ T1 (tracks_app d p _ _ _ _ T2 (text_tracks "text_layout" _ _ _ _ _ T3 TX))) as T.
  apply (select_tracks d p _ _ _ T) in E6. apply body_intro; try assumption; [|constructor|constructor]. eapply fields_all; [exact E6|]. fields.
Qed.
Lemma ash_read h L : ash_layout d p = Some L -> reads h (dec_ash_clouds h) L.
Proof.
  intros HL b l b' H HB LE. unfold ash_layout in HL. cbv zeta in HL. destruct (within 0 50 (int_at d p 44)) eqn:W; [|discriminate]. apply some_inj in HL; subst L.
  assert (N : 0 <= int_at d p 44 <= 50) by (unfold within in W; lia). cbn [l_end] in LE.
  unfold dec_ash_clouds in H. next H e1 b1 E1. structure E1 HB T1 H1. next H e2 b2 E2. structure E2 H1 T2 H2.
  next H s b4 E4. apply (text_here d p) with (o := 184) in E4 as (TX & H4); [|exact H2|lia|lia].
  next H u0 b3 E3. eapply skip_here in E3; [|exact H4|lia].
  cbv zeta in H. rewrite (geti_tracks _ _ "ash.number_points" 44 T1 eq_refl) in H. unfold MAX_ASH in H.
  next H ll b5 E5. destruct ll as [lat lon]. eapply latlon_here in E5 as (_ & LA & LO & H5); [|exact E3].
  next H u b7 E7. eapply skip_here in E7; [|exact H5|lia]. next H a b6 E6. lifted E6.
  finish H. split; [|eapply here_eq; [exact E7|cbn [l_end]; lia]].
  pose proof (tracks_app d p _ _ _ _ T1 (text_tracks "text_string" _ _ _ _ _ T2 TX)) as T.
  apply (select_tracks d p _ _ _ T) in E6. apply body_intro; try assumption; [|constructor|constructor]. eapply fields_all; [exact E6|]. fields.
Qed.
Lemma gfa_read h L : gfa_layout d p = Some L -> reads h (dec_gfa h) L.
Proof.
  intros HL b l b' H HB LE. unfold gfa_layout in HL. cbv zeta in HL. destruct (Z.leb_spec 0 (int_at d p 40)) as [N|]; [|discriminate]. apply some_inj in HL; subst L.
  unfold dec_gfa in H. next H e b1 E1. structure E1 HB T H1. next H bs b2 E2. count E2 T "gfa.number_blocks" 40.
  destruct (repeat_here d p _ (fun o1 x => has_fields d (at_byte p o1) [("block.value", Chars 0 1024)] x) 1024 (int_at d p 40) ltac:(lia) N _ _ _ _ E2 H1) as (F & H2).
  { intros b3 x b4 o1 M HB1 L1 L2. pose proof HB1 as (_ & _ & P1). apply rebase in HB1. eapply named_here in M; [|exact bytes_d|exact HB1|vm_compute; reflexivity].
    destruct M as [TM HM]. split; [|eapply here_eq; [apply unbase; [exact HM|exact P1]|vm_compute; reflexivity]].
    rewrite <- (app_nil_r x). eapply tracks_fields; [exact TM|]. fields. }
  next H ll b5 E5. destruct ll as [lat lon]. count E5 T "gfa.number_points" 44. eapply latlon_here in E5 as (_ & LA & LO & H5); [|exact H2].
  next H a b6 E6. lifted E6. finish H. split; [|exact H5]. chosen E6 T.
  apply body_intro; try assumption; [| |constructor]; [|apply subs_shown; exact F]. eapply fields_all; [exact E6|]. fields.
Qed.

(** Jet streams *)
Lemma uint_here b o z b' : r_uint 4 b = Ok (z, b') -> here b o -> Z.of_nat p + o + 4 <= Zlen d -> z = u32_at d (at_byte p o) /\ here b' (o + 4).
Proof.
  intros H HB LE. unfold r_uint, io_read_int in H. destruct (io_read (Some 4) b) as [r b1] eqn:R. cbn [andb] in H.
  assert (z = dec_uint BE r /\ b' = b1) as [-> ->] by (split; congruence).
  assert (RR : r_read 4 b = Ok (r, b1)) by (unfold r_read; rewrite R; reflexivity). apply (read_here d p) with (o := o) in RR as (-> & H1); [|exact HB|lia|lia].
  split; [|exact H1]. unfold bytes_at. change (Z.to_nat 4) with 4%nat. rewrite four by (pose proof HB as (_ & _ & N); unfold at_byte, Zlen in *; lia).
  unfold u32_at. cbn [dec_uint rev app le_dec]. lia.
Qed.
Lemma sub_here t var sel pls fs w b1 a b2 o1 : here b1 o1 -> (x <~ r_named BE var t ;; liftR (select sel x)) b1 = Ok (a, b2) ->
  places BE var 0 t = Some pls -> Z.of_nat (calcsize (formats t)) = w -> Forall (fun f => find_place (fst f) (selected sel pls) = Some (snd f)) fs ->
  has_fields d (at_byte p o1) fs a /\ here b2 (o1 + w).
Proof.
  intros HB1 M PL W FS. pose proof HB1 as (_ & _ & P1). apply rebase in HB1. next M x b3 E. eapply named_here in E; [|exact bytes_d|exact HB1|exact PL].
  destruct E as [TM HM]. lifted M. split; [|eapply here_eq; [apply unbase; [exact HM|exact P1]|lia]].
  rewrite <- (app_nil_r a). eapply tracks_fields; [eapply select_tracks; [exact TM|exact M]|exact FS].
Qed.
Lemma coords_shown o n c : 0 <= n -> has_points d p (rounded o n) c -> Forall2 (shows d p) (items_at Coord o n) (coord_vals c).
Proof.
  intros N H. unfold rounded in H. destruct (Z.leb_spec 1 n).
  - destruct H as (xs & -> & F). cbn [coord_vals]. induction F; constructor; auto.
  - replace n with 0 by lia. cbn [has_points] in H. subst c. constructor.
Qed.
Definition places_of (var : string) (t : list field) : list (string * place) := match places BE var 0 t with Some l => l | None => [] end.
Lemma barb_here b1 a b2 o1 : here b1 o1 -> (x <~ r_named BE "jet_barb" jet_barb_info ;; liftR (select BarbAttribute_sel x)) b1 = Ok (a, b2) ->
  has_fields d (at_byte p o1) barb_fields a /\ here b2 (o1 + 360).
Proof.
  intros HB M. apply (sub_here _ _ _ (places_of "jet_barb" jet_barb_info) barb_fields 360 _ _ _ _ HB M); [vm_compute; reflexivity|vm_compute; reflexivity|].
  clear. unfold barb_fields. repeat (constructor; [vm_compute; reflexivity|]). constructor.
Qed.
Lemma hash_here b1 a b2 o1 : here b1 o1 -> (x <~ r_named BE "jet_hash" jet_hash_info ;; liftR (select HashAttribute_sel x)) b1 = Ok (a, b2) ->
  has_fields d (at_byte p o1) hash_fields a /\ here b2 (o1 + 40).
Proof.
  intros HB M. apply (sub_here _ _ _ (places_of "jet_hash" jet_hash_info) hash_fields 40 _ _ _ _ HB M); [vm_compute; reflexivity|vm_compute; reflexivity|].
  clear. unfold hash_fields. repeat (constructor; [vm_compute; reflexivity|]). constructor.
Qed.
Lemma jet_read h L : jet_layout d p = Some L -> reads h (dec_jet h) L.
Proof.
  intros HL b l b' H HB LE. unfold jet_layout in HL. cbv zeta in HL.
  destruct (within 0 500 (int_at d p 44)) eqn:W1; [|discriminate]. destruct (within 0 50 (u32_at d (at_byte p 4068))) eqn:W2; [|discriminate].
  destruct (within 0 50 (u32_at d (at_byte p 22072))) eqn:W3; [|discriminate]. cbn [andb] in HL. apply some_inj in HL; subst L. cbn [l_end] in LE.
  assert (N1 : 0 <= int_at d p 44 <= 500) by (unfold within in W1; lia).
  assert (N2 : 0 <= u32_at d (at_byte p 4068) <= 50) by (unfold within in W2; lia).
  assert (N3 : 0 <= u32_at d (at_byte p 22072) <= 50) by (unfold within in W3; lia). clear W1 W2 W3.
  unfold dec_jet, MAX_POINTS, MAX_JET_POINTS in H. change (Z.of_nat (calcsize (formats jet_barb_info))) with 360 in H. change (Z.of_nat (calcsize (formats jet_hash_info))) with 40 in H.
  next H e b1 E1. structure E1 HB T H1. cbv zeta in H. rewrite (geti_tracks _ _ "jet_line.number_points" 44 T eq_refl) in H. set (n := int_at d p 44) in *.
  next H ll b2 E2. destruct ll as [lat lon]. eapply latlon_here in E2 as (_ & LA & LO & H2); [|exact H1].
  next H la b3 E3. lifted E3. next H u1 b3 E4. eapply skip_here in E4; [|exact H2|lia]. replace (68 + 8 * Z.max 0 n + (500 - n) * 8) with 4068 in E4 by lia.
  next H nb b4 E5. apply uint_here with (o := 4068) in E5 as (-> & H5); [|exact E4|lia]. change (4068 + 4) with 4072 in H5.
  set (nb := u32_at d (at_byte p 4068)) in *. next H barbs b5 E6.
  destruct (repeat_here d p _ (fun o1 x => has_fields d (at_byte p o1) barb_fields x) 360 nb ltac:(lia) ltac:(lia) _ _ _ _ E6 H5) as (FB & H6).
  { intros b6 x b7 o1 M HB1 _ _. exact (barb_here _ _ _ _ HB1 M). }
  next H u2 b6 E7. eapply skip_here in E7; [|exact H6|lia]. replace (4072 + 360 * nb + (50 - nb) * 360) with 22072 in E7 by lia.
  next H nh b7 E8. apply uint_here with (o := 22072) in E8 as (-> & H8); [|exact E7|lia]. change (22072 + 4) with 22076 in H8.
  set (nh := u32_at d (at_byte p 22072)) in *. next H hashes b8 E9.
  destruct (repeat_here d p _ (fun o1 x => has_fields d (at_byte p o1) hash_fields x) 40 nh ltac:(lia) ltac:(lia) _ _ _ _ E9 H8) as (FH & H9).
  { intros b9 x b10 o1 M HB1 _ _. exact (hash_here _ _ _ _ HB1 M). }
  next H u3 b9 E10. eapply skip_here in E10; [|exact H9|lia]. next H a b10 E11. lifted E11. finish H. split; [|eapply here_eq; [exact E10|cbn [l_end]; lia]].
  apply body_intro; try reflexivity.
  - assert (T2 : tracks [("number_barbs", Nat 4068); ("number_hash", Nat 22072)] [("number_barbs", VInt nb); ("number_hash", VInt nh)]).
    { repeat constructor. }
    chosen E11 T2. eapply fields_all; [exact E11|]. fields.
  - chosen E3 T. constructor.
    + split; [reflexivity|]. cbn [fst snd]. replace (at_byte p 0) with p by (unfold at_byte; lia). eapply fields_all; [exact E3|]. fields.
    + apply Forall2_app; apply subs_shown; assumption.
  - constructor; [split; [reflexivity|apply coords_shown; [lia|exact LA]]|]. constructor; [|constructor]. split; [reflexivity|apply coords_shown; [lia|exact LO]].
Qed.

(** Watch boxes *)
Lemma raw_shown o n c : has_points d p (raw o n) c -> Forall2 (shows d p) (items_at Float o n) (coord_vals c).
Proof. intros (xs & -> & F). cbn [coord_vals]. induction F; constructor; auto. Qed.
Definition county_room (v : Z) : Z := if v <=? 4 then 200 else 400.
Definition county_lat_at (v o : Z) : Z := o + (if within 2 4 v then 4 * county_room v else 0) + (if 4 <=? v then 4 * county_room v else 0).
Lemma counties_here v n b arrs b' o : watch_counties v n b = Ok (arrs, b') -> here b o -> 0 <= n <= county_room v ->
  Forall2 (has_array d p)
    [("county_fips", if 4 <=? v then items_at Int (o + (if within 2 4 v then 4 * county_room v else 0)) n else []);
     ("county_status", if within 2 4 v then items_at Int o n else []);
     ("county_lat", if 2 <=? v then items_at Float (county_lat_at v o) n else []);
     ("county_lon", if 2 <=? v then items_at Float (county_lat_at v o + 4 * n) n else [])] arrs /\
  here b' (if 2 <=? v then county_lat_at v o + 8 * county_room v else o).
Proof.
  intros H HB N. pose proof HB as (_ & _ & O). assert (CR : 200 <= county_room v) by (unfold county_room; destruct (v <=? 4); lia).
  unfold county_lat_at. unfold watch_counties in H. cbv zeta in H.
  assert (MR : (if v <=? 4 then MAX_COUNTIES_LEGACY else MAX_COUNTIES) = county_room v) by reflexivity. rewrite MR in H. clear MR. set (room := county_room v) in *. clearbody room.
  destruct (Z.leb_spec v 1).
  - destruct (Z.leb_spec 2 v); [lia|]. destruct (Z.leb_spec 4 v); [lia|]. assert (within 2 4 v = false) as -> by (unfold within; lia).
    apply ret_one in H as (-> & ->). split; [repeat constructor|exact HB].
  - destruct (Z.leb_spec 2 v); [|lia]. next H st b1 E1. next H fips b2 E2. next H la b3 E3. next H lo b4 E4. next H u b5 E5. apply ret_one in H as (-> & ->).
    assert (S1 : Forall2 (shows d p) (if within 2 4 v then items_at Int o n else []) st /\ here b1 (o + (if within 2 4 v then 4 * room else 0))).
    { unfold within. destruct (Z.leb_spec 2 v); [|lia]. cbn [andb]. destruct (Z.leb_spec v 4).
      - next E1 x b6 E6. next E1 u1 b7 E7. apply ret_one in E1 as (-> & ->). eapply ints_here in E6 as (F & HH6); [|exact HB|lia].
        eapply skip_here in E7; [|exact HH6|lia]. split; [exact F|eapply here_eq; [exact E7|lia]].
      - apply ret_one in E1 as (-> & ->). split; [constructor|eapply here_eq; [exact HB|lia]]. }
    destruct S1 as (S1 & HH1). set (sts := if within 2 4 v then 4 * room else 0) in *. assert (0 <= sts) by (subst sts; destruct (within 2 4 v); lia).
    assert (S2 : Forall2 (shows d p) (if 4 <=? v then items_at Int (o + sts) n else []) fips /\ here b2 (o + sts + (if 4 <=? v then 4 * room else 0))).
    { destruct (Z.leb_spec 4 v).
      - next E2 x b6 E6. next E2 u1 b7 E7. apply ret_one in E2 as (-> & ->). eapply ints_here in E6 as (F & HH6); [|exact HH1|lia].
        eapply skip_here in E7; [|exact HH6|lia]. split; [exact F|eapply here_eq; [exact E7|lia]].
      - apply ret_one in E2 as (-> & ->). split; [constructor|eapply here_eq; [exact HH1|lia]]. }
    destruct S2 as (S2 & HH2). set (co := o + sts + (if 4 <=? v then 4 * room else 0)) in *. assert (0 <= co) by (subst co; destruct (4 <=? v); lia).
    eapply raw_here in E3 as (LA & HH3); [|exact HH2|lia]. eapply raw_here in E4 as (LO & HH4); [|exact HH3|lia]. eapply skip_here in E5; [|exact HH4|lia].
    split; [|eapply here_eq; [exact E5|lia]].
    constructor; [split; [reflexivity|exact S2]|]. constructor; [split; [reflexivity|exact S1]|].
    constructor; [split; [reflexivity|apply raw_shown; exact LA]|]. constructor; [split; [reflexivity|apply raw_shown; exact LO]|constructor].
Qed.
Definition watch_at (fs : list (string * place)) (o nc : Z) : option layout :=
  let v := version_at d p in let n := int_at d p 40 in
  let q := if 2 <=? v then county_lat_at v o + 8 * county_room v else o in
  if (0 <=? n) && within 0 (county_room v) nc then
    Some (mk_layout "WatchBoxElement" fs []
            [("county_fips", if 4 <=? v then items_at Int (o + (if within 2 4 v then 4 * county_room v else 0)) nc else []);
             ("county_status", if within 2 4 v then items_at Int o nc else []);
             ("county_lat", if 2 <=? v then items_at Float (county_lat_at v o) nc else []);
             ("county_lon", if 2 <=? v then items_at Float (county_lat_at v o + 4 * nc) nc else [])]
            (closing (2 <? n) (raw q n)) (closing (2 <? n) (raw (q + 4 * n) n)) (q + 8 * n))
  else None.
Definition watch_places (t : list field) : list (string * place) := match places BE "watch" 40 t with Some l => l | None => [] end.
Lemma watch_case h L t fs o nc : vh_version h = version_at d p -> watch_info (version_at d p) = Some t ->
  places BE "watch" 40 t = Some (watch_places t) -> 40 + Z.of_nat (calcsize (formats t)) = o ->
  find_place "watch.number_points" (watch_places t) = Some (Int 40) ->
  (forall e, tracks (watch_places t) e -> geti e "watch.number_counties" = nc) ->
  Forall (fun f => find_place (fst f) (selected WatchBoxElement_sel (watch_places t)) = Some (snd f)) fs ->
  watch_at fs o nc = Some L -> reads h (dec_watches h) L.
Proof.
  intros HV WI PL SZ FP NC FS HL b l b' H HB _. unfold dec_watches in H. rewrite HV, WI in H. unfold watch_at in HL. cbv zeta in HL.
  set (v := version_at d p) in *. set (pls := watch_places t) in *. clearbody pls.
  destruct (Z.leb_spec 0 (int_at d p 40)) as [N1|]; [|discriminate HL].
  destruct (within 0 (county_room v) nc) eqn:W; [|discriminate HL]. cbn [andb] in HL. apply some_inj in HL; subst L. cbn [l_end].
  assert (N2 : 0 <= nc <= county_room v) by (clear - W; unfold within in W; lia).
    next H e b1 E1. eapply named_here in E1; [|exact bytes_d|exact HB|exact PL].
    destruct E1 as (T & H1). rewrite SZ in H1. rewrite (NC _ T) in H. cbv zeta in H. rewrite (geti_tracks _ _ "watch.number_points" 40 T FP) in H.
    next H arrs b2 E2. apply counties_here with (o := o) in E2 as (AR & H2); [|exact H1|exact N2].
    set (q := if 2 <=? v then county_lat_at v o + 8 * county_room v else o) in *.
    next H lat b3 E3. eapply raw_here in E3 as (LA & H3); [|exact H2|exact N1]. next H lon b4 E4. eapply raw_here in E4 as (LO & H4); [|exact H3|exact N1].
    next H ll b5 E5. destruct ll as [x y]. eapply close_if in E5 as (LA' & LO' & ->); [|exact LA|exact LO].
    next H a b6 E6. lifted E6. next H w b7 E7. lifted E7. finish H. split; [|eapply here_eq; [exact H4|lia]]. chosen E6 T.
    apply body_intro; try assumption; [|constructor]. eapply tracks_fields; [exact E6|exact FS].
Qed.
Ltac watch_version HV HL E k t fs o :=
  eapply (watch_case _ _ t fs o);
  [exact HV|rewrite E; reflexivity|vm_compute; reflexivity|vm_compute; reflexivity|vm_compute; reflexivity|
  |clear; unfold fs; repeat (constructor; [vm_compute; reflexivity|]); constructor|exact HL].
Lemma watches_read h L : vh_version h = version_at d p -> watch_layout d p = Some L -> reads h (dec_watches h) L.
Proof.
  intros HV HL. unfold watch_layout in HL. cbv zeta in HL.
  destruct (Z.eqb_spec (version_at d p) 0) as [E|_].
  { watch_version HV HL E 0 watch_info_0 watch_fields_0 188. intros e T. eapply geti_none; [exact T|vm_compute; reflexivity]. }
  destruct (Z.eqb_spec (version_at d p) 1) as [E|_].
  { watch_version HV HL E 1 watch_info_1 watch_fields_1 684. intros e T. eapply geti_none; [exact T|vm_compute; reflexivity]. }
  destruct (Z.eqb_spec (version_at d p) 2) as [E|_].
  { watch_version HV HL E 2 watch_info_2 watch_fields_2 692. intros e T. eapply geti_tracks; [exact T|vm_compute; reflexivity]. }
  destruct (Z.eqb_spec (version_at d p) 3) as [E|_].
  { watch_version HV HL E 3 watch_info_3 watch_fields_3 740. intros e T. eapply geti_tracks; [exact T|vm_compute; reflexivity]. }
  destruct (Z.eqb_spec (version_at d p) 4) as [E|_].
  { watch_version HV HL E 4 watch_info_4 watch_fields_4 860. intros e T. eapply geti_tracks; [exact T|vm_compute; reflexivity]. }
  destruct (Z.eqb_spec (version_at d p) 5) as [E|_].
  { watch_version HV HL E 5 watch_info_5 watch_fields_5 860. intros e T. eapply geti_tracks; [exact T|vm_compute; reflexivity]. }
  destruct (Z.eqb_spec (version_at d p) 6) as [E|_]; [|discriminate HL].
  watch_version HV HL E 6 watch_info_6 watch_fields_6 872. intros e T. eapply geti_tracks; [exact T|vm_compute; reflexivity].
Qed.

(** Header *)
Lemma geti_shown pls e k pl z : tracks pls e -> find_place k pls = Some pl -> (forall v, shows d p pl v -> v = VInt z) -> geti e k = z.
Proof. intros T F S. pose proof (find_tracks d p k _ _ T) as H. rewrite F in H. destruct H as (v & V & H). apply S in H. subst v. unfold geti. rewrite V. reflexivity. Qed.
Lemma getf_shown pls e k o n : tracks pls e -> find_place k pls = Some (Real o n) -> getf e k = py_round n (f32_at d (at_byte p o)).
Proof. intros T F. pose proof (find_tracks d p k _ _ T) as H. rewrite F in H. destruct H as (v & V & ->). unfold getf. rewrite V. reflexivity. Qed.
Lemma header_here b h b1 : read_header b = Ok (h, b1) -> here b 0 -> has_header d p h /\ here b1 40.
Proof.
  intros H HB. unfold read_header in H. next H e b2 E. structure E HB T H1. apply ret_one in H as (-> & ->). split; [|exact H1].
  unfold has_header, int_at. replace (p + 24)%nat with (at_byte p 24) by (unfold at_byte; lia). replace (p + 28)%nat with (at_byte p 28) by (unfold at_byte; lia).
  replace (p + 32)%nat with (at_byte p 32) by (unfold at_byte; lia). replace (p + 36)%nat with (at_byte p 36) by (unfold at_byte; lia).
  match type of T with VgfFieldFacts.tracks _ _ ?l _ => set (pls := l) in T end.
  assert (B : forall k o, find_place k pls = Some (Byte o) -> geti e k = nth (at_byte p o) d 0).
  { intros k o F. eapply geti_shown; [exact T|exact F|]. intros v ->. reflexivity. }
  assert (I : forall k o, find_place k pls = Some (Int o) -> geti e k = i32_at d (at_byte p o)).
  { intros k o F. eapply geti_shown; [exact T|exact F|]. intros v ->. reflexivity. }
  cbn [header_of vh_delete vh_type vh_class vh_filled vh_closed vh_smooth vh_version vh_group_type vh_group_number vh_major_color vh_minor_color vh_record_size vh_min_lat vh_min_lon vh_max_lat vh_max_lon].
  repeat split.
  - rewrite (B "header.delete" 0 eq_refl). f_equal. unfold at_byte. lia.
  - rewrite (B "header.vg_type" 1 eq_refl). f_equal.
  - rewrite (B "header.vg_class" 2 eq_refl). f_equal.
  - eapply geti_shown with (pl := SByte 3); [exact T|reflexivity|]. intros v ->. reflexivity.
  - rewrite (B "header.closed" 4 eq_refl). f_equal.
  - rewrite (B "header.smooth" 5 eq_refl). f_equal.
  - rewrite (B "header.version" 6 eq_refl). f_equal.
  - rewrite (B "header.group_type" 7 eq_refl). f_equal.
  - exact (I "header.group_number" 8 eq_refl).
  - exact (I "header.major_color" 12 eq_refl).
  - exact (I "header.minor_color" 16 eq_refl).
  - exact (I "header.record_size" 20 eq_refl).
  - eapply getf_shown; [exact T|reflexivity].
  - eapply getf_shown; [exact T|reflexivity].
  - eapply getf_shown; [exact T|reflexivity].
  - eapply getf_shown; [exact T|reflexivity].
Qed.

(** Which decoder reads which record *)
Lemma elems_one (m : rd (list velem)) h L b x b' : elems m b = Ok (x, b') -> reads h m L -> here b 40 -> Z.of_nat p + l_end L <= Zlen d ->
  exists e, x = DElems [e] /\ ve_hdr e = h /\ body L e /\ here b' (l_end L).
Proof.
  intros H R HB LE. unfold elems in H. next H l b1 E. apply ret_one in H as (-> & ->). destruct (R _ _ _ E HB LE) as (e & -> & K). exists e. split; [reflexivity|exact K].
Qed.
Lemma dispatch_read tca h L b x b' : dispatch tca h b = Ok (x, b') -> has_header d p h -> here b 40 -> layout_at d p = Some L -> Z.of_nat p + l_end L <= Zlen d ->
  exists e, x = DElems [e] /\ ve_hdr e = h /\ body L e /\ here b' (l_end L).
Proof.
  intros H HH HB HL LE. destruct HH as (_ & HT & HC & _ & HCL & _ & HV & _ & _ & _ & _ & HS & _).
  unfold dispatch in H. cbv zeta in H. unfold layout_at in HL. cbv zeta in HL.
  change (nth (p + 2) d 0) with (class_at d p) in HC. change (nth (p + 1) d 0) with (type_at d p) in HT. change (nth (p + 4) d 0) with (closed_at d p) in HCL.
  change (nth (p + 6) d 0) with (version_at d p) in HV. assert (HS' : vh_record_size h = size_at d p) by exact HS. clear HS.
  rewrite HC, HT in H. clear HC HT. set (c := class_at d p) in *. set (t := type_at d p) in *. clearbody c t.
  unfold within, between in *.
  destruct (Z.eqb_spec c 0) as [C0|C0]; [rewrite C0 in HL; vm_compute in HL; discriminate HL|]. cbn [andb] in H.
  destruct (Z.eqb_spec c 1). { apply some_inj in HL; subst L. eapply elems_one; [exact H|apply fronts_read|exact HB|exact LE]. }
  destruct (Z.eqb_spec c 2) as [C|_]. { subst c. cbn [Z.eqb Pos.eqb] in H. eapply elems_one; [exact H|apply watches_read; assumption|exact HB|exact LE]. }
  destruct (Z.eqb_spec c 3) as [C|_].
  { subst c. cbn [Z.eqb Pos.eqb] in H. destruct (Z.eqb_spec t 1). { eapply elems_one; [exact H|apply lines_read; assumption|exact HB|exact LE]. }
    destruct (Z.eqb_spec t 20); [|discriminate HL]. eapply elems_one; [exact H|apply special_lines_read; assumption|exact HB|exact LE]. }
  destruct (Z.eqb_spec c 4). { apply some_inj in HL; subst L. eapply elems_one; [exact H|apply symbols_read|exact HB|exact LE]. }
  destruct (Z.eqb_spec c 5) as [C|_].
  { subst c. cbn [Z.eqb Pos.eqb] in H. destruct (Z.leb_spec 17 t); destruct (Z.leb_spec t 18); cbn [andb] in HL.
    - assert ((t =? 17) || (t =? 18) = true) as E by lia. rewrite E in H. eapply elems_one; [exact H|apply dtext_read; assumption|exact HB|exact LE].
    - assert ((t =? 17) || (t =? 18) = false) as E by lia. rewrite E in H. destruct (Z.eqb_spec t 21); [|discriminate HL].
      eapply elems_one; [exact H|apply special_text_read; assumption|exact HB|exact LE].
    - destruct (Z.eqb_spec t 21); [lia|discriminate HL].
    - lia. }
  destruct (Z.eqb_spec c 6) as [C|_]. { subst c. cbn [Z.eqb Pos.eqb] in H. apply some_inj in HL; subst L. eapply elems_one; [exact H|apply winds_read|exact HB|exact LE]. }
  destruct (Z.eqb_spec c 10) as [C|_]. { subst c. cbn [Z.eqb Pos.eqb] in H. eapply elems_one; [exact H|apply tracks_read; assumption|exact HB|exact LE]. }
  destruct (Z.eqb_spec c 11) as [C|_].
  { subst c. cbn [Z.eqb Pos.eqb] in H. destruct ((27 <=? t) && (t <=? 31)). { eapply elems_one; [exact H|apply sigmet_read; assumption|exact HB|exact LE]. }
    destruct (Z.eqb_spec t 32). { eapply elems_one; [exact H|apply ccf_read; assumption|exact HB|exact LE]. }
    destruct (Z.eqb_spec t 35). { apply some_inj in HL; subst L. eapply elems_one; [exact H|apply volcanoes_read|exact HB|exact LE]. }
    destruct (Z.eqb_spec t 36); [|discriminate HL]. eapply elems_one; [exact H|apply ash_read; assumption|exact HB|exact LE]. }
  destruct (Z.eqb_spec c 12) as [C|_].
  { subst c. cbn [Z.eqb Pos.eqb andb] in H, HL. destruct (Z.eqb_spec t 4); [|discriminate HL].
    apply some_inj in HL; subst L. eapply elems_one; [exact H|apply circles_read|exact HB|exact LE]. }
  cbn [andb] in HL. destruct (Z.eqb_spec c 14) as [C|_]. { subst c. cbn [Z.eqb Pos.eqb] in H. eapply elems_one; [exact H|apply lists_read; assumption|exact HB|exact LE]. }
  destruct (Z.eqb_spec c 15) as [C|_]; [|discriminate HL].
  destruct (Z.eqb_spec t 37) as [T|_]. { subst t. cbn [Z.eqb Pos.eqb] in H. eapply elems_one; [exact H|apply jet_read; assumption|exact HB|exact LE]. }
  destruct (Z.eqb_spec t 38); [|discriminate HL]. eapply elems_one; [exact H|apply gfa_read; assumption|exact HB|exact LE].
Qed.

Lemma step_read tca s s' L : vstep tca s = Ok (inl s') -> io_data (vs_buf s) = d -> io_offset (vs_buf s) = Z.of_nat p -> layout_at d p = Some L ->
  Z.of_nat p + l_end L <= Zlen d ->
  exists e, vs_elements s' = vs_elements s ++ [e] /\ vs_header s' = vs_header s /\ element_of d p L e /\
    io_data (vs_buf s') = d /\ io_offset (vs_buf s') = Z.of_nat p + l_end L /\ 0 <= l_end L.
Proof.
  intros H D O HL LE. unfold vstep in H. cbv zeta in H. destruct (io_at_end _); [discriminate|].
  destruct (read_header (vs_buf s)) as [[h b1]|] eqn:RH; [|discriminate]. destruct (invalid_header _ _); [discriminate|].
  destruct (dispatch tca h b1) as [[x b2]|] eqn:DI; [|discriminate].
  apply header_here in RH as (HH & H1); [|repeat split; [exact D|lia|lia]].
  destruct (dispatch_read _ _ _ _ _ _ DI HH H1 HL LE) as (e & -> & HE & (K1 & K2 & K3 & K4 & K5 & K6) & (D2 & O2 & N2)).
  assert (s' = mk_vstate (vs_elements s ++ [e]) (note_group h (vs_groups s)) (vs_header s) b2) as -> by congruence.
  exists e. cbn [vs_elements vs_header vs_buf]. split; [reflexivity|]. split; [reflexivity|]. split; [|split; [exact D2|split; [exact O2|exact N2]]].
  constructor; try assumption. rewrite HE. exact HH.
Qed.

(** Rounds that add no element *)
Lemma goes_on tca s s' : accepted d p -> known_at d p -> io_data (vs_buf s) = d -> io_offset (vs_buf s) = Z.of_nat p -> vstep tca s <> Ok (inr s').
Proof.
  intros (A1 & A2 & A3 & A4 & A5) (K1 & K2) D O. unfold vstep. cbv zeta. rewrite not_at_end by (rewrite ?O, ?D; lia).
  destruct (read_header (vs_buf s)) as [[h b1]|] eqn:RH; [|discriminate].
  apply header_here in RH as (HH & (D1 & _)); [|repeat split; [exact D|lia|lia]]. destruct HH as (H1 & H2 & H3 & _ & _ & _ & _ & _ & _ & H4 & H5 & H6 & _).
  assert (V : invalid_header h (io_len b1) = false).
  { unfold invalid_header. rewrite H1, H2, H3, H4, H5, H6. unfold io_len. rewrite D1. change (nth (p + 1) d 0) with (type_at d p). change (nth (p + 2) d 0) with (class_at d p).
    change (int_at d p 12) with (i32_at d (p + 12)). change (int_at d p 16) with (i32_at d (p + 16)). change (int_at d p 20) with (size_at d p).
    unfold known_type, known_class, between. rewrite !Bool.orb_false_iff. repeat split; lia. }
  rewrite V. destruct (dispatch tca h b1) as [[[l|x] b2]|]; discriminate.
Qed.
Lemma step_other tca s s' : vstep tca s = Ok (inl s') -> io_data (vs_buf s) = d -> io_offset (vs_buf s) = Z.of_nat p ->
  passed_over (class_at d p) (type_at d p) = true -> 40 <= size_at d p ->
  vs_elements s' = vs_elements s /\ vs_header s' = vs_header s /\ io_data (vs_buf s') = d /\ io_offset (vs_buf s') = Z.of_nat p + size_at d p.
Proof.
  intros H D O PO SZ. unfold vstep in H. cbv zeta in H. destruct (io_at_end _); [discriminate|].
  destruct (read_header (vs_buf s)) as [[h b1]|] eqn:RH; [|discriminate]. destruct (invalid_header _ _); [discriminate|].
  apply header_here in RH as (HH & H1); [|repeat split; [exact D|lia|lia]]. destruct HH as (_ & HT & HC & _ & _ & _ & _ & _ & _ & _ & _ & HS & _).
  change (nth (p + 2) d 0) with (class_at d p) in HC. change (nth (p + 1) d 0) with (type_at d p) in HT. change (int_at d p 20) with (size_at d p) in HS.
  assert (DI : dispatch tca h b1 = (_ <~ r_skip (size_at d p - 40) ;; retR (DElems [])) b1).
  { unfold dispatch. cbv zeta. rewrite HC, HT, HS. change VGF_HEADER_SIZE with 40. clear - PO. set (c := class_at d p) in *. set (t := type_at d p) in *. clearbody c t.
    unfold passed_over, within, between in *.
    repeat match goal with
           | |- context[Z.eqb c ?k] => destruct (Z.eqb_spec c k); [subst c; cbn [Z.eqb Pos.eqb andb negb orb] in PO |- *|]; cbn [andb]
           | |- context[Z.eqb t ?k] => destruct (Z.eqb_spec t k); [exfalso; subst t; cbn in PO; discriminate PO|]; cbn [andb orb]
           | |- context[(27 <=? t) && (t <=? 31)] => destruct ((27 <=? t) && (t <=? 31)) eqn:?; [exfalso; lia|]
           end; try reflexivity; exfalso; lia. }
  rewrite DI in H. unfold bindR, r_skip, retR in H. destruct H1 as (D1 & O1 & _).
  assert (s' = mk_vstate (vs_elements s ++ []) (note_group h (vs_groups s)) (vs_header s) (io_skip (Some (size_at d p - 40)) b1)) as -> by congruence.
  cbn [vs_elements vs_header vs_buf io_skip io_data io_offset]. rewrite app_nil_r. repeat split; [exact D1|lia].
Qed.
Lemma step_header tca s s' : vstep tca s = Ok (inl s') -> io_data (vs_buf s) = d -> io_offset (vs_buf s) = Z.of_nat p ->
  class_at d p = 0 -> type_at d p = 22 -> 168 <= size_at d p -> Z.of_nat p + size_at d p <= Zlen d ->
  vs_elements s' = vs_elements s /\ (exists x, vs_header s' = Some x /\ file_header_of d p x) /\
  io_data (vs_buf s') = d /\ io_offset (vs_buf s') = Z.of_nat p + size_at d p.
Proof.
  intros H D O C T SZ LE. unfold vstep in H. cbv zeta in H. destruct (io_at_end _); [discriminate|].
  destruct (read_header (vs_buf s)) as [[h b1]|] eqn:RH; [|discriminate]. destruct (invalid_header _ _); [discriminate|].
  apply header_here in RH as (HH & H1); [|repeat split; [exact D|lia|lia]]. pose proof HH as (_ & HT & HC & _ & _ & _ & _ & _ & _ & _ & _ & HS & _).
  change (nth (p + 2) d 0) with (class_at d p) in HC. change (nth (p + 1) d 0) with (type_at d p) in HT. change (int_at d p 20) with (size_at d p) in HS.
  destruct (dispatch tca h b1) as [[x b2]|] eqn:DI; [|discriminate].
  unfold dispatch in DI. cbv zeta in DI. rewrite HC, HT, C, T in DI. cbn [Z.eqb Pos.eqb andb] in DI. next DI y b3 E. apply ret_one in DI as (-> & ->).
  unfold dec_file_header in E. rewrite HS in E. change VGF_HEADER_SIZE with 40 in E. next E v b4 E1. next E n b5 E2. next E a b6 E3. lifted E3. apply ret_one in E as (-> & ->).
  apply (read_here d p) with (o := 40) in E1 as (-> & H4); [|exact H1|lia|lia]. apply (read_here d p) with (o := 168) in E2 as (-> & (D5 & O5 & _)); [|exact H4|lia|lia].
  match type of H with Ok (inl ?z) = _ => assert (s' = z) as -> by congruence end. cbn [vs_elements vs_header vs_buf]. split; [reflexivity|].
  split; [|split; [exact D5|lia]]. eexists. split; [reflexivity|]. split; [reflexivity|]. split; [exact HH|]. cbn [ve_attrs].
  assert (T2 : tracks [("version", Chars 40 128); ("notes", Chars 168 (size_at d p - 168))]
                 [("version", VText (decode_strip_null (bytes_at d p 40 128))); ("notes", VText (decode_strip_null (bytes_at d p 168 (size_at d p - 40 - 128))))]).
  { constructor; [split; reflexivity|]. constructor; [|constructor]. split; [reflexivity|]. cbn [snd shows]. replace (size_at d p - 40 - 128) with (size_at d p - 168) by lia. reflexivity. }
  chosen E3 T2. eapply fields_all; [exact E3|]. repeat (constructor; [reflexivity|]). constructor.
Qed.
End Records.

(** ** Whole files *)
Lemma chain_run tca d p l : valid_bytes d = true -> chain d p l -> forall n s st, io_data (vs_buf s) = d -> io_offset (vs_buf s) = Z.of_nat p ->
  vrun tca n s = Some (Ok st) ->
  exists es, vs_elements st = vs_elements s ++ es /\ Forall2 (fun x e => element_of d (fst x) (snd x) e) l es.
Proof.
  intros V. induction 1 as [|p l A K C T SZ LE _ IH|p L l A K HL LE _ IH|p l A K PO SZ _ IH]; intros n s st D O R; (destruct n as [|n]; [discriminate R|]); cbn [vrun] in R.
  - unfold vstep in R. cbv zeta in R. assert (io_at_end (vs_buf s) = true) as E by (unfold io_at_end; rewrite O, D; unfold Zlen; rewrite Z.geb_leb; lia).
    rewrite E in R. exists []. rewrite app_nil_r. split; [congruence|constructor].
  - destruct (vstep tca s) as [[s'|s']|] eqn:S; [| |discriminate R].
    + destruct (step_header d p V _ _ _ S D O C T SZ LE) as (EL & _ & D' & O').
      destruct (IH n s' st D' ltac:(unfold at_byte; lia) R) as (es & E1 & F). exists es. split; [rewrite <- EL; exact E1|exact F].
    + exfalso. exact (goes_on d p V _ _ _ A K D O S).
  - destruct (vstep tca s) as [[s'|s']|] eqn:S; [| |discriminate R].
    + destruct (step_read d p V _ _ _ _ S D O HL LE) as (e & EL & _ & EO & D' & O' & N).
      destruct (IH n s' st D' ltac:(unfold at_byte; lia) R) as (es & E1 & F). exists (e :: es). split; [rewrite E1, EL, <- app_assoc; reflexivity|constructor; [exact EO|exact F]].
    + exfalso. exact (goes_on d p V _ _ _ A K D O S).
  - destruct (vstep tca s) as [[s'|s']|] eqn:S; [| |discriminate R].
    + destruct (step_other d p V _ _ _ S D O PO SZ) as (EL & _ & D' & O').
      destruct (IH n s' st D' ltac:(unfold at_byte; lia) R) as (es & E1 & F). exists es. split; [rewrite <- EL; exact E1|exact F].
    + exfalso. exact (goes_on d p V _ _ _ A K D O S).
Qed.
