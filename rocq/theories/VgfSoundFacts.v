(** Every decoder returns exactly for sound records. *)
From Coq Require Import Lia ZifyBool ZifyNat.
From Verif Require Import Base BaseFacts Floats Strings StringsFacts Structs StructsFacts Tools ToolsFacts Order VgfBase VgfTables VgfRead SpecVgf SpecVgfLoop SpecVgfFields SpecVgfOpen VgfLoopFacts VgfFieldFacts VgfRecordFacts VgfOpenFacts.
From Coq Require Import List.
Import ListNotations.
Open Scope string_scope.
Open Scope list_scope.
Open Scope Z_scope.

Section Sound.
Variables (d : bytes) (p : nat).
Hypothesis bytes_d : valid_bytes d = true.
Local Notation here := (here d p).
Local Notation tracks := (tracks d p).
Local Notation legibles := (legibles d p).
Local Notation legible_subs := (legible_subs d p).

Definition returns (m : rd (list velem)) (L : layout) : Prop :=
  forall b, here b 40 -> Z.of_nat p + l_end L <= Zlen d -> (runs m b <-> sound d p L).

Lemma sound_parts L : sound d p L <-> legibles (l_fields L) /\ legible_subs (l_subs L) /\ meaningful d p.
Proof. reflexivity. Qed.
Lemma quiet pls : forallb (fun f => negb (demanding (snd f))) pls = true -> (legibles pls <-> True).
Proof.
  intros Q. split; [auto|]. intros _. apply Forall_forall. intros [n pl] I. rewrite forallb_forall in Q. specialize (Q _ I). cbn [snd] in *. destruct pl; try discriminate Q; exact Logic.I.
Qed.
Lemma no_subs : legible_subs [] <-> True.
Proof. split; [auto|intros _; constructor]. Qed.

Ltac size := match goal with |- context[Z.of_nat (calcsize (formats ?t))] => let v := eval vm_compute in (Z.of_nat (calcsize (formats t))) in change (Z.of_nat (calcsize (formats t))) with v end.
Ltac sized H := match type of H with VgfFieldFacts.here _ _ _ ?o => let o' := eval vm_compute in o in change o with o' in H end.
Ltac named HB e b1 T H1 := eapply step_named; [exact bytes_d|exact HB|size; lia|vm_compute; reflexivity|]; intros e b1 T H1; sized H1; cbv zeta.
Ltac select T a TA := eapply step_select; [exact T|vm_compute; reflexivity|]; intros a TA.
Ltac geti T k o := rewrite (geti_tracks d p _ _ k o T eq_refl).
Ltac latlon HB la lo b1 LA LO H1 := eapply step_latlon; [exact HB|lia|]; intros la lo b1 LA LO H1; cbv beta iota.
Ltac code lem := eapply step_code; [apply lem|]; intros ?.
Ltac done_ := apply runs_ret.
Ltac hush := rewrite !quiet by (vm_compute; reflexivity).

Ltac codes C := unfold meaningful; rewrite C; generalize (type_at d p) (version_at d p) (int_at d p 40) (int_at d p 44) (int_at d p 52); intros; lia.
Ltac codes2 C T := unfold meaningful; rewrite C, T; generalize (version_at d p) (int_at d p 40) (int_at d p 44) (int_at d p 52); intros; lia.

Lemma fronts_runs h : class_at d p = 1 -> returns (dec_fronts h) (with_points "FrontElement" front_fields 68 (int_at d p 40)).
Proof.
  intros C b HB LE. cbn [with_points l_end] in LE. rewrite sound_parts. cbn [with_points l_fields l_subs]. etransitivity.
  - unfold dec_fronts. named HB e b1 T H1. geti T "front.number_points" 40. latlon H1 la lo b2 LA LO H2. select T a TA. geti T "front.front_code" 44.
    code front_code_runs. done_.
  - hush. rewrite no_subs. codes C.
Qed.
Lemma circles_runs h : class_at d p = 12 -> returns (dec_circles h) (with_points "CircleElement" line_fields 60 (int_at d p 40)).
Proof.
  intros C b HB LE. cbn [with_points l_end] in LE. rewrite sound_parts. cbn [with_points l_fields l_subs]. etransitivity.
  - unfold dec_circles. named HB e b1 T H1. geti T "line.number_points" 40. latlon H1 la lo b2 LA LO H2. select T a TA. geti T "line.line_type" 44.
    code line_code_runs. done_.
  - hush. rewrite no_subs. codes C.
Qed.
Lemma winds_runs h : class_at d p = 6 -> returns (dec_winds h) (without_points "WindElement" wind_fields 76).
Proof.
  intros C b HB LE. cbn [without_points l_end] in LE. rewrite sound_parts. cbn [without_points l_fields l_subs]. etransitivity.
  - unfold dec_winds. named HB e b1 T H1. select T a TA. done_.
  - hush. rewrite no_subs. codes C.
Qed.
Lemma volcanoes_runs h : class_at d p = 11 -> returns (dec_volcanoes h) (without_points "VolcanoElement" volcano_fields 5916).
Proof.
  intros C b HB LE. cbn [without_points l_end] in LE. rewrite sound_parts. cbn [without_points l_fields l_subs]. etransitivity.
  - unfold dec_volcanoes. named HB e b1 T H1. select T a TA. done_.
  - hush. rewrite no_subs. codes C.
Qed.
(** What is demanding about symbols *)
Lemma legibles_demands pls pls' : filter (fun f => demanding (snd f)) pls = pls' -> (legibles pls <-> legibles pls').
Proof. intros <-. apply legibles_filter. Qed.
Lemma same_demands pls pls' : map snd (filter (fun f => demanding (snd f)) pls) = map snd (filter (fun f => demanding (snd f)) pls') -> (legibles pls <-> legibles pls').
Proof.
  intros E. rewrite (legibles_filter d p pls), (legibles_filter d p pls'). unfold VgfOpenFacts.legibles. rewrite <- (Forall_map snd (legible d p)), E, Forall_map. reflexivity.
Qed.
Lemma symbols_runs h : class_at d p = 4 -> returns (dec_symbols h) (without_points "SymbolElement" symbol_fields 76).
Proof.
  intros C b HB LE. cbn [without_points l_end] in LE. rewrite sound_parts. cbn [without_points l_fields l_subs]. etransitivity.
  - unfold dec_symbols. named HB e b1 T H1. select T a TA. done_.
  - rewrite (same_demands _ symbol_fields) by (vm_compute; reflexivity). rewrite no_subs.
    assert (M : meaningful d p) by (unfold meaningful; rewrite C; lia). tauto.
Qed.
Lemma rounded_some o n : 1 <= n -> exists x r, rounded o n = Points (x :: r).
Proof.
  intros N. unfold rounded. destruct (Z.leb_spec 1 n); [|lia]. unfold items_at. rewrite range_first by lia. cbn [map]. eauto.
Qed.
Lemma lines_runs h L : vh_closed h = closed_at d p -> class_at d p = 3 -> type_at d p = 1 -> line_layout d p = Some L -> returns (dec_lines h) L.
Proof.
  intros HC C TY HL b HB LE. unfold line_layout in HL. cbv zeta in HL. destruct (Z.leb_spec 1 (int_at d p 40)) as [N|]; [|discriminate]. apply some_inj in HL; subst L.
  cbn [l_end] in LE. rewrite sound_parts. cbn [l_fields l_subs]. destruct (rounded_some 60 _ N) as (x & r & RA). destruct (rounded_some (60 + 4 * int_at d p 40) _ N) as (y & s & RO). etransitivity.
  - unfold dec_lines. named HB e b1 T H1. geti T "line.number_points" 40. latlon H1 la lo b2 LA LO H2.
    rewrite RA in LA. rewrite RO in LO. pose proof LA as (xs & EX & _). rewrite EX. rewrite <- EX.
    eapply step_close; [exact LA|exact LO|eauto 8|]. intros x1 y1 LA1 LO1. cbv beta iota.
    select T a TA. geti T "line.line_type" 44. code line_code_runs. done_.
  - hush. rewrite no_subs. codes2 C TY.
Qed.
Lemma special_lines_runs h L : vh_closed h = closed_at d p -> class_at d p = 3 -> type_at d p = 20 -> special_line_layout d p = Some L -> returns (dec_special_lines h) L.
Proof.
  intros HC C TY HL b HB LE. unfold special_line_layout in HL. cbv zeta in HL. destruct (Z.leb_spec 1 (int_at d p 40)) as [N|]; [|discriminate]. apply some_inj in HL; subst L.
  cbn [l_end] in LE. rewrite sound_parts. cbn [l_fields l_subs]. destruct (rounded_some 64 _ N) as (x & r & RA). destruct (rounded_some (64 + 4 * int_at d p 40) _ N) as (y & s & RO). etransitivity.
  - unfold dec_special_lines. named HB e b1 T H1. geti T "special_line.number_points" 40. latlon H1 la lo b2 LA LO H2.
    rewrite RA in LA. rewrite RO in LO. pose proof LA as (xs & EX & _). rewrite EX. rewrite <- EX.
    eapply step_close; [exact LA|exact LO|eauto 8|]. intros x1 y1 LA1 LO1. cbv beta iota.
    eapply step_flip; [exact LA1|exact LO1|cbn [closing]; eauto|]. intros x2 y2 LA2 LO2. cbv beta iota.
    select T a TA. geti T "special_line.line_type" 44. code special_code_runs. done_.
  - hush. rewrite no_subs. codes2 C TY.
Qed.

(** Texts *)
Lemma legibles_app a b : legibles (a ++ b) <-> legibles a /\ legibles b.
Proof. apply Forall_app. Qed.
Lemma legibles_one k pl : legibles [(k, pl)] <-> legible d p pl.
Proof. unfold VgfOpenFacts.legibles. split; [intros F; inversion F; assumption|intros H; constructor; [exact H|constructor]]. Qed.
Lemma dtext_runs h L : vh_record_size h = size_at d p -> class_at d p = 5 -> text_layout d p "TextElement" text_fields 80 = Some L -> returns (dec_text h) L.
Proof.
  intros HS C HL b HB LE. unfold text_layout in HL. cbv zeta in HL. destruct (Z.leb_spec 0 (size_at d p - 80)) as [N|]; [|discriminate]. apply some_inj in HL; subst L.
  cbn [without_points l_end] in LE. rewrite sound_parts. cbn [without_points l_fields l_subs]. etransitivity.
  - unfold dec_text. named HB e b1 T H1. change (Z.of_nat (calcsize (formats text_info))) with 40. rewrite HS. unfold VGF_HEADER_SIZE.
    replace (size_at d p - 40 - 40) with (size_at d p - 80) by lia. eapply step_text; [exact bytes_d|exact H1|exact N|lia|]. intros s b2 TX H2.
    eapply step_select; [exact (clean_tracks d p "clean_text" _ _ _ _ _ T TX)|generalize (size_at d p - 80); intros z; vm_compute; reflexivity|]. intros a TA. done_.
  - rewrite legibles_app, legibles_one. hush. rewrite no_subs. cbn [legible]. assert (M : meaningful d p) by (unfold meaningful; rewrite C; lia). tauto.
Qed.
Lemma special_text_runs h L : vh_record_size h = size_at d p -> class_at d p = 5 -> text_layout d p "SpecialTextElement" special_text_fields 100 = Some L -> returns (dec_special_text h) L.
Proof.
  intros HS C HL b HB LE. unfold text_layout in HL. cbv zeta in HL. destruct (Z.leb_spec 0 (size_at d p - 100)) as [N|]; [|discriminate]. apply some_inj in HL; subst L.
  cbn [without_points l_end] in LE. rewrite sound_parts. cbn [without_points l_fields l_subs]. etransitivity.
  - unfold dec_special_text. named HB e b1 T H1. change (Z.of_nat (calcsize (formats special_text_info))) with 60. rewrite HS. unfold VGF_HEADER_SIZE.
    replace (size_at d p - 40 - 60) with (size_at d p - 100) by lia. eapply step_text; [exact bytes_d|exact H1|exact N|lia|]. intros s b2 TX H2.
    eapply step_select; [exact (clean_tracks d p "clean_text" _ _ _ _ _ T TX)|generalize (size_at d p - 100); intros z; vm_compute; reflexivity|]. intros a TA. done_.
  - rewrite legibles_app, legibles_one. hush. rewrite no_subs. cbn [legible]. assert (M : meaningful d p) by (unfold meaningful; rewrite C; lia). tauto.
Qed.
Lemma sigmet_runs h L : vh_version h = version_at d p -> class_at d p = 11 -> sigmet_layout d p = Some L -> returns (dec_sigmet h) L.
Proof.
  intros HV C HL b HB LE. unfold sigmet_layout in HL. cbv zeta in HL. destruct (Z.leb_spec 0 (int_at d p 44)) as [N|]; [|discriminate].
  assert (M : meaningful d p) by (unfold meaningful; rewrite C; lia). rewrite sound_parts. unfold dec_sigmet. rewrite HV.
  destruct (version_at d p =? 0); [|destruct (version_at d p =? 1); [|discriminate]]; apply some_inj in HL; subst L; cbn [l_end] in LE; cbn [l_fields l_subs]; etransitivity.
  - named HB e b1 T H1. geti T "sigmet.number_points" 44. eapply step_raw; [exact H1|exact N|lia|]. intros la b2 LA H2. eapply step_raw; [exact H2|exact N|lia|]. intros lo b3 LO H3.
    select T a TA. done_.
  - hush. rewrite no_subs. tauto.
  - named HB e b1 T H1. geti T "sigmet.number_points" 44. eapply step_raw; [exact H1|exact N|lia|]. intros la b2 LA H2. eapply step_raw; [exact H2|exact N|lia|]. intros lo b3 LO H3.
    select T a TA. done_.
  - hush. rewrite no_subs. tauto.
Qed.
Lemma lists_runs h L : class_at d p = 14 -> list_layout d p = Some L -> returns (dec_lists h) L.
Proof.
  intros C HL b HB LE. unfold list_layout in HL. cbv zeta in HL. destruct (within 0 500 (int_at d p 56)) eqn:W; [|discriminate]. apply some_inj in HL; subst L.
  assert (N : 0 <= int_at d p 56 <= 500) by (unfold within in W; lia). cbn [l_end] in LE. rewrite sound_parts. cbn [l_fields l_subs]. etransitivity.
  - unfold dec_lists. named HB e b1 T H1. geti T "list_meta.number_items" 56. unfold LIST_MEMBER_SIZE, MAX_POINTS.
    eapply (step_texts d p bytes_d "list_items"); [lia|lia|exact H1|lia|]. intros ts b2 H2. eapply step_skip; [exact H2|lia|]. intros u b3 H3.
    eapply step_raw; [exact H3|lia|lia|]. intros la b4 LA H4. eapply step_skip; [exact H4|lia|]. intros u2 b5 H5.
    eapply step_raw; [exact H5|lia|lia|]. intros lo b6 LO H6. eapply step_skip; [exact H6|lia|]. intros u3 b7 H7.
    select T a TA. geti T "list_meta.list_type" 40. geti T "list_meta.marker_type" 44. code list_codes_run. done_.
  - hush. assert (M : meaningful d p <-> 1 <= int_at d p 40 <= 5 /\ 0 <= int_at d p 44 <= 24) by codes C. tauto.
Qed.
Lemma ccf_runs h L : class_at d p = 11 -> ccf_layout d p = Some L -> returns (dec_ccf h) L.
Proof.
  intros C HL b HB LE. unfold ccf_layout in HL. cbv zeta in HL. destruct (within 0 100 (int_at d p 44)) eqn:W; [|discriminate]. apply some_inj in HL; subst L.
  assert (N : 0 <= int_at d p 44 <= 100) by (unfold within in W; lia). cbn [l_end] in LE. rewrite sound_parts. cbn [l_fields l_subs]. etransitivity.
  - unfold dec_ccf. named HB e1 b1 T1 H1. named H1 e2 b2 T2 H2. named H2 e3 b3 T3 H3. eapply step_text; [exact bytes_d|exact H3|lia|lia|]. intros s b4 TX H4. cbv zeta.
    geti T1 "ccf.number_points" 44. unfold MAX_SIGMET. eapply step_latlon; [exact H4|lia|]. intros la lo b5 LA LO H5. cbv beta iota.
    eapply step_select; [exact (tracks_app d p _ _ _ _ T1 (tracks_app d p _ _ _ _ T2 (text_tracks d p "text_layout" _ _ _ _ _ T3 TX)))|vm_compute; reflexivity|]. intros a TA.
    eapply step_skip; [exact H5|lia|]. intros u b6 H6. done_.
  - rewrite no_subs. assert (M : meaningful d p) by (unfold meaningful; rewrite C; lia).
    rewrite (legibles_demands ccf_fields) by (vm_compute; reflexivity).
    match goal with |- legibles ?x /\ legibles ?y /\ legibles ?z /\ _ <-> _ =>
      rewrite (quiet x), (quiet y) by (vm_compute; reflexivity); rewrite (legibles_demands z) by (vm_compute; reflexivity) end.
    unfold VgfOpenFacts.legibles. rewrite !Forall_cons_iff. cbn [snd legible]. rewrite !Forall_nil_iff.
    split; [intros (_ & _ & A & B & _); tauto|intros (A & _ & _); intuition lia].
Qed.
Lemma ash_runs h L : class_at d p = 11 -> ash_layout d p = Some L -> returns (dec_ash_clouds h) L.
Proof.
  intros C HL b HB LE. unfold ash_layout in HL. cbv zeta in HL. destruct (within 0 50 (int_at d p 44)) eqn:W; [|discriminate]. apply some_inj in HL; subst L.
  assert (N : 0 <= int_at d p 44 <= 50) by (unfold within in W; lia). cbn [l_end] in LE. rewrite sound_parts. cbn [l_fields l_subs]. etransitivity.
  - unfold dec_ash_clouds. named HB e1 b1 T1 H1. named H1 e2 b2 T2 H2. eapply step_text; [exact bytes_d|exact H2|lia|lia|]. intros s b4 TX H4. cbv zeta.
    eapply step_skip; [exact H4|lia|]. intros u b3 H3.
    geti T1 "ash.number_points" 44. unfold MAX_ASH. eapply step_latlon; [exact H3|lia|]. intros la lo b5 LA LO H5. cbv beta iota.
    eapply step_skip; [exact H5|lia|]. intros u2 b6 H6.
    eapply step_select; [exact (tracks_app d p _ _ _ _ T1 (text_tracks d p "text_string" _ _ _ _ _ T2 TX))|vm_compute; reflexivity|]. intros a TA. done_.
  - rewrite no_subs. assert (M : meaningful d p) by (unfold meaningful; rewrite C; lia).
    rewrite (legibles_demands ash_fields) by (vm_compute; reflexivity).
    match goal with |- legibles ?x /\ legibles ?y /\ _ <-> _ => rewrite (quiet x), (quiet y) by (vm_compute; reflexivity) end.
    rewrite legibles_one. cbn [legible]. split; [tauto|intros (A & _ & _); intuition lia].
Qed.
Lemma quiet_subs name o w n fs : forallb (fun f => negb (demanding (snd f))) fs = true -> legible_subs (subs_at name o w n fs).
Proof.
  intros Q. unfold VgfOpenFacts.legible_subs, subs_at. apply Forall_forall. intros x I. apply in_map_iff in I as (k & <- & _). cbn [fst snd].
  apply Forall_forall. intros [m pl] J. rewrite forallb_forall in Q. specialize (Q _ J). cbn [snd] in *. destruct pl; try discriminate Q; exact Logic.I.
Qed.
Lemma all_range (R : Z -> Prop) n : (forall k, R k) -> (Forall R (range n) <-> True).
Proof. intros H. split; [auto|intros _]. apply Forall_forall. auto. Qed.
Lemma gfa_runs h L : class_at d p = 15 -> type_at d p = 38 -> gfa_layout d p = Some L -> returns (dec_gfa h) L.
Proof.
  intros C TY HL b HB LE. unfold gfa_layout in HL. cbv zeta in HL. destruct (Z.leb_spec 0 (int_at d p 40)) as [N|]; [|discriminate]. apply some_inj in HL; subst L.
  cbn [l_end] in LE. rewrite sound_parts. cbn [l_fields l_subs]. etransitivity.
  - unfold dec_gfa. named HB e b1 T H1. geti T "gfa.number_blocks" 40. geti T "gfa.number_points" 44.
    eapply (step_repeat d p _ (fun _ => True) 1024); [lia|exact N|exact H1| | |].
    + intros b2 o1 HB1 L1 L2. pose proof HB1 as (_ & _ & P1). rewrite (named_runs d p bytes_d _ _ _ _ o1 [("block.value", Chars o1 1024)]); [|exact HB1|size; lia|reflexivity].
      apply quiet. reflexivity.
    + intros b2 x b3 o1 E HB1 L1 L2. eapply named_here in E; [|exact bytes_d|exact HB1|reflexivity]. destruct E as [_ E]. exact E.
    + intros bs b2 H2. eapply step_latlon; [exact H2|lia|]. intros la lo b5 LA LO H5. cbv beta iota. select T a TA. done_.
  - hush. rewrite all_range by auto. assert (S : legible_subs (subs_at "blocks" 48 1024 (int_at d p 40) [("block.value", Chars 0 1024)])) by (apply quiet_subs; reflexivity).
    assert (M : meaningful d p <-> int_at d p 44 <= 500) by codes2 C TY. tauto.
Qed.
Lemma sub_runs t var sel pls w b1 o1 : here b1 o1 -> places BE var 0 t = Some pls -> Z.of_nat (calcsize (formats t)) = w -> Z.of_nat p + o1 + w <= Zlen d ->
  forallb (fun f => negb (demanding (snd f))) pls = true -> selectable sel pls = true ->
  (runs (x <~ r_named BE var t ;; liftR (select sel x)) b1 <-> True).
Proof.
  intros HB1 PL W LE Q S. pose proof HB1 as (_ & _ & P1). apply rebase in HB1. etransitivity.
  - eapply (step_named d (at_byte p o1) bytes_d); [exact HB1|rewrite W; unfold at_byte; lia|exact PL|]. intros x b2 T _. rewrite runs_lift.
    transitivity True; [|reflexivity]. split; [auto|intros _]. eapply select_runs; eauto.
  - split; [auto|intros _]. split; [|exact I]. apply Forall_forall. intros [n pl] J. rewrite forallb_forall in Q. specialize (Q _ J). cbn [snd] in *. destruct pl; try discriminate Q; exact Logic.I.
Qed.
Lemma jet_runs h L : class_at d p = 15 -> type_at d p = 37 -> jet_layout d p = Some L -> returns (dec_jet h) L.
Proof.
  intros C TY HL b HB LE. unfold jet_layout in HL. cbv zeta in HL.
  destruct (within 0 500 (int_at d p 44)) eqn:W1; [|discriminate]. destruct (within 0 50 (u32_at d (at_byte p 4068))) eqn:W2; [|discriminate].
  destruct (within 0 50 (u32_at d (at_byte p 22072))) eqn:W3; [|discriminate]. cbn [andb] in HL. apply some_inj in HL; subst L. cbn [l_end] in LE.
  assert (N1 : 0 <= int_at d p 44 <= 500) by (unfold within in W1; lia).
  assert (N2 : 0 <= u32_at d (at_byte p 4068) <= 50) by (unfold within in W2; lia).
  assert (N3 : 0 <= u32_at d (at_byte p 22072) <= 50) by (unfold within in W3; lia). clear W1 W2 W3.
  rewrite sound_parts. cbn [l_fields l_subs]. etransitivity.
  - unfold dec_jet, MAX_POINTS, MAX_JET_POINTS. change (Z.of_nat (calcsize (formats jet_barb_info))) with 360. change (Z.of_nat (calcsize (formats jet_hash_info))) with 40.
    named HB e b1 T H1. geti T "jet_line.number_points" 44. set (n := int_at d p 44) in *. latlon H1 la lo b2 LA LO H2. select T a TA.
    eapply step_skip; [exact H2|lia|]. intros u b3 H3. eapply here_eq with (o' := 4068) in H3; [|lia].
    eapply step_uint; [exact H3|lia|]. intros b4 H4. change (4068 + 4) with 4072 in H4. set (nb := u32_at d (at_byte p 4068)) in *.
    eapply (step_repeat d p _ (fun _ => True) 360); [lia|lia|exact H4| | |].
    { intros b5 o1 HB1 L1 L2. eapply (sub_runs _ _ _ (places_of "jet_barb" jet_barb_info) 360); [exact HB1|vm_compute; reflexivity|vm_compute; reflexivity|lia|vm_compute; reflexivity|vm_compute; reflexivity]. }
    { intros b5 x b6 o1 E HB1 _ _. exact (proj2 (barb_here d p bytes_d _ _ _ _ HB1 E)). }
    intros barbs b5 H5. eapply step_skip; [exact H5|lia|]. intros u2 b6 H6. eapply here_eq with (o' := 22072) in H6; [|lia].
    eapply step_uint; [exact H6|lia|]. intros b7 H7. change (22072 + 4) with 22076 in H7. set (nh := u32_at d (at_byte p 22072)) in *.
    eapply (step_repeat d p _ (fun _ => True) 40); [lia|lia|exact H7| | |].
    { intros b8 o1 HB1 L1 L2. eapply (sub_runs _ _ _ (places_of "jet_hash" jet_hash_info) 40); [exact HB1|vm_compute; reflexivity|vm_compute; reflexivity|lia|vm_compute; reflexivity|vm_compute; reflexivity]. }
    { intros b8 x b9 o1 E HB1 _ _. exact (proj2 (hash_here d p bytes_d _ _ _ _ HB1 E)). }
    intros hashes b8 H8. eapply step_skip; [exact H8|lia|]. intros u3 b9 H9.
    assert (T2 : tracks [("number_barbs", Nat 4068); ("number_hash", Nat 22072)] [("number_barbs", VInt nb); ("number_hash", VInt nh)]) by repeat constructor.
    select T2 a2 TA2. done_.
  - hush. rewrite !all_range by auto.
    assert (M : meaningful d p) by (unfold meaningful; rewrite C, TY; lia).
    assert (S : legible_subs (("line_attribute", 0, jet_line_fields) :: subs_at "barb_attributes" 4072 360 (u32_at d (at_byte p 4068)) barb_fields ++ subs_at "hash_attributes" 22076 40 (u32_at d (at_byte p 22072)) hash_fields)).
    { constructor; [|apply Forall_app; split; apply quiet_subs; reflexivity]. cbn [fst snd]. apply Forall_forall. intros [k pl] J.
      assert (Q : forallb (fun f : string * place => negb (demanding (snd f))) jet_line_fields = true) by reflexivity. rewrite forallb_forall in Q. specialize (Q _ J). cbn [snd] in *. destruct pl; try discriminate Q; exact Logic.I. }
    intuition lia.
Qed.
(** Storm tracks *)
Lemma step_sure {A B} (m : rd A) (f : A -> rd B) b P : runs m b -> (forall a b1, m b = Ok (a, b1) -> (runs (f a) b1 <-> P)) -> (runs (bindR m f) b <-> P).
Proof. intros R F. transitivity (True /\ P); [|tauto]. apply runs_bind; [apply always, R|exact F]. Qed.
Lemma sure_named e var t b o pls : here b o -> Z.of_nat p + o + Z.of_nat (calcsize (formats t)) <= Zlen d -> places e var o t = Some pls ->
  forallb (fun f => negb (demanding (snd f))) pls = true -> runs (r_named e var t) b.
Proof. intros HB LE PL Q. apply (named_runs d p bytes_d e var t b o pls HB LE PL). apply quiet; auto. Qed.
Ltac sure HB := eapply sure_named; [exact HB|size; lia|vm_compute; reflexivity|vm_compute; reflexivity].
Lemma tracks_runs h L : class_at d p = 10 -> track_layout d p = Some L -> returns (dec_tracks h) L.
Proof.
  intros C HL b HB LE. unfold track_layout in HL. cbv zeta in HL. destruct (within 0 50 (int_at d p 44)) eqn:W; [|discriminate].
  assert (N : 0 <= int_at d p 44 <= 50) by (unfold within in W; lia).
  assert (LE2 : Z.of_nat p + 1384 <= Zlen d).
  { destruct (within (-3) 4 (int_at d p 84)); cbn [negb] in HL; [destruct (within 0 33 (int_at d p 88)); cbn [negb] in HL|]; apply some_inj in HL; subst L; cbn [l_end] in LE; lia. }
  assert (M : meaningful d p) by (unfold meaningful; rewrite C; lia). rewrite sound_parts. unfold dec_tracks.
  eapply step_sure; [do 2 eexists; reflexivity|]. intros mark b0 E0. unfold r_mark, io_set_mark in E0.
  assert (EM : mark = Zlen (io_marks b)) by congruence. assert (EB : b0 = mk_iobuf (io_data b) (io_offset b) (io_marks b ++ [io_offset b])) by congruence.
  assert (H0 : here b0 40) by (rewrite EB; exact HB). assert (M0 : io_marks b0 = io_marks b ++ [io_offset b]) by (rewrite EB; reflexivity). clear E0 EB.
  eapply step_sure; [sure H0|]. intros e0 b1 E1. pose proof (named_inv _ _ _ _ _ _ E1) as (_ & M1 & _).
  eapply named_here in E1; [|exact bytes_d|exact H0|vm_compute; reflexivity]. destruct E1 as [T H1]. sized H1.
  eapply step_sure; [sure H1|]. intros sz b2 E2. pose proof (named_inv _ _ _ _ _ _ E2) as (_ & M2 & _).
  eapply named_here in E2; [|exact bytes_d|exact H1|vm_compute; reflexivity]. destruct E2 as [T2 H2]. sized H2. cbv zeta.
  geti T "track.skip" 84. geti T "track.font" 88.
  assert (J : r_jump mark b2 = Ok (tt, mk_iobuf (io_data b2) (io_offset b) (io_marks b2))) by (rewrite EM; apply jump_back; congruence).
  assert (HJ : here (mk_iobuf (io_data b2) (io_offset b) (io_marks b2)) 40).
  { destruct HB as (D & O & _). destruct H2 as (D2 & _). repeat split; cbn; [exact D2|exact O|lia]. }
  assert (REST : forall fs o spl pls e size b3, L = mk_layout "TrackElement" fs (subs_at "times" o 18 (int_at d p 44) [("value", Text 0 18)]) []
                     (rounded (o + 900) (int_at d p 44)) (rounded (o + 900 + 4 * int_at d p 44) (int_at d p 44)) (o + 1300) ->
            forallb (fun f => negb (demanding (snd f))) fs = true -> here b3 o -> tracks pls e -> find_place "track.total_points" pls = Some (Int 44) -> shows d p spl size ->
            selectable TrackElement_sel (pls ++ [("track_font_size", spl)]) = true ->
            (runs (let n := geti e "track.total_points" in
               times <~ repeatR (Z.to_nat n) (read_text TRACK_DT_SIZE) ;; _ <~ r_skip ((MAX_TRACKS - n) * TRACK_DT_SIZE) ;;
               '(lat, lon) <~ get_latlon n ;; _ <~ r_skip (8 * (MAX_TRACKS - n)) ;;
               a <~ liftR (select TrackElement_sel (e ++ [("track_font_size", size)])) ;;
               retR [mk_velem "TrackElement" h a (items "times" times) [] lat lon]) b3 <->
             legibles (l_fields L) /\ legible_subs (l_subs L) /\ meaningful d p)).
  { intros fs o spl pls e size b3 EL Q H3 T3 F3 S3 FS. subst L. cbn [l_end] in LE. cbn [l_fields l_subs]. pose proof H3 as (_ & _ & O3). cbv zeta.
    rewrite (geti_tracks d p _ _ "track.total_points" 44 T3 F3). unfold MAX_TRACKS, TRACK_DT_SIZE. etransitivity.
    - eapply (step_texts d p bytes_d "times"); [lia|lia|exact H3|lia|]. intros ts b4 H4. eapply step_skip; [exact H4|lia|]. intros u b5 H5.
      eapply step_latlon; [exact H5|lia|]. intros la lo b6 LA LO H6. cbv beta iota. eapply step_skip; [exact H6|lia|]. intros u2 b7 H7.
      assert (TT : tracks (pls ++ [("track_font_size", spl)]) (e ++ [("track_font_size", size)])).
      { apply tracks_app; [exact T3|]. constructor; [split; [reflexivity|exact S3]|constructor]. }
      eapply step_select; [exact TT|exact FS|]. intros a TA. done_.
    - rewrite (quiet fs Q). intuition lia. }
  destruct (within (-3) 4 (int_at d p 84)) eqn:W1; cbn [negb] in HL.
  - destruct (Z.ltb_spec (int_at d p 84) (-3)); [unfold within in W1; lia|]. destruct (Z.ltb_spec 4 (int_at d p 84)); [unfold within in W1; lia|]. cbn [orb].
    destruct (within 0 33 (int_at d p 88)) eqn:W2; cbn [negb] in HL; apply some_inj in HL.
    + destruct (Z.ltb_spec (int_at d p 88) 0); [unfold within in W2; lia|]. destruct (Z.ltb_spec 33 (int_at d p 88)); [unfold within in W2; lia|]. cbn [orb].
      eapply step_sure; [do 2 eexists; reflexivity|]. intros es b3 E3. apply ret_one in E3 as (-> & ->). cbv beta iota.
      eapply (REST _ 100 (RealLE 96 1)); [symmetry; exact HL|vm_compute; reflexivity|exact H2|exact T|reflexivity| |vm_compute; reflexivity].
      pose proof (find_tracks d p "size.value" _ _ T2) as (v & V & SV). unfold getf. rewrite V. cbn [shows] in SV. rewrite SV. reflexivity.
    + assert (K : (int_at d p 88 <? 0) || (33 <? int_at d p 88) = true) by (unfold within in W2; lia). rewrite K.
      assert (RJ : runs (_ <~ r_jump mark ;; e2 <~ r_named BE "track" track_info_skip ;; retR (e2, VFloat (of_Z 1))) b2).
      { refine (proj2 (step_sure _ _ _ True _ _) I); [unfold runs; rewrite J; eauto|]. intros u b4 E4. rewrite J in E4. assert (b4 = mk_iobuf (io_data b2) (io_offset b) (io_marks b2)) as -> by congruence.
        eapply step_sure; [sure HJ|]. intros. done_. }
      eapply step_sure; [exact RJ|]. intros es b3 E3. destruct es as [e size]. apply bind_inv in E3 as (u & b4 & E4 & E3). rewrite J in E4.
      assert (b4 = mk_iobuf (io_data b2) (io_offset b) (io_marks b2)) as -> by congruence. apply bind_inv in E3 as (e2 & b5 & E5 & E3).
      eapply named_here in E5; [|exact bytes_d|exact HJ|vm_compute; reflexivity]. destruct E5 as [T3 HN]. sized HN. apply ret_one in E3 as (EE & ->). injection EE as -> ->. cbv beta iota.
      eapply (REST _ 88 (Fixed (VFloat (of_Z 1)))); [symmetry; exact HL|vm_compute; reflexivity|exact HN|exact T3|reflexivity|reflexivity|vm_compute; reflexivity].
  - assert (K : (int_at d p 84 <? -3) || (4 <? int_at d p 84) = true) by (unfold within in W1; lia). rewrite K. apply some_inj in HL.
    assert (RJ : runs (_ <~ r_jump mark ;; e2 <~ r_named BE "track" track_info_old ;; retR (e2, VFloat (of_Z 1))) b2).
    { refine (proj2 (step_sure _ _ _ True _ _) I); [unfold runs; rewrite J; eauto|]. intros u b4 E4. rewrite J in E4. assert (b4 = mk_iobuf (io_data b2) (io_offset b) (io_marks b2)) as -> by congruence.
      eapply step_sure; [sure HJ|]. intros. done_. }
    eapply step_sure; [exact RJ|]. intros es b3 E3. destruct es as [e size]. apply bind_inv in E3 as (u & b4 & E4 & E3). rewrite J in E4.
    assert (b4 = mk_iobuf (io_data b2) (io_offset b) (io_marks b2)) as -> by congruence. apply bind_inv in E3 as (e2 & b5 & E5 & E3).
    eapply named_here in E5; [|exact bytes_d|exact HJ|vm_compute; reflexivity]. destruct E5 as [T3 HN]. sized HN. apply ret_one in E3 as (EE & ->). injection EE as -> ->. cbv beta iota.
    eapply (REST _ 84 (Fixed (VFloat (of_Z 1)))); [symmetry; exact HL|vm_compute; reflexivity|exact HN|exact T3|reflexivity|reflexivity|vm_compute; reflexivity].
Qed.

(** Watch boxes *)
Lemma counties_run v n b o : here b o -> 0 <= n <= county_room v ->
  Z.of_nat p + (if 2 <=? v then county_lat_at v o + 8 * county_room v else o) <= Zlen d -> runs (watch_counties v n) b.
Proof.
  intros HB N LE. pose proof HB as (_ & _ & O). assert (CR : 200 <= county_room v) by (unfold county_room; destruct (v <=? 4); lia).
  unfold county_lat_at in LE. unfold watch_counties. cbv zeta.
  assert (MR : (if v <=? 4 then MAX_COUNTIES_LEGACY else MAX_COUNTIES) = county_room v) by reflexivity. rewrite MR. clear MR. set (room := county_room v) in *. clearbody room.
  destruct (Z.leb_spec v 1) as [V1|V1]; [do 2 eexists; reflexivity|]. destruct (Z.leb_spec 2 v) as [_|]; [|lia].
  refine (proj2 (_ : _ <-> True) I).
  assert (INTS : forall b1 o1, here b1 o1 -> Z.of_nat p + o1 + 4 * room <= Zlen d -> runs (x <~ int_array n ;; _ <~ r_skip (4 * (room - n)) ;; retR x) b1).
  { intros b1 o1 H1 L1. pose proof H1 as (_ & _ & P1). refine (proj2 (_ : _ <-> True) I). eapply step_ints; [exact H1|lia|lia|]. intros x b2 H2. eapply step_skip; [exact H2|lia|]. intros u b3 H3. done_. }
  assert (AFTER : forall b1 o1 x b2, here b1 o1 -> (x <~ int_array n ;; _ <~ r_skip (4 * (room - n)) ;; retR x) b1 = Ok (x, b2) -> here b2 (o1 + 4 * room)).
  { intros b1 o1 x b2 H1 E. pose proof H1 as (_ & _ & P1). apply bind_inv in E as (y & b3 & E1 & E). apply bind_inv in E as (u & b4 & E2 & E). apply ret_one in E as (-> & ->).
    eapply ints_here in E1 as (_ & H3); [|exact H1|lia]. eapply skip_here in E2; [|exact H3|lia]. eapply here_eq; [exact E2|lia]. }
  assert (EW : within 2 4 v = (v <=? 4)) by (unfold within; lia). rewrite EW in LE.
  eapply step_sure.
  { destruct (v <=? 4); [|do 2 eexists; reflexivity]. apply (INTS b o HB). destruct (4 <=? v); lia. }
  intros st b1 E1. assert (H1 : here b1 (o + (if v <=? 4 then 4 * room else 0))).
  { destruct (v <=? 4); [eapply AFTER; eauto|apply ret_one in E1 as (-> & ->); eapply here_eq; [exact HB|lia]]. }
  set (o1 := o + (if v <=? 4 then 4 * room else 0)) in *. assert (0 <= o1) by (subst o1; destruct (v <=? 4); lia).
  eapply step_sure.
  { destruct (4 <=? v); [|do 2 eexists; reflexivity]. apply (INTS b1 o1 H1). lia. }
  intros fips b2 E2. assert (H2 : here b2 (o1 + (if 4 <=? v then 4 * room else 0))).
  { destruct (4 <=? v); [eapply AFTER; eauto|apply ret_one in E2 as (-> & ->); eapply here_eq; [exact H1|lia]]. }
  set (o2 := o1 + (if 4 <=? v then 4 * room else 0)) in *. assert (0 <= o2) by (subst o2; destruct (4 <=? v); lia).
  eapply step_raw; [exact H2|lia|lia|]. intros la b3 LA H3. eapply step_raw; [exact H3|lia|lia|]. intros lo b4 LO H4. eapply step_skip; [exact H4|lia|]. intros u b5 H5. done_.
Qed.
Lemma raw_some o n : 1 <= n -> exists x r, raw o n = Points (x :: r).
Proof. intros N. unfold raw, items_at. rewrite range_first by lia. cbn [map]. eauto. Qed.
Lemma watch_returns h L t fs o nc : vh_version h = version_at d p -> class_at d p = 2 -> watch_info (version_at d p) = Some t ->
  places BE "watch" 40 t = Some (watch_places t) -> 40 + Z.of_nat (calcsize (formats t)) = o ->
  find_place "watch.number_points" (watch_places t) = Some (Int 40) ->
  (forall e, tracks (watch_places t) e -> geti e "watch.number_counties" = nc) ->
  forallb (fun f => negb (demanding (snd f))) (watch_places t) = true -> forallb (fun f => negb (demanding (snd f))) fs = true ->
  selectable WatchBoxElement_sel (watch_places t) = true ->
  (forall a, tracks (selected WatchBoxElement_sel (watch_places t)) a -> geti a "marker_type" = (if version_at d p =? 6 then int_at d p 52 else 1)) ->
  watch_at d p fs o nc = Some L -> returns (dec_watches h) L.
Proof.
  intros HV C WI PL SZ FP NC Q1 Q2 SE MK HL b HB LE. unfold dec_watches. rewrite HV, WI. unfold watch_at in HL. cbv zeta in HL. rewrite sound_parts.
  set (v := version_at d p) in *. set (pls := watch_places t) in *. clearbody pls.
  destruct (Z.leb_spec 0 (int_at d p 40)) as [N1|]; [|discriminate HL].
  destruct (within 0 (county_room v) nc) eqn:W; [|discriminate HL]. cbn [andb] in HL. apply some_inj in HL; subst L. cbn [l_end] in LE. cbn [l_fields l_subs].
  assert (N2 : 0 <= nc <= county_room v) by (clear - W; unfold within in W; lia).
  assert (LO1 : o <= (if 2 <=? v then county_lat_at v o + 8 * county_room v else o)).
  { unfold county_lat_at, county_room. destruct (v <=? 4), (within 2 4 v), (4 <=? v), (2 <=? v); lia. }
  set (q := if 2 <=? v then county_lat_at v o + 8 * county_room v else o) in *.
  etransitivity.
  - eapply step_named; [exact bytes_d|exact HB|lia|exact PL|]. intros e b1 T H1. rewrite SZ in H1. rewrite (NC _ T). cbv zeta.
    rewrite (geti_tracks d p _ _ "watch.number_points" 40 T FP).
    eapply step_sure; [eapply counties_run; [exact H1|exact N2|fold q; lia]|]. intros arrs b2 E2. apply (counties_here d p) with (o := o) in E2 as (_ & H2); [|exact H1|exact N2].
    fold q in H2. eapply step_raw; [exact H2|exact N1|lia|]. intros la b3 LA H3. eapply step_raw; [exact H3|exact N1|lia|]. intros lo b4 LO H4.
    eapply step_close; [exact LA|exact LO| |].
    { intros G. destruct (raw_some q (int_at d p 40) ltac:(lia)) as (x & r & ->). destruct (raw_some (q + 4 * int_at d p 40) (int_at d p 40) ltac:(lia)) as (y & s & ->). eauto 8. }
    intros x y _ _. cbv beta iota. eapply step_select; [exact T|exact SE|]. intros a TA. rewrite (MK a TA). code watch_code_runs. done_.
  - rewrite (quiet pls Q1), (quiet fs Q2), no_subs. unfold meaningful. rewrite C. fold v. destruct (Z.eqb_spec v 6); lia.
Qed.
Lemma marker_1 pls a : tracks pls a -> find_place "marker_type" pls = Some (Fixed (VInt 1)) -> geti a "marker_type" = 1.
Proof. intros T F. eapply geti_shown; [exact T|exact F|]. intros v ->. reflexivity. Qed.
Ltac watch_version HV C HL E t fs o :=
  eapply (watch_returns _ _ t fs o);
  [exact HV|exact C|rewrite E; reflexivity|vm_compute; reflexivity|vm_compute; reflexivity|vm_compute; reflexivity|
  |vm_compute; reflexivity|vm_compute; reflexivity|vm_compute; reflexivity| |exact HL].
Lemma watches_runs h L : vh_version h = version_at d p -> class_at d p = 2 -> watch_layout d p = Some L -> returns (dec_watches h) L.
Proof.
  intros HV C HL. unfold watch_layout in HL. cbv zeta in HL.
  destruct (Z.eqb_spec (version_at d p) 0) as [E|_].
  { watch_version HV C HL E watch_info_0 watch_fields_0 188; [intros e T; eapply geti_none; [exact T|vm_compute; reflexivity]|intros a T; rewrite E; eapply marker_1; [exact T|vm_compute; reflexivity]]. }
  destruct (Z.eqb_spec (version_at d p) 1) as [E|_].
  { watch_version HV C HL E watch_info_1 watch_fields_1 684; [intros e T; eapply geti_none; [exact T|vm_compute; reflexivity]|intros a T; rewrite E; eapply marker_1; [exact T|vm_compute; reflexivity]]. }
  destruct (Z.eqb_spec (version_at d p) 2) as [E|_].
  { watch_version HV C HL E watch_info_2 watch_fields_2 692; [intros e T; eapply geti_tracks; [exact T|vm_compute; reflexivity]|intros a T; rewrite E; eapply marker_1; [exact T|vm_compute; reflexivity]]. }
  destruct (Z.eqb_spec (version_at d p) 3) as [E|_].
  { watch_version HV C HL E watch_info_3 watch_fields_3 740; [intros e T; eapply geti_tracks; [exact T|vm_compute; reflexivity]|intros a T; rewrite E; eapply marker_1; [exact T|vm_compute; reflexivity]]. }
  destruct (Z.eqb_spec (version_at d p) 4) as [E|_].
  { watch_version HV C HL E watch_info_4 watch_fields_4 860; [intros e T; eapply geti_tracks; [exact T|vm_compute; reflexivity]|intros a T; rewrite E; eapply marker_1; [exact T|vm_compute; reflexivity]]. }
  destruct (Z.eqb_spec (version_at d p) 5) as [E|_].
  { watch_version HV C HL E watch_info_5 watch_fields_5 860; [intros e T; eapply geti_tracks; [exact T|vm_compute; reflexivity]|intros a T; rewrite E; eapply marker_1; [exact T|vm_compute; reflexivity]]. }
  destruct (Z.eqb_spec (version_at d p) 6) as [E|_]; [|discriminate HL].
  watch_version HV C HL E watch_info_6 watch_fields_6 872; [intros e T; eapply geti_tracks; [exact T|vm_compute; reflexivity]|intros a T; rewrite E; eapply geti_tracks; [exact T|vm_compute; reflexivity]].
Qed.

(** Which decoder reads which record *)
Lemma elems_runs m L b : returns m L -> here b 40 -> Z.of_nat p + l_end L <= Zlen d -> (runs (elems m) b <-> sound d p L).
Proof.
  intros R HB LE. rewrite <- (R b HB LE). unfold elems. transitivity (runs m b /\ True); [|tauto]. apply runs_bind; [reflexivity|]. intros. apply runs_ret.
Qed.
Lemma dispatch_runs tca h L b : has_header d p h -> here b 40 -> layout_at d p = Some L -> Z.of_nat p + l_end L <= Zlen d ->
  (runs (dispatch tca h) b <-> sound d p L).
Proof.
  intros HH HB HL LE. destruct HH as (_ & HT & HC & _ & HCL & _ & HV & _ & _ & _ & _ & HS & _).
  unfold dispatch. cbv zeta. unfold layout_at in HL. cbv zeta in HL.
  change (nth (p + 2) d 0) with (class_at d p) in HC. change (nth (p + 1) d 0) with (type_at d p) in HT. change (nth (p + 4) d 0) with (closed_at d p) in HCL.
  change (nth (p + 6) d 0) with (version_at d p) in HV. assert (HS' : vh_record_size h = size_at d p) by exact HS. clear HS.
  rewrite HC, HT. clear HC HT. remember (class_at d p) as c eqn:EC. remember (type_at d p) as t eqn:ET. symmetry in EC, ET.
  unfold within, between in *.
  destruct (Z.eqb_spec c 0) as [C0|C0]; [rewrite C0 in HL; vm_compute in HL; discriminate HL|]. cbn [andb].
  destruct (Z.eqb_spec c 1) as [C|_]. { subst c. apply some_inj in HL; subst L. apply elems_runs; [apply fronts_runs; assumption|exact HB|exact LE]. }
  destruct (Z.eqb_spec c 2) as [C|_]. { rewrite C in *. cbn [Z.eqb Pos.eqb]. apply elems_runs; [apply watches_runs; assumption|exact HB|exact LE]. }
  destruct (Z.eqb_spec c 3) as [C|_].
  { rewrite C in *. cbn [Z.eqb Pos.eqb]. destruct (Z.eqb_spec t 1) as [T|_]. { rewrite T in *. apply elems_runs; [apply lines_runs; assumption|exact HB|exact LE]. }
    destruct (Z.eqb_spec t 20) as [T|_]; [|discriminate HL]. rewrite T in *. apply elems_runs; [apply special_lines_runs; assumption|exact HB|exact LE]. }
  destruct (Z.eqb_spec c 4) as [C|_]. { rewrite C in *. apply some_inj in HL; subst L. apply elems_runs; [apply symbols_runs; assumption|exact HB|exact LE]. }
  destruct (Z.eqb_spec c 5) as [C|_].
  { rewrite C in *. cbn [Z.eqb Pos.eqb]. destruct (Z.leb_spec 17 t); destruct (Z.leb_spec t 18); cbn [andb] in HL.
    - assert ((t =? 17) || (t =? 18) = true) as E by lia. rewrite E. apply elems_runs; [apply dtext_runs; assumption|exact HB|exact LE].
    - assert ((t =? 17) || (t =? 18) = false) as E by lia. rewrite E. destruct (Z.eqb_spec t 21); [|discriminate HL].
      apply elems_runs; [apply special_text_runs; assumption|exact HB|exact LE].
    - destruct (Z.eqb_spec t 21); [lia|discriminate HL].
    - lia. }
  destruct (Z.eqb_spec c 6) as [C|_]. { rewrite C in *. cbn [Z.eqb Pos.eqb]. apply some_inj in HL; subst L. apply elems_runs; [apply winds_runs; assumption|exact HB|exact LE]. }
  destruct (Z.eqb_spec c 10) as [C|_]. { rewrite C in *. cbn [Z.eqb Pos.eqb]. apply elems_runs; [apply tracks_runs; assumption|exact HB|exact LE]. }
  destruct (Z.eqb_spec c 11) as [C|_].
  { rewrite C in *. cbn [Z.eqb Pos.eqb]. destruct ((27 <=? t) && (t <=? 31)). { apply elems_runs; [apply sigmet_runs; assumption|exact HB|exact LE]. }
    destruct (Z.eqb_spec t 32). { apply elems_runs; [apply ccf_runs; assumption|exact HB|exact LE]. }
    destruct (Z.eqb_spec t 35). { apply some_inj in HL; subst L. apply elems_runs; [apply volcanoes_runs; assumption|exact HB|exact LE]. }
    destruct (Z.eqb_spec t 36); [|discriminate HL]. apply elems_runs; [apply ash_runs; assumption|exact HB|exact LE]. }
  destruct (Z.eqb_spec c 12) as [C|_].
  { rewrite C in *. cbn [Z.eqb Pos.eqb andb] in HL |- *. destruct (Z.eqb_spec t 4); [|discriminate HL].
    apply some_inj in HL; subst L. apply elems_runs; [apply circles_runs; assumption|exact HB|exact LE]. }
  cbn [andb] in HL. destruct (Z.eqb_spec c 14) as [C|_]. { rewrite C in *. cbn [Z.eqb Pos.eqb]. apply elems_runs; [apply lists_runs; assumption|exact HB|exact LE]. }
  destruct (Z.eqb_spec c 15) as [C|_]; [|discriminate HL]. rewrite C in *.
  destruct (Z.eqb_spec t 37) as [T|_]. { rewrite T in *. cbn [Z.eqb Pos.eqb]. apply elems_runs; [apply jet_runs; assumption|exact HB|exact LE]. }
  destruct (Z.eqb_spec t 38) as [T|_]; [|discriminate HL]. rewrite T in *. apply elems_runs; [apply gfa_runs; assumption|exact HB|exact LE].
Qed.

(** One round of the reader *)
Lemma header_reads b : 0 <= io_offset b -> io_offset b + 40 <= Zlen (io_data b) -> exists h b1, read_header b = Ok (h, b1).
Proof.
  intros O L. assert (E : r_struct BE (formats vgf_header_info) b = Ok (unpack_vals BE (formats vgf_header_info) (skipn (Z.to_nat (io_offset b)) (io_data b)), io_skip (Some 40) b)).
  { unfold r_struct, io_read_struct, struct_unpack_from. change (Z.of_nat (calcsize (formats vgf_header_info))) with 40.
    destruct (Z.ltb_spec (io_offset b) 0); [lia|]. destruct (Z.ltb_spec (Zlen (io_data b) - io_offset b) 40); [lia|]. reflexivity. }
  unfold read_header, r_named, bindR. rewrite E. eexists. eexists. reflexivity.
Qed.
Lemma step_dispatch tca s : accepted d p -> known_at d p -> io_data (vs_buf s) = d -> io_offset (vs_buf s) = Z.of_nat p ->
  exists h b, has_header d p h /\ here b 40 /\ ((exists s', vstep tca s = Ok (inl s')) <-> runs (dispatch tca h) b).
Proof.
  intros A K D O. pose proof (fun s' => goes_on d p bytes_d tca s s' A K D O) as GO. destruct A as (A1 & A2 & A3 & A4 & A5).
  destruct (header_reads (vs_buf s)) as (h & b & RH); [lia|rewrite D, O; unfold Zlen; lia|]. exists h, b.
  destruct (header_here d p bytes_d _ _ _ RH) as (HH & HB); [repeat split; [exact D|lia|lia]|]. split; [exact HH|]. split; [exact HB|].
  unfold vstep in *. cbv zeta in *. rewrite not_at_end in * by (rewrite ?O, ?D; unfold Zlen; lia). rewrite RH in *.
  destruct (invalid_header h (io_len b)); [exfalso; eapply GO; reflexivity|]. unfold runs.
  destruct (dispatch tca h b) as [[[l|x] b2]|]; split; intros; eauto.
  - destruct H as [? H]; discriminate H.
  - destruct H as (? & ? & H); discriminate H.
Qed.
Lemma step_returns tca s L : accepted d p -> known_at d p -> io_data (vs_buf s) = d -> io_offset (vs_buf s) = Z.of_nat p ->
  layout_at d p = Some L -> Z.of_nat p + l_end L <= Zlen d -> ((exists s', vstep tca s = Ok (inl s')) <-> sound d p L).
Proof.
  intros A K D O HL LE. destruct (step_dispatch tca s A K D O) as (h & b & HH & HB & E). rewrite E. apply dispatch_runs; assumption.
Qed.
Lemma step_passes tca s : accepted d p -> known_at d p -> io_data (vs_buf s) = d -> io_offset (vs_buf s) = Z.of_nat p ->
  passed_over (class_at d p) (type_at d p) = true -> exists s', vstep tca s = Ok (inl s').
Proof.
  intros A K D O PO. destruct (step_dispatch tca s A K D O) as (h & b & HH & HB & E). apply E. destruct HH as (_ & HT & HC & _).
  change (nth (p + 2) d 0) with (class_at d p) in HC. change (nth (p + 1) d 0) with (type_at d p) in HT.
  unfold dispatch. cbv zeta. rewrite HC, HT. clear - PO. set (c := class_at d p) in *. set (t := type_at d p) in *. clearbody c t.
  unfold passed_over, within, between in *.
  repeat match goal with
         | |- context[Z.eqb c ?k] => destruct (Z.eqb_spec c k); [subst c; cbn [Z.eqb Pos.eqb andb negb orb] in PO |- *|]; cbn [andb]
         | |- context[Z.eqb t ?k] => destruct (Z.eqb_spec t k); [exfalso; subst t; cbn in PO; discriminate PO|]; cbn [andb orb]
         | |- context[(27 <=? t) && (t <=? 31)] => destruct ((27 <=? t) && (t <=? 31)) eqn:?; [exfalso; lia|]
         end; try (do 2 eexists; reflexivity); exfalso; lia.
Qed.
Lemma step_opens_header tca s : accepted d p -> known_at d p -> io_data (vs_buf s) = d -> io_offset (vs_buf s) = Z.of_nat p ->
  class_at d p = 0 -> type_at d p = 22 -> 168 <= size_at d p -> Z.of_nat p + size_at d p <= Zlen d -> exists s', vstep tca s = Ok (inl s').
Proof.
  intros A K D O C T SZ LE. destruct (step_dispatch tca s A K D O) as (h & b & HH & HB & E). apply E. destruct HH as (_ & HT & HC & _ & _ & _ & _ & _ & _ & _ & _ & HS & _).
  change (nth (p + 2) d 0) with (class_at d p) in HC. change (nth (p + 1) d 0) with (type_at d p) in HT. change (int_at d p 20) with (size_at d p) in HS.
  unfold dispatch. cbv zeta. rewrite HC, HT, C, T. cbn [Z.eqb Pos.eqb andb].
  assert (R : runs (dec_file_header h) b).
  { unfold dec_file_header, runs, bindR. rewrite HS. change VGF_HEADER_SIZE with 40. do 2 eexists. reflexivity. }
  refine (proj2 (step_sure _ _ _ True R _) I). intros. apply runs_ret.
Qed.
End Sound.

(** Whole files *)
Lemma chain_opens tca d p l : valid_bytes d = true -> chain d p l -> forall s, io_data (vs_buf s) = d -> io_offset (vs_buf s) = Z.of_nat p ->
  ((exists n st, vrun tca n s = Some (Ok st)) <-> Forall (fun x => sound d (fst x) (snd x)) l).
Proof.
  intros V. induction 1 as [|p l A K C T SZ LE _ IH|p L l A K HL LE _ IH|p l A K PO SZ _ IH]; intros s D O.
  - split; [constructor|]. intros _. exists 1%nat. cbn [vrun]. unfold vstep. cbv zeta.
    assert (io_at_end (vs_buf s) = true) as -> by (unfold io_at_end; rewrite O, D; unfold Zlen; rewrite Z.geb_leb; lia). eauto.
  - destruct (step_opens_header d p V tca s A K D O C T SZ LE) as (s' & S). destruct (step_header d p V _ _ _ S D O C T SZ LE) as (_ & _ & D' & O').
    rewrite <- (IH s' D' ltac:(unfold at_byte; lia)). split; intros (n & st & R).
    + destruct n as [|n]; [discriminate R|]. cbn [vrun] in R. rewrite S in R. eauto.
    + exists (Datatypes.S n), st. cbn [vrun]. rewrite S. exact R.
  - pose proof (step_returns d p V tca s L A K D O HL LE) as SR. split.
    + intros (n & st & R). destruct n as [|n]; [discriminate R|]. cbn [vrun] in R. destruct (vstep tca s) as [[s'|s']|] eqn:S; [| |discriminate R].
      * destruct (step_read d p V _ _ _ _ S D O HL LE) as (e & _ & _ & _ & D' & O' & N). constructor; [cbn [fst snd]; apply SR; eauto|].
        apply (IH s' D' ltac:(unfold at_byte; lia)). eauto.
      * exfalso. exact (goes_on d p V _ _ _ A K D O S).
    + intros F. pose proof (Forall_inv F) as F1. apply Forall_inv_tail in F as F2. cbn [fst snd] in F1. apply SR in F1 as (s' & S). destruct (step_read d p V _ _ _ _ S D O HL LE) as (e & _ & _ & _ & D' & O' & N).
      apply (IH s' D' ltac:(unfold at_byte; lia)) in F2 as (n & st & R). exists (Datatypes.S n), st. cbn [vrun]. rewrite S. exact R.
  - destruct (step_passes d p V tca s A K D O PO) as (s' & S). destruct (step_other d p V _ _ _ S D O PO SZ) as (_ & _ & D' & O').
    rewrite <- (IH s' D' ltac:(unfold at_byte; lia)). split; intros (n & st & R).
    + destruct n as [|n]; [discriminate R|]. cbn [vrun] in R. rewrite S in R. eauto.
    + exists (Datatypes.S n), st. cbn [vrun]. rewrite S. exact R.
Qed.
Lemma chain_ends tca d p l : valid_bytes d = true -> chain d p l -> forall s, io_data (vs_buf s) = d -> io_offset (vs_buf s) = Z.of_nat p ->
  exists n r, vrun tca n s = Some r.
Proof.
  intros V. induction 1 as [|p l A K C T SZ LE _ IH|p L l A K HL LE _ IH|p l A K PO SZ _ IH]; intros s D O.
  - exists 1%nat. cbn [vrun]. unfold vstep. cbv zeta.
    assert (io_at_end (vs_buf s) = true) as -> by (unfold io_at_end; rewrite O, D; unfold Zlen; rewrite Z.geb_leb; lia). eauto.
  - destruct (step_opens_header d p V tca s A K D O C T SZ LE) as (s' & S). destruct (step_header d p V _ _ _ S D O C T SZ LE) as (_ & _ & D' & O').
    destruct (IH s' D' ltac:(unfold at_byte; lia)) as (n & r & R). exists (Datatypes.S n), r. cbn [vrun]. rewrite S. exact R.
  - destruct (vstep tca s) as [[s'|s']|x] eqn:S; [|exists 1%nat; cbn [vrun]; rewrite S; eauto|exists 1%nat; cbn [vrun]; rewrite S; eauto].
    destruct (step_read d p V _ _ _ _ S D O HL LE) as (e & _ & _ & _ & D' & O' & N).
    destruct (IH s' D' ltac:(unfold at_byte; lia)) as (n & r & R). exists (Datatypes.S n), r. cbn [vrun]. rewrite S. exact R.
  - destruct (step_passes d p V tca s A K D O PO) as (s' & S). destruct (step_other d p V _ _ _ S D O PO SZ) as (_ & _ & D' & O').
    destruct (IH s' D' ltac:(unfold at_byte; lia)) as (n & r & R). exists (Datatypes.S n), r. cbn [vrun]. rewrite S. exact R.
Qed.
