(** Every built element that can be encoded is read back. *)
From Coq Require Import Lia ZifyBool ZifyNat.
From Verif Require Import Base BaseFacts Floats FloatsFacts Strings StringsFacts Structs StructsFacts Tools ToolsFacts VgfBase VgfTables
  VgfRead Vgf SpecVgf VgfFacts VgfRangeFacts VgfShapeFacts VgfIntFacts VgfCursor SpecVgfTrip.
From Coq Require Import List.
Import ListNotations.
Open Scope string_scope.
Open Scope list_scope.
Open Scope Z_scope.

Lemma pack_int e v r : pack_item e FInt v = Ok r -> exists z, v = VInt z.
Proof. destruct v; try discriminate. eauto. Qed.
Lemma pack_ubyte e v r : pack_item e FUByte v = Ok r -> exists z, v = VInt z.
Proof. destruct v; try discriminate. eauto. Qed.
Lemma pack_sbyte e v r : pack_item e FSByte v = Ok r -> exists z, v = VInt z.
Proof. destruct v; try discriminate. eauto. Qed.
Lemma pack_float e v r : pack_item e FFloat v = Ok r -> exists x, number v = Some x /\ stored FFloat v = VFloat (np32 x).
Proof. destruct v; try discriminate; intros _; eexists; split; reflexivity. Qed.

Lemma pack_cons e c f v vs r : is_pad c = false -> struct_pack e (c :: f) (v :: vs) = Ok r ->
  (exists a, pack_item e c v = Ok a) /\ exists b, struct_pack e f vs = Ok b.
Proof.
  intros P H. destruct c; try discriminate P; cbn [struct_pack] in H; apply bind_ok in H as (a & A & H);
    apply bind_ok in H as (b & B & _); eauto.
Qed.
Ltac unpack_items H :=
  repeat (let P := fresh "P" in apply pack_cons in H as ((? & P) & (? & H)); [|reflexivity]); clear H.
Ltac item_values :=
  repeat match goal with
  | P : pack_item _ FInt ?v = Ok _ |- _ => apply pack_int in P as (? & P)
  | P : pack_item _ FUByte ?v = Ok _ |- _ => apply pack_ubyte in P as (? & P)
  | P : pack_item _ FSByte ?v = Ok _ |- _ => apply pack_sbyte in P as (? & P)
  | P : pack_item _ FFloat ?v = Ok _ |- _ => let S := fresh "S" in apply pack_float in P as (? & P & S)
  end.

(** The header *)
Lemma read_header_at o b r : at_ b r -> encode_header o = Ok r ->
  exists h, read_header b = Ok (h, adv b (Zlen r)) /\ same_header o h.
Proof.
  intros A H. unfold encode_header in H. unfold read_header, bindR.
  change header_fmt with (formats vgf_header_info) in H. rewrite (r_named_at _ "header" _ _ _ _ A H).
  change (formats vgf_header_info) with header_fmt in *. unfold header_fmt, header_keys, attrs in H. cbn [map] in H.
  unpack_items H. item_values.
  change (attrs o header_keys) with [o_get o "delete"; o_get o "vg_type"; o_get o "vg_class"; o_get o "filled"; o_get o "closed";
    o_get o "smooth"; o_get o "version"; o_get o "group_type"; o_get o "group_number"; o_get o "major_color"; o_get o "minor_color";
    o_get o "record_size"; o_get o "min_lat"; o_get o "min_lon"; o_get o "max_lat"; o_get o "max_lon"].
  change (named vgf_header_info) with vgf_header_info.
  unfold header_fmt. cbn [stored_vals].
  repeat match goal with S : stored FFloat _ = _ |- _ => rewrite S; clear S end.
  repeat match goal with P : o_get o _ = VInt _ |- _ => rewrite P end. cbn [stored].
  cbn [vgf_header_info create convert bind append].
  eexists. split; [reflexivity|]. unfold header_of. split.
  - cbn. repeat constructor; assumption.
  - cbn. repeat constructor; eexists; (split; [eassumption|reflexivity]).
Qed.

(** ** Properties derived from codes exist for every code in range *)
Lemma line_properties_ok z : 0 <= z <= 99 -> exists p, line_properties z = Ok p.
Proof.
  intros R. enough (is_ok (line_properties z) = true) by (destruct (line_properties z); [eauto|discriminate]).
  apply (below 100 (fun z => is_ok (line_properties z))); [vm_compute; reflexivity|lia].
Qed.
Lemma front_properties_ok z : 0 <= z <= 999 -> exists p, front_properties z = Ok p.
Proof.
  intros R. enough (is_ok (front_properties z) = true) by (destruct (front_properties z); [eauto|discriminate]).
  apply (below 1000 (fun z => is_ok (front_properties z))); [vm_compute; reflexivity|lia].
Qed.

Lemma header_int o h k z : same_header o h -> In (k, z)
    [("delete", vh_delete h); ("vg_type", vh_type h); ("vg_class", vh_class h); ("filled", vh_filled h);
     ("closed", vh_closed h); ("smooth", vh_smooth h); ("version", vh_version h);
     ("group_type", vh_group_type h); ("group_number", vh_group_number h);
     ("major_color", vh_major_color h); ("minor_color", vh_minor_color h); ("record_size", vh_record_size h)] ->
  o_get o k = VInt z.
Proof. intros [H _] I. rewrite Forall_forall in H. exact (H _ I). Qed.

Lemma closing_of (l : list flt) : (2 < Zlen l) -> close_list l = Ok (closing l).
Proof. intros H. destruct l as [|a [|b [|c l]]]; unfold Zlen in H; cbn in H; try lia. reflexivity. Qed.
Lemma closing_short (l : list flt) : (Zlen l <= 2) -> closing l = l.
Proof. intros H. destruct l as [|a [|b [|c l]]]; unfold Zlen in H; cbn in H; try lia; reflexivity. Qed.

Ltac fields := repeat constructor; eexists; (split; [reflexivity|]); cbn [read_as];
  first [eexists; split; [eassumption|reflexivity] | idtac].


Definition enclosed (o : obj) (l : list flt) : list flt := match o_get o "closed" with VInt 0 => l | _ => closing l end.
(** if closed and npts > 2: close_coordinates *)
Lemma closes o h n lat lon b : o_get o "closed" = VInt (vh_closed h) -> Zlen lat = n -> Zlen lon = n ->
  (if negb (vh_closed h =? 0) && (2 <? n)
   then bindR (liftR (close_coords (CoArr lat))) (fun x => bindR (liftR (close_coords (CoArr lon))) (fun y => retR (x, y)))
   else retR (CoArr lat, CoArr lon)) b = Ok ((CoArr (enclosed o lat), CoArr (enclosed o lon)), b).
Proof.
  intros C L1 L2. unfold enclosed. rewrite C. destruct (Z.eqb_spec (vh_closed h) 0) as [->|NE]; cbn [negb andb]; [reflexivity|].
  replace (match vh_closed h with 0 => lat | _ => closing lat end) with (closing lat) by (destruct (vh_closed h); congruence).
  replace (match vh_closed h with 0 => lon | _ => closing lon end) with (closing lon) by (destruct (vh_closed h); congruence).
  destruct (Z.ltb_spec 2 n).
  - unfold bindR, liftR, close_coords. rewrite !closing_of by lia. reflexivity.
  - rewrite !closing_short by lia. reflexivity.
Qed.

Lemma points_map (l : list flt) : Zlen (map (fun x => around2 (np32 x)) l) = Zlen l.
Proof. unfold Zlen. rewrite map_length. reflexivity. Qed.

Ltac value_rewrites := repeat match goal with P : o_get _ _ = VInt _ |- _ => rewrite P in * end;
  repeat match goal with S : stored FFloat _ = _ |- _ => rewrite S in *; clear S end.

Lemma line_at o b i t h : built o -> o_kind o = KLine -> same_header o h -> at_ b (i ++ t) ->
  struct_pack BE line_fmt (attrs o (info_keys KLine)) = Ok i -> encode_tail o = Ok t ->
  exists e, dec_lines h b = Ok ([e], adv b (Zlen (i ++ t))) /\ same_element o e.
Proof.
  intros B K SH A Hi Ht. apply at_app in A as [A1 A2].
  change line_fmt with (formats line_info) in Hi. pose proof (r_named_at _ "line" _ _ _ _ A1 Hi) as RN.
  destruct (wf_points _ (built_wellformed _ B) ltac:(rewrite K; reflexivity)) as (n & N & R & L1 & L2).
  pose proof (built_idocs _ B PLineType) as D. unfold idoc, value in D. rewrite K in D. cbn [attribute int_range] in D.
  pose proof (header_int _ _ "closed" _ SH ltac:(cbn; tauto)) as C.
  unfold encode_tail, o_int in Ht. rewrite K, N in Ht.
  change (formats line_info) with line_fmt in *. change (named line_info) with line_info in RN.
  unfold line_fmt, info_keys, attrs in Hi. cbn [map] in Hi. unpack_items Hi. item_values.
  change (attrs o (info_keys KLine)) with [o_get o "number_points"; o_get o "line_type"; o_get o "line_type_hardware"; o_get o "width"; o_get o "line_width_hardware"] in RN.
  unfold line_fmt in RN. cbn [stored_vals] in RN.
  repeat match goal with P : o_get o _ = VInt _ |- _ => rewrite P in RN end.
  cbn [stored line_info create convert bind append] in RN.
  match type of RN with _ = Ok (?e, _) => set (en := e) in * end.
  assert (HP : exists p, line_properties (geti en "line.line_type") = Ok p)
    by (match goal with P : o_get o "line_type" = VInt _ |- _ => exact (line_properties_ok _ (D _ P)) end).
  destruct HP as (p & Hp).
  assert (HN : geti en "line.number_points" = n) by (subst en; cbn; congruence).
  assert (HS : exists a, select LineElement_sel en = Ok a /\
    Forall (fun '(a', b, h) => exists w, lookup b (a ++ p) = Some w /\ read_as h (o_get o a') w) (fields_of KLine)).
  { eexists. split; [reflexivity|]. cbn [fields_of]. fields. }
  destruct HS as (a & HS & HF). clearbody en. clear D.
  eexists. split.
  - unfold dec_lines. unfold bindR at 1. rewrite RN. cbv zeta. rewrite HN.
    unfold bindR at 1. rewrite (get_latlon_at _ _ _ _ _ A2 L1 L2 ltac:(lia) Ht). cbv iota beta.
    unfold bindR at 1. rewrite (closes o) by (rewrite ?points_map; assumption). cbv iota beta.
    unfold bindR, liftR. rewrite HS, Hp. unfold retR. rewrite adv_adv, <- Zlen_app. reflexivity.
  - split; cbn [ve_kind ve_hdr ve_attrs ve_lat ve_lon]; rewrite ?K; try reflexivity; try assumption;
      unfold points_read; rewrite K; reflexivity.
Qed.

Lemma front_at o b i t h : built o -> o_kind o = KFront -> same_header o h -> at_ b (i ++ t) ->
  struct_pack BE front_fmt (attrs o (info_keys KFront)) = Ok i -> encode_tail o = Ok t ->
  exists e, dec_fronts h b = Ok ([e], adv b (Zlen (i ++ t))) /\ same_element o e.
Proof.
  intros B K SH A Hi Ht. apply at_app in A as [A1 A2].
  change front_fmt with (formats front_info) in Hi. pose proof (r_named_at _ "front" _ _ _ _ A1 Hi) as RN.
  destruct (wf_points _ (built_wellformed _ B) ltac:(rewrite K; reflexivity)) as (n & N & R & L1 & L2).
  pose proof (built_idocs _ B PFrontCode) as D. unfold idoc, value in D. rewrite K in D. cbn [attribute int_range] in D.
  pose proof (built_shape _ B "label" (VBytes [83; 80; 67]) ltac:(rewrite K; cbn; tauto)) as LB.
  unfold encode_tail, o_int in Ht. rewrite K, N in Ht.
  change (formats front_info) with front_fmt in *. change (named front_info) with front_info in RN.
  unfold front_fmt, info_keys, attrs in Hi. cbn [map] in Hi. unpack_items Hi. item_values.
  change (attrs o (info_keys KFront)) with [o_get o "number_points"; o_get o "front_code"; o_get o "pip_size"; o_get o "pip_stroke";
    o_get o "pip_direction"; o_get o "width"; o_get o "label"] in RN.
  unfold front_fmt in RN. cbn [stored_vals] in RN. rewrite LB in RN.
  repeat match goal with P : o_get o _ = VInt _ |- _ => rewrite P in RN end.
  cbn [stored front_info create convert bind append] in RN.
  match type of RN with _ = Ok (?e, _) => set (en := e) in * end.
  assert (HP : exists p, front_properties (geti en "front.front_code") = Ok p)
    by (match goal with P : o_get o "front_code" = VInt _ |- _ => exact (front_properties_ok _ (D _ P)) end).
  destruct HP as (p & Hp).
  assert (HN : geti en "front.number_points" = n) by (subst en; cbn; congruence).
  assert (HS : exists a, select FrontElement_sel en = Ok a /\
    Forall (fun '(a', b, h) => exists w, lookup b (a ++ p) = Some w /\ read_as h (o_get o a') w) (fields_of KFront)).
  { eexists. split; [reflexivity|]. cbn [fields_of]. fields. }
  destruct HS as (a & HS & HF). clearbody en. clear D.
  eexists. split.
  - unfold dec_fronts. unfold bindR at 1. rewrite RN. cbv zeta. rewrite HN.
    unfold bindR at 1. rewrite (get_latlon_at _ _ _ _ _ A2 L1 L2 ltac:(lia) Ht). cbv iota beta.
    unfold bindR, liftR. rewrite HS, Hp. unfold retR. rewrite adv_adv, <- Zlen_app. reflexivity.
  - split; cbn [ve_kind ve_hdr ve_attrs ve_lat ve_lon]; rewrite ?K; try reflexivity; try assumption;
      unfold points_read; rewrite K; reflexivity.
Qed.

(** if direction == -1: flip_coordinates *)
Lemma flips o d lat lon b : o_get o "direction" = VInt d ->
  (if d =? -1
   then bindR (liftR (flip_coords (CoArr lat))) (fun x => bindR (liftR (flip_coords (CoArr lon))) (fun y => retR (x, y)))
   else retR (CoArr lat, CoArr lon)) b =
  Ok ((CoArr (match o_get o "direction" with VInt (-1) => rev lat | _ => lat end),
       CoArr (match o_get o "direction" with VInt (-1) => rev lon | _ => lon end)), b).
Proof. intros C. rewrite C. destruct (Z.eqb_spec d (-1)) as [->|NE]; [reflexivity|]. destruct d as [|p|p]; try reflexivity. destruct p; try reflexivity. lia. Qed.

Lemma special_line_at o b i t h : built o -> o_kind o = KSpecialLine -> same_header o h -> at_ b (i ++ t) ->
  struct_pack BE special_line_fmt (attrs o (info_keys KSpecialLine)) = Ok i -> encode_tail o = Ok t ->
  exists e, dec_special_lines h b = Ok ([e], adv b (Zlen (i ++ t))) /\ same_element o e.
Proof.
  intros B K SH A Hi Ht. apply at_app in A as [A1 A2].
  change special_line_fmt with (formats special_line_info) in Hi. pose proof (r_named_at _ "special_line" _ _ _ _ A1 Hi) as RN.
  destruct (wf_points _ (built_wellformed _ B) ltac:(rewrite K; reflexivity)) as (n & N & R & L1 & L2).
  pose proof (built_idocs _ B PLineType) as D. unfold idoc, value in D. rewrite K in D. cbn [attribute int_range] in D.
  pose proof (header_int _ _ "closed" _ SH ltac:(cbn; tauto)) as C.
  unfold encode_tail, o_int in Ht. rewrite K, N in Ht.
  change (formats special_line_info) with special_line_fmt in *. change (named special_line_info) with special_line_info in RN.
  unfold special_line_fmt, info_keys, attrs in Hi. cbn [map] in Hi. unpack_items Hi. item_values.
  change (attrs o (info_keys KSpecialLine)) with [o_get o "number_points"; o_get o "line_type"; o_get o "stroke"; o_get o "direction";
    o_get o "size"; o_get o "width"] in RN.
  unfold special_line_fmt in RN. cbn [stored_vals] in RN.
  repeat match goal with S : stored FFloat _ = _ |- _ => rewrite S in RN; clear S end.
  repeat match goal with P : o_get o _ = VInt _ |- _ => rewrite P in RN end.
  cbn [stored special_line_info create convert bind append] in RN.
  match type of RN with _ = Ok (?e, _) => set (en := e) in * end.
  assert (HP : exists p, special_line_properties (geti en "special_line.line_type") = Ok p).
  { match goal with P : o_get o "line_type" = VInt ?z |- _ =>
      change (geti en "special_line.line_type") with z; pose proof (D _ P) as Dz end.
    unfold special_line_properties, enum, between. match type of Dz with 1 <= ?z <= 26 => destruct (Z.leb_spec 1 z), (Z.leb_spec z 26); try lia end.
    eexists. reflexivity. }
  destruct HP as (p & Hp).
  assert (HN : geti en "special_line.number_points" = n) by (subst en; cbn; congruence).
  assert (HD : o_get o "direction" = VInt (geti en "special_line.direction")) by assumption.
  assert (HS : exists a, select SpecialLineElement_sel en = Ok a /\
    Forall (fun '(a', b, h) => exists w, lookup b (a ++ p) = Some w /\ read_as h (o_get o a') w) (fields_of KSpecialLine)).
  { eexists. split; [reflexivity|]. cbn [fields_of]. fields. }
  destruct HS as (a & HS & HF). clearbody en. clear D.
  eexists. split.
  - unfold dec_special_lines. unfold bindR at 1. rewrite RN. cbv zeta. rewrite HN.
    unfold bindR at 1. rewrite (get_latlon_at _ _ _ _ _ A2 L1 L2 ltac:(lia) Ht). cbv iota beta.
    unfold bindR at 1. rewrite (closes o) by (rewrite ?points_map; assumption). cbv iota beta.
    unfold bindR at 1. rewrite (flips o) by exact HD. cbv iota beta.
    unfold bindR, liftR. rewrite HS, Hp. unfold retR. rewrite adv_adv, <- Zlen_app. reflexivity.
  - split; cbn [ve_kind ve_hdr ve_attrs ve_lat ve_lon]; rewrite ?K; try reflexivity; try assumption;
      unfold points_read; rewrite K; reflexivity.
Qed.

Lemma symbol_at o b i h : is_symbol (o_kind o) = true -> readable o -> same_header o h -> at_ b i ->
  struct_pack BE symbol_fmt (attrs o (info_keys KMarker)) = Ok i ->
  exists e, dec_symbols h b = Ok ([e], adv b (Zlen i)) /\ same_element o e.
Proof.
  intros K [_ RC] SH A1 Hi.
  change symbol_fmt with (formats symbol_info) in Hi. pose proof (r_named_at _ "symbol" _ _ _ _ A1 Hi) as RN.
  change (formats symbol_info) with symbol_fmt in *. change (named symbol_info) with symbol_info in RN.
  unfold symbol_fmt, info_keys, attrs in Hi. cbn [map] in Hi. unpack_items Hi. item_values.
  change (attrs o (info_keys KMarker)) with [o_get o "number_symbols"; o_get o "width"; o_get o "size"; o_get o "symbol_type";
    o_get o "symbol_code"; o_get o "lat"; o_get o "lon"; o_get o "offset_x"; o_get o "offset_y"] in RN.
  unfold symbol_fmt in RN. cbn [stored_vals] in RN.
  repeat match goal with S : stored FFloat _ = _ |- _ => rewrite S in RN; clear S end.
  repeat match goal with P : o_get o _ = VInt _ |- _ => rewrite P in RN end.
  assert (Z : exists x z, number (o_get o "symbol_code") = Some x /\ int_of_float (np32 x) = Ok z).
  { match goal with P : number (o_get o "symbol_code") = Some ?x |- _ => destruct (RC _ P) as (z & Hz); exists x, z; auto end. }
  destruct Z as (sx & sz & X & HZ).
  match goal with P : number (o_get o "symbol_code") = Some ?y |- _ => assert (y = sx) by congruence; subst y end.
  cbn [stored symbol_info create convert bind append] in RN. rewrite HZ in RN. cbn [bind] in RN.
  match type of RN with _ = Ok (?e, _) => set (en := e) in * end.
  assert (HS : exists a, select SymbolElement_sel en = Ok a /\
    Forall (fun '(a', b, h) => exists w, lookup b a = Some w /\ read_as h (o_get o a') w) (fields_of KMarker)).
  { eexists. split; [reflexivity|]. cbn [fields_of]. fields. exists sx, sz. auto. }
  destruct HS as (a & HS & HF). clearbody en.
  eexists. split.
  - unfold dec_symbols. unfold bindR, liftR. rewrite RN, HS. reflexivity.
  - destruct (o_kind o) eqn:KK; try discriminate K; split; cbn [ve_kind ve_hdr ve_attrs ve_lat ve_lon]; rewrite ?KK; try reflexivity;
      try assumption; unfold points_read; rewrite KK; reflexivity.
Qed.

(** ASCII text *)
Definition ascii (s : str) : Prop := Forall (fun c => 0 <= c < 128) s.
Lemma ascii_encode s : ascii s -> utf8_encode s = Ok s.
Proof.
  induction 1 as [|c s C _ IH]; [reflexivity|]. cbn [utf8_encode]. rewrite IH. unfold utf8_char.
  destruct (Z.ltb_spec c 128); [reflexivity|lia].
Qed.
Lemma ascii_decode s : ascii s -> decode_strict s = Ok s.
Proof.
  unfold decode_strict. induction 1 as [|c s C _ IH]; [reflexivity|]. cbn [length utf8_strict]. unfold utf8_step.
  destruct (Z.ltb_spec c 128); [|lia]. cbn [skipn]. rewrite IH. reflexivity.
Qed.
Lemma ascii_before_nul s : ascii s -> ascii (before_nul s).
Proof. induction 1 as [|c s C F IH]; [constructor|]. cbn [before_nul]. destruct (c =? 0); constructor; assumption. Qed.
Lemma before_nul_app s : before_nul (s ++ [0]) = before_nul s.
Proof. induction s as [|c s IH]; [reflexivity|]. cbn [app before_nul]. rewrite IH. reflexivity. Qed.
Lemma fit_self s : fit (length s) s = s.
Proof. unfold fit. rewrite firstn_all, Nat.sub_diag. cbn [repeat]. apply app_nil_r. Qed.

Lemma special_text_at o b i t h vals : built o -> o_kind o = KSpecialText -> readable o -> same_header o h -> at_ b (i ++ t) ->
  info_values o = Ok vals -> struct_pack BE special_text_fmt vals = Ok i -> encode_tail o = Ok t ->
  exists e, dec_special_text h b = Ok ([e], adv b (Zlen (i ++ t))) /\ same_element o e.
Proof.
  intros B K [RT _] SH A HV Hi Ht. apply at_app in A as [A1 A2].
  unfold info_values in HV. rewrite K in HV. apply bind_ok in HV as (sz & Hsz & HV). injection HV as <-.
  change special_text_fmt with (formats special_text_info) in Hi. pose proof (r_named_at _ "text" _ _ _ _ A1 Hi) as RN.
  change (formats special_text_info) with special_text_fmt in *. change (named special_text_info) with special_text_info in RN.
  unfold special_text_fmt, info_keys, attrs in Hi. cbn [map] in Hi. unpack_items Hi. item_values.
  change (attrs o (info_keys KSpecialText)) with [o_get o "text_type"; o_get o "turbulence_symbol"; o_get o "font"; o_get o "text_flag";
    o_get o "width"; o_get o "text_color"; o_get o "edgecolor"; o_get o "facecolor"; o_get o "align"; o_get o "lat"; o_get o "lon";
    o_get o "offset_x"; o_get o "offset_y"] in RN.
  pose proof (built_wellformed _ B) as WF.
  destruct (wf_text _ WF ltac:(rewrite K; reflexivity)) as (s & T & _).
  pose proof (RT _ T) as AS.
  assert (RS : vh_record_size h - VGF_HEADER_SIZE - Z.of_nat (calcsize (formats special_text_info)) = Zlen (s ++ [0])).
  { pose proof (wf_size _ WF) as WS. unfold sized, tail_len in WS. rewrite K, T in WS.
    pose proof (header_int _ _ "record_size" _ SH ltac:(cbn; tauto)) as C. rewrite WS in C.
    change (size_of header_fmt) with 40 in C. cbn [info_fmt] in C. change (size_of special_text_fmt) with 60 in C.
    assert (E : vh_record_size h = 40 + 60 + Zlen (s ++ [0])) by congruence. rewrite E.
    change (Z.of_nat (calcsize (formats special_text_info))) with 60. unfold VGF_HEADER_SIZE. lia. }
  unfold encode_tail in Ht. rewrite K, T, ascii_encode in Ht by exact AS. cbn [bind] in Ht. rewrite fit_self in Ht. injection Ht as <-.
  assert (SZ : exists x, number (o_get o "size") = Some x /\ sz = VFloat (fdiv x (of_Z 14))).
  { unfold points_to_size in Hsz. destruct (o_get o "size"); try discriminate Hsz; injection Hsz as <-; eexists; split; reflexivity. }
  destruct SZ as (px & PX & ->).
  unfold special_text_fmt in RN. cbn [stored_vals] in RN.
  repeat match goal with S : stored FFloat (o_get _ _) = _ |- _ => rewrite S in RN; clear S end.
  repeat match goal with P : o_get o _ = VInt _ |- _ => rewrite P in RN end.
  cbn [stored special_text_info create convert bind append] in RN.
  match type of RN with _ = Ok (?e, _) => set (en := e) in * end.
  assert (HS : exists a, select SpecialTextElement_sel (en ++ [("clean_text", VText (clean_text (before_nul s)))]) = Ok a /\
    Forall (fun '(a', b, h) => exists w, lookup b a = Some w /\ read_as h (o_get o a') w) (fields_of KSpecialText)).
  { eexists. split; [reflexivity|]. cbn [fields_of]. fields. }
  destruct HS as (a & HS & HF). clearbody en.
  eexists. split.
  - unfold dec_special_text. unfold bindR at 1. rewrite RN. unfold bindR at 1. unfold read_text. unfold bindR at 1.
    rewrite RS, (r_read_at _ _ A2). unfold liftR at 1. rewrite before_nul_app, ascii_decode.
    2: { apply ascii_before_nul. apply Forall_app in AS. apply AS. }
    unfold bindR, liftR. rewrite HS. unfold retR. rewrite adv_adv, <- Zlen_app. reflexivity.
  - split; cbn [ve_kind ve_hdr ve_attrs ve_lat ve_lon]; rewrite ?K; try reflexivity; try assumption;
      unfold points_read; rewrite K; reflexivity.
Qed.

(** ** One round of the loop *)
Lemma built_kind o : built o -> o_kind o <> KFileHeader.
Proof.
  induction 1 as [? ? ? ? ? ? ? ? ? H|? ? ? ? ? ? ? ? ? ? H|? ? ? ? ? ? ? ? ? ? ? ? H|? ? ? ? ? ? ? ? ? ? ? ? ? ? ? H|? ? ? ? ? ? ? ? ? ? H|o a B IH A].
  - apply line_shape in H as [K _]. congruence.
  - apply front_shape in H as [K _]. congruence.
  - apply special_line_shape in H as [K _]. congruence.
  - apply special_text_shape in H as [K _]. congruence.
  - apply symbol_shape in H as [K _]. destruct mk; congruence.
  - destruct (frame_act o a) as (F & _). congruence.
Qed.

Lemma valid_at o h size : built o -> same_header o h -> vh_record_size h <= size -> invalid_header h size = false.
Proof.
  intros B SH LE.
  pose proof (header_int _ _ "vg_class" _ SH ltac:(cbn; tauto)) as HC. pose proof (header_int _ _ "vg_type" _ SH ltac:(cbn; tauto)) as HT.
  pose proof (header_int _ _ "delete" _ SH ltac:(cbn; tauto)) as HD.
  pose proof (built_idocs _ B PMajorColor _ (header_int _ _ "major_color" _ SH ltac:(cbn; tauto))) as HM.
  pose proof (built_idocs _ B PMinorColor _ (header_int _ _ "minor_color" _ SH ltac:(cbn; tauto))) as HN.
  rewrite (built_shape _ B "vg_class" (VInt (class_of (o_kind o)))) in HC by (unfold fixed_of; cbn; tauto).
  rewrite (built_shape _ B "vg_type" (VInt (type_of (o_kind o)))) in HT by (unfold fixed_of; cbn; tauto).
  rewrite (built_kept _ B) in HD.
  assert (HC' : vh_class h = class_of (o_kind o)) by congruence. assert (HT' : vh_type h = type_of (o_kind o)) by congruence.
  assert (HD' : vh_delete h = 0) by congruence. clear HC HT HD. cbn [int_range] in HM, HN.
  unfold invalid_header. rewrite HD', HC', HT'.
  assert (known_class (class_of (o_kind o)) = true) as -> by (destruct (o_kind o); reflexivity).
  assert (known_type (type_of (o_kind o)) = true) as -> by (destruct (o_kind o); reflexivity).
  assert (type_of (o_kind o) <? 0 = false) as -> by (destruct (o_kind o); reflexivity).
  cbn [Z.ltb Z.compare orb negb]. lia.
Qed.

Lemma record_size_read o h r : wellformed o -> same_header o h -> encode o = Ok r -> vh_record_size h = Zlen r.
Proof.
  intros W SH E. pose proof (encode_length _ _ W E) as L. pose proof (wf_size _ W) as S. unfold sized in S. rewrite <- L in S.
  pose proof (header_int _ _ "record_size" _ SH ltac:(cbn; tauto)) as C. congruence.
Qed.

Lemma at_len b r : at_ b r -> Zlen r <= io_len b.
Proof. intros (pre & post & D & _). unfold io_len. rewrite D, !Zlen_app. pose proof (Zlen_nonneg pre). pose proof (Zlen_nonneg post). lia. Qed.
Lemma at_not_end b r : at_ b r -> 0 < Zlen r -> io_at_end b = false.
Proof.
  intros (pre & post & D & O) P. unfold io_at_end. rewrite D, O, !Zlen_app. pose proof (Zlen_nonneg post).
  lia.
Qed.

Section Loop.
Variable tca : vhdr -> str -> res (list velem).

Lemma dispatch_at o r b h : built o -> readable o -> same_header o h ->
  forall hd, encode_header o = Ok hd -> forall b0, at_ b0 r -> encode o = Ok r -> b = adv b0 (Zlen hd) ->
  exists e, dispatch tca h b = Ok (DElems [e], adv b0 (Zlen r)) /\ same_element o e.
Proof.
  intros B RD SH hd Hh b0 A He ->.
  apply encode_inv in He as (hd' & vals & i & t & Hh' & Hv & Hi & Ht & ->).
  assert (hd' = hd) by congruence. subst hd'. clear Hh'.
  apply at_app in A as [_ A].
  pose proof (header_int _ _ "vg_class" _ SH ltac:(cbn; tauto)) as HC. pose proof (header_int _ _ "vg_type" _ SH ltac:(cbn; tauto)) as HT.
  rewrite (built_shape _ B "vg_class" (VInt (class_of (o_kind o)))) in HC by (unfold fixed_of; cbn; tauto).
  rewrite (built_shape _ B "vg_type" (VInt (type_of (o_kind o)))) in HT by (unfold fixed_of; cbn; tauto).
  assert (HC' : vh_class h = class_of (o_kind o)) by congruence. assert (HT' : vh_type h = type_of (o_kind o)) by congruence. clear HC HT.
  assert (FIN : forall m, (exists e, m h (adv b0 (Zlen hd)) = Ok ([e], adv (adv b0 (Zlen hd)) (Zlen (i ++ t))) /\ same_element o e) ->
    exists e, elems (m h) (adv b0 (Zlen hd)) = Ok (DElems [e], adv b0 (Zlen (hd ++ i ++ t))) /\ same_element o e).
  { intros m (e & E & SE). exists e. split; [|exact SE]. unfold elems, bindR. rewrite E. unfold retR. rewrite adv_adv, !Zlen_app. reflexivity. }
  unfold dispatch. rewrite HC', HT'. pose proof (built_kind _ B) as NK.
  destruct (o_kind o) eqn:K; try congruence; cbn [class_of type_of Z.eqb Pos.eqb andb orb].
  - apply FIN. apply line_at; try assumption. unfold info_values in Hv. rewrite K in Hv. injection Hv as <-. exact Hi.
  - apply FIN. apply front_at; try assumption. unfold info_values in Hv. rewrite K in Hv. injection Hv as <-. exact Hi.
  - apply FIN. apply special_line_at; try assumption. unfold info_values in Hv. rewrite K in Hv. injection Hv as <-. exact Hi.
  - apply FIN. eapply special_text_at; eassumption.
  - apply FIN. unfold encode_tail in Ht. rewrite K in Ht. injection Ht as <-. rewrite app_nil_r in *.
    apply symbol_at; try assumption; [rewrite K; reflexivity|]. unfold info_values in Hv. rewrite K in Hv. injection Hv as <-. exact Hi.
  - apply FIN. unfold encode_tail in Ht. rewrite K in Ht. injection Ht as <-. rewrite app_nil_r in *.
    apply symbol_at; try assumption; [rewrite K; reflexivity|]. unfold info_values in Hv. rewrite K in Hv. injection Hv as <-. exact Hi.
Qed.

Lemma step_at o r s : built o -> readable o -> encode o = Ok r -> at_ (vs_buf s) r ->
  exists e h, vstep tca s = Ok (inl (mk_vstate (vs_elements s ++ [e]) (note_group h (vs_groups s)) (vs_header s) (adv (vs_buf s) (Zlen r))))
    /\ same_element o e.
Proof.
  intros B RD E A. pose proof (built_wellformed _ B) as W.
  pose proof (encode_size_field _ _ W E) as [_ L].
  pose proof (encode_inv _ _ E) as (hd & vals & i & t & Hh & _ & _ & _ & ER).
  pose proof A as A'. rewrite ER in A'. apply at_app in A' as [AH _].
  destruct (read_header_at _ _ _ AH Hh) as (h & RH & SH).
  destruct (dispatch_at o r _ h B RD SH hd Hh _ A E eq_refl) as (e & DE & SE).
  exists e, h. split; [|exact SE]. unfold vstep. rewrite (at_not_end _ _ A) by (unfold Zlen; lia). rewrite RH.
  rewrite (valid_at _ _ _ B SH).
  2: { rewrite (record_size_read _ _ _ W SH E). change (io_len (adv (vs_buf s) (Zlen hd))) with (io_len (vs_buf s)). apply at_len, A. }
  rewrite DE. reflexivity.
Qed.

(** ** The whole file *)
Lemma vrun_at l : forall bs s, Forall built l -> Forall readable l -> write_all l = (bs, None) ->
  (exists pre, io_data (vs_buf s) = pre ++ bs /\ io_offset (vs_buf s) = Zlen pre) ->
  exists st es, vrun tca (S (length l)) s = Some (Ok st) /\ vs_elements st = vs_elements s ++ es /\ Forall2 same_element l es /\
    vs_header st = vs_header s.
Proof.
  induction l as [|o l IH]; intros bs s FB FR W (pre & D & O).
  - injection W as <-. rewrite app_nil_r in D. exists s, []. rewrite app_nil_r. split; [|repeat split; constructor].
    cbn [length vrun]. unfold vstep. replace (io_at_end (vs_buf s)) with true; [reflexivity|].
    unfold io_at_end. rewrite D, O. symmetry. lia.
  - inversion FB as [|? ? B1 B2]; subst. inversion FR as [|? ? R1 R2]; subst. cbn [write_all] in W.
    destruct (encode o) as [r|] eqn:E; [|discriminate]. destruct (write_all l) as [rest x] eqn:WL. injection W as <- ->.
    destruct (step_at o r s B1 R1 E) as (e & h & VS & SE); [exists pre, rest; auto|].
    destruct (IH rest (mk_vstate (vs_elements s ++ [e]) (note_group h (vs_groups s)) (vs_header s) (adv (vs_buf s) (Zlen r))) B2 R2 eq_refl)
      as (st & es & V & VE & F & H).
    { exists (pre ++ r). cbn [vs_buf adv io_skip io_data io_offset]. rewrite D, O, Zlen_app, app_assoc. auto. }
    exists st, (e :: es). cbn [vs_elements vs_header] in *. split; [|split; [|split]].
    + cbn [length]. change (vrun tca (S (S (length l))) s) with
        (match vstep tca s with Err x => Some (Err x) | Ok (inr s') => Some (Ok s') | Ok (inl s') => vrun tca (S (length l)) s' end).
      rewrite VS. exact V.
    + rewrite VE, <- app_assoc. reflexivity.
    + constructor; assumption.
    + exact H.
Qed.
End Loop.

(** The file header *)
Definition header_text : bytes := fit 128 version_bytes.
Definition header_notes : bytes := fit 256 notes_bytes.
Lemma header_texts : VText (decode_strip_null header_text) = VText version_bytes /\
  VText (decode_strip_null header_notes) = VText (removelast notes_bytes).
Proof. split; vm_compute; reflexivity. Qed.

Lemma file_header_encoded : exists hd, encode_header file_header = Ok hd /\ Zlen hd = 40 /\
  encode file_header = Ok (hd ++ header_text ++ header_notes).
Proof.
  destruct (encode_header file_header) as [hd|] eqn:E; [|vm_compute in E; discriminate]. exists hd. split; [reflexivity|]. split.
  - unfold encode_header in E. apply struct_pack_length in E. change (calcsize header_fmt) with 40%nat in E. unfold Zlen. lia.
  - unfold encode. rewrite E. cbn [bind].
    change (info_values file_header) with (Ok [VBytes version_bytes; VBytes notes_bytes]). cbn [bind].
    change (info_fmt (o_kind file_header)) with [FStr 128; FStr 256].
    change (encode_tail file_header) with (Ok (A:=bytes) []). cbn [struct_pack pack_item bind]. fold header_text header_notes.
    rewrite !app_nil_r. reflexivity.
Qed.

Lemma header_step tca s rest r : encode file_header = Ok r -> vs_groups s = [] ->
  io_data (vs_buf s) = r ++ rest -> io_offset (vs_buf s) = 0 ->
  exists x, vstep tca s = Ok (inl (mk_vstate (vs_elements s) [] (Some x) (adv (vs_buf s) (Zlen r)))) /\
    ve_kind x = "FileHeaderElement" /\ same_header file_header (ve_hdr x) /\
    ve_attrs x = [("gempak_version", VText version_bytes); ("notes", VText (removelast notes_bytes))].
Proof.
  intros E G D O. destruct file_header_encoded as (hd & HH & L & E'). assert (r = hd ++ header_text ++ header_notes) by congruence. subst r. clear E E'.
  assert (A : at_ (vs_buf s) (hd ++ header_text ++ header_notes)) by (exists [], rest; split; [rewrite D; reflexivity|rewrite O; reflexivity]).
  pose proof (at_len _ _ A) as LEN. pose proof (at_app _ _ _ A) as [AH AT].
  destruct (read_header_at _ _ _ AH HH) as (h & RH & SH).
  apply at_app in AT as [A1 A2].
  assert (LT : Zlen header_text = 128) by reflexivity. assert (LN : Zlen header_notes = 256) by reflexivity.
  rewrite LT in A2. pose proof (r_read_at _ _ A1) as R1. pose proof (r_read_at _ _ A2) as R2. rewrite LT in R1. rewrite LN in R2.
  assert (C : vh_class h = 0 /\ vh_type h = 22 /\ vh_delete h = 0 /\ vh_major_color h = 0 /\ vh_minor_color h = 0 /\ vh_group_type h = 0 /\ vh_record_size h = 424).
  { repeat split.
    - pose proof (header_int _ _ "vg_class" _ SH ltac:(cbn; tauto)) as X. injection X as <-. reflexivity.
    - pose proof (header_int _ _ "vg_type" _ SH ltac:(cbn; tauto)) as X. injection X as <-. reflexivity.
    - pose proof (header_int _ _ "delete" _ SH ltac:(cbn; tauto)) as X. injection X as <-. reflexivity.
    - pose proof (header_int _ _ "major_color" _ SH ltac:(cbn; tauto)) as X. injection X as <-. reflexivity.
    - pose proof (header_int _ _ "minor_color" _ SH ltac:(cbn; tauto)) as X. injection X as <-. reflexivity.
    - pose proof (header_int _ _ "group_type" _ SH ltac:(cbn; tauto)) as X. injection X as <-. reflexivity.
    - pose proof (header_int _ _ "record_size" _ SH ltac:(cbn; tauto)) as X. 
      change (VInt 424 = VInt (vh_record_size h)) in X. congruence. }
  destruct C as (C1 & C2 & C3 & C4 & C5 & C6 & C7). rewrite !Zlen_app, L, LT, LN in LEN.
  exists (mk_velem "FileHeaderElement" h [("gempak_version", VText version_bytes); ("notes", VText (removelast notes_bytes))] [] [] CoNone CoNone).
  split; [|split; [reflexivity|split; [exact SH|reflexivity]]].
  unfold vstep. rewrite (at_not_end _ _ A) by (rewrite !Zlen_app, L, LT, LN; lia). rewrite RH.
  replace (invalid_header h (io_len (adv (vs_buf s) (Zlen hd)))) with false.
  2: { unfold invalid_header. rewrite C1, C2, C3, C4, C5, C7. change (io_len (adv (vs_buf s) (Zlen hd))) with (io_len (vs_buf s)).
       cbn [known_type known_class between Z.ltb Z.leb Z.compare Pos.compare Pos.compare_cont Z.eqb Pos.eqb orb andb negb]. lia. }
  unfold note_group. rewrite G, C6. cbn [existsb Z.eqb negb andb].
  unfold dispatch. rewrite C1, C2. cbn [Z.eqb Pos.eqb andb]. unfold bindR at 1. unfold dec_file_header. unfold bindR at 1.
  rewrite R1. unfold bindR at 1. rewrite C7. unfold VGF_HEADER_SIZE. change (424 - 40 - 128) with 256. rewrite R2.
  destruct header_texts as [-> ->].
  unfold bindR, liftR. cbn [FileHeaderElement_sel select lookup String.eqb Ascii.eqb Bool.eqb bind retR].
  rewrite !adv_adv, !Zlen_app, L, LT, LN. reflexivity.
Qed.

Lemma file_opens tca l bs : Forall built l -> Forall readable l -> to_vgf l = (bs, None) ->
  exists st x, opens tca bs (Ok st) /\ Forall2 same_element l (vs_elements st) /\ vs_header st = Some x /\
    ve_kind x = "FileHeaderElement" /\ same_header file_header (ve_hdr x) /\
    ve_attrs x = [("gempak_version", VText version_bytes); ("notes", VText (removelast notes_bytes))].
Proof.
  intros B R W. unfold to_vgf, vgfile in W. cbn [write_all] in W.
  destruct (encode file_header) as [r|] eqn:E; [|destruct file_header_encoded as (? & _ & _ & X); rewrite X in E; discriminate].
  destruct (write_all l) as [rest x] eqn:WL. injection W as <- ->.
  destruct (header_step tca (vgf_start (r ++ rest)) rest r E eq_refl eq_refl eq_refl) as (x & VS & X1 & X2 & X3).
  match type of VS with _ = Ok (inl ?s) => destruct (vrun_at tca l rest s B R WL) as (st & es & V & VE & F & H) end.
  { exists r. cbn [vs_buf adv io_skip io_data io_offset vgf_start io_init]. auto. }
  exists st, x. cbn [vs_elements vs_header vgf_start app] in *. split; [|rewrite VE; auto].
  exists (S (S (length l))). change (vrun tca (S (S (length l))) (vgf_start (r ++ rest))) with
    (match vstep tca (vgf_start (r ++ rest)) with Err x => Some (Err x) | Ok (inr s') => Some (Ok s') | Ok (inl s') => vrun tca (S (length l)) s' end).
  rewrite VS. exact V.
Qed.
