(** Lemmas about Vgf.v: what assignments and constructors leave alone, encoded lengths,
    validated ranges, front codes, flipping. *)
From Coq Require Import QArith Lia ZifyBool ZifyNat.
From Verif Require Import Base BaseFacts Floats FloatsFacts Strings StringsFacts Structs StructsFacts Order VgfBase Vgf SpecVgf.
From Coq Require Import List.
Open Scope string_scope.
Open Scope list_scope.
Open Scope Z_scope.
Ltac Zify.zify_post_hook ::= Z.div_mod_to_equations.

(** ** Frames *)
Lemma get_set o k v k' : o_get (set o k v) k' = if String.eqb k' k then v else o_get o k'.
Proof. reflexivity. Qed.

Definition fixed_key (k : string) : bool :=
  existsb (String.eqb k)
    ["delete"; "vg_type"; "vg_class"; "version"; "record_size"; "min_lat"; "min_lon"; "max_lat"; "max_lon";
     "number_points"; "line_type_hardware"; "line_width_hardware"; "label"; "stroke"; "text"; "lat"; "lon";
     "number_symbols"; "symbol_type"; "gempak_version"; "notes"].

Definition frame (o o' : obj) : Prop :=
  o_kind o' = o_kind o /\ o_lat o' = o_lat o /\ o_lon o' = o_lon o /\
  forall k, fixed_key k = true -> o_get o' k = o_get o k.

Lemma frame_refl o : frame o o.
Proof. repeat split; reflexivity. Qed.
Lemma frame_trans a b c : frame a b -> frame b c -> frame a c.
Proof.
  intros (A1 & A2 & A3 & A4) (B1 & B2 & B3 & B4). unfold frame. rewrite B1, B2, B3. repeat split; auto.
  intros k K. rewrite B4, A4; auto.
Qed.
Lemma frame_set o k v : fixed_key k = false -> frame o (set o k v).
Proof.
  intros H. repeat split. intros k' K. rewrite get_set. destruct (String.eqb_spec k' k); [subst; congruence|reflexivity].
Qed.
Lemma frame_set_after o o' k v : fixed_key k = false -> frame o o' -> frame o (set o' k v).
Proof. intros H F. eapply frame_trans; [exact F|]. apply frame_set. exact H. Qed.

Ltac frame_tac := repeat first [apply frame_refl | apply frame_set_after; [reflexivity|]].

Lemma frame_assign o p v : frame o (fst (assign o p v)).
Proof.
  assert (C : forall k b, fixed_key k = false -> frame o (fst (checked o k v b))).
  { intros k b H. unfold checked. destruct b; cbn [fst done fail]; frame_tac. apply frame_set; exact H. }
  assert (D : forall k b, fixed_key k = false -> frame o (fst (compared o k v b))).
  { intros k b H. unfold compared. destruct b as [[|]|]; cbn [fst done fail]; frame_tac. apply frame_set; exact H. }
  destruct p; cbn [assign]; try (apply C; reflexivity); try (apply D; reflexivity);
    try (cbn [fst done]; frame_tac; fail).
  - destruct (o_kind o); try (apply D; reflexivity); [|cbn [fst done]; frame_tac].
    unfold set_front_width. destruct (in_range _ _ _); cbn [fst fail]; [|frame_tac].
    destruct (code_digits _) as [[[a b] c]|]; cbn [fst fail]; [|frame_tac].
    destruct v; cbn [fst fail]; try (frame_tac; fail).
    destruct (py_int _); cbn [fst fail done]; frame_tac.
  - destruct (o_kind o); first [apply C; reflexivity | apply D; reflexivity].
  - unfold set_front_code. destruct (in_range _ _ _); cbn [fst fail]; [|frame_tac].
    destruct (code_digits _) as [[[a b] c]|]; cbn [fst fail done]; frame_tac.
  - destruct (o_kind o); first [apply C; reflexivity | apply D; reflexivity].
  - destruct (in_range _ _ _); cbn [fst fail done]; frame_tac.
  - unfold set_symbol_code. destruct v; cbn [fst fail done]; frame_tac.
    destruct (_ || _); cbn [fst fail done]; frame_tac.
Qed.

Lemma frame_act o a : frame o (act o a).
Proof.
  destruct a as [p v|]; [apply frame_assign|]. cbn [act]. unfold flip. destruct (o_kind o); frame_tac.
Qed.

Lemma frame_assign_ok o p v o' : assign_ok o p v = Ok o' -> frame o o'.
Proof.
  unfold assign_ok. pose proof (frame_assign o p v) as F. destruct (assign o p v) as [x [e|]]; [discriminate|].
  intros H. injection H as <-. exact F.
Qed.

(** ** Encoded length *)

(** The part of the record after the header and the class's struct *)
Definition tail_len (o : obj) : Z :=
  match o_kind o with
  | KLine | KFront | KSpecialLine => size_of (points_fmt (o_int o "number_points"))
  | KSpecialText => match o_get o "text" with VText s => Zlen s | _ => 0 end
  | _ => 0
  end.
Definition sized (o : obj) : Prop :=
  o_get o "record_size" = VInt (size_of header_fmt + size_of (info_fmt (o_kind o)) + tail_len o).

Lemma sized_frame o o' : frame o o' -> sized o -> sized o'.
Proof.
  intros (K & _ & _ & F) S. unfold sized, tail_len, o_int in *. rewrite K.
  rewrite !F by reflexivity. exact S.
Qed.

Ltac ctor :=
  repeat match goal with
  | H : bind _ _ = Ok _ |- _ => apply bind_ok in H; destruct H as (? & ? & ?)
  | H : assign_ok _ _ _ = Ok _ |- _ => apply frame_assign_ok in H
  end.

Lemma with_points_ok k lon lat o : with_points k lon lat = Ok o ->
  o_kind o = k /\ o_lat o = map np32 lat /\ o_lon o = map np32 lon /\
  o_get o "number_points" = VInt (Zlen lon) /\ Zlen lon = Zlen lat /\ 2 <= Zlen lon <= 500.
Proof.
  unfold with_points, vMAX_POINTS. destruct (Z.eqb_spec (Zlen lon) (Zlen lat)); cbn [negb]; [|discriminate].
  destruct (Z.ltb_spec 500 (Zlen lon)); [discriminate|]. destruct (Z.ltb_spec (Zlen lon) 2); [discriminate|].
  intros [= <-]. repeat split; auto; lia.
Qed.

Lemma line_base_ok k lon lat c w cl fi sm o : line_base k lon lat c w cl fi sm = Ok o ->
  o_kind o = k /\ o_lat o = map np32 lat /\ o_lon o = map np32 lon /\
  o_get o "number_points" = VInt (Zlen lon) /\ Zlen lon = Zlen lat /\ 2 <= Zlen lon <= 500.
Proof.
  unfold line_base. intros H. ctor. apply with_points_ok in H. destruct H as (A & B & C & D & E).
  assert (F : frame x o) by (repeat (eapply frame_trans; [eassumption|]); apply frame_refl).
  destruct F as (F1 & F2 & F3 & F4). rewrite F1, F2, F3, F4 by reflexivity. repeat split; tauto.
Qed.

Ltac frame_of x o := 
  assert (frame x o) by (repeat (eapply frame_trans; [eassumption|]); apply frame_refl).

(** What every element has, whatever was done to it *)
Record wellformed (o : obj) : Prop := {
  wf_size : sized o;
  wf_points : is_line (o_kind o) || (match o_kind o with KFront => true | _ => false end) = true ->
    exists n, o_get o "number_points" = VInt n /\ 2 <= n <= 500 /\ Zlen (o_lat o) = n /\ Zlen (o_lon o) = n;
  wf_text : is_text (o_kind o) = true -> exists s, o_get o "text" = VText (s ++ [0]) /\ Zlen s <= 254 }.

Lemma wellformed_frame o o' : frame o o' -> wellformed o -> wellformed o'.
Proof.
  intros F [S P T]. pose proof F as (K & L1 & L2 & G). split.
  - eapply sized_frame; eassumption.
  - rewrite K, L1, L2, !G by reflexivity. exact P.
  - rewrite K, !G by reflexivity. exact T.
Qed.

Lemma line_wellformed lon lat a b c d e f o : new_line lon lat a b c d e f = Ok o -> wellformed o.
Proof.
  unfold new_line. intros H. apply bind_ok in H as (o1 & H1 & H). apply line_base_ok in H1 as (K & L1 & L2 & N & E & R).
  apply bind_ok in H as (o2 & H2 & H). apply frame_assign_ok in H2 as (F1 & F2 & F3 & F4). injection H as <-.
  assert (N2 : o_get o2 "number_points" = VInt (Zlen lon)) by (rewrite F4 by reflexivity; exact N).
  cbn [set o_kind o_lat o_lon] in F1, F2, F3. split.
  - unfold sized, tail_len, o_int. cbn [set o_kind o_get String.eqb Ascii.eqb Bool.eqb]. rewrite F1, K, N2. reflexivity.
  - intros _. exists (Zlen lon). cbn [set o_kind o_get o_lat o_lon String.eqb Ascii.eqb Bool.eqb]. rewrite F2, F3, L1, L2, !Zlen_map. auto.
  - cbn [set o_kind]. rewrite F1, K. discriminate.
Qed.

(** While a constructor runs *)
Definition under (k : ekind) (lat lon : list flt) (q : string) (v : pyval) (o : obj) : Prop :=
  o_kind o = k /\ o_lat o = lat /\ o_lon o = lon /\ o_get o q = v.
Lemma under_assign k lat lon q v o p w o' : fixed_key q = true -> assign_ok o p w = Ok o' ->
  under k lat lon q v o -> under k lat lon q v o'.
Proof.
  intros Q H (A & B & C & D). apply frame_assign_ok in H as (F1 & F2 & F3 & F4). unfold under.
  rewrite F1, F2, F3, F4 by exact Q. auto.
Qed.
Lemma under_set k lat lon q v o p w : String.eqb q p = false -> under k lat lon q v o -> under k lat lon q v (set o p w).
Proof.
  intros Q (A & B & C & D). unfold under. rewrite get_set, Q. cbn [set o_kind o_lat o_lon]. auto.
Qed.
Ltac under_tac :=
  repeat match goal with
  | |- under _ _ _ _ _ (set _ _ _) => apply under_set; [reflexivity|]
  | H : assign_ok _ _ _ = Ok ?o |- under _ _ _ _ _ ?o => eapply under_assign; [reflexivity|exact H|]; clear H
  end; try assumption.

Lemma front_wellformed lon lat a b c d e f g o : new_front lon lat a b c d e f g = Ok o -> wellformed o.
Proof.
  unfold new_front. intros H. apply bind_ok in H as (o1 & H1 & H). apply with_points_ok in H1 as (K & L1 & L2 & N & E & R).
  assert (U1 : under KFront (map np32 lat) (map np32 lon) "number_points" (VInt (Zlen lon)) o1) by (repeat split; assumption).
  clear K L1 L2 N. repeat (apply bind_ok in H as (? & ? & H)).
  match goal with d : (Z * Z * Z)%type |- _ => destruct d as [[? ?] ?] end. injection H as <-.
  match goal with |- wellformed ?o => assert (U : under KFront (map np32 lat) (map np32 lon) "number_points" (VInt (Zlen lon)) o) end.
  { under_tac. }
  destruct U as (K & L1 & L2 & N). split.
  - unfold sized, tail_len, o_int. rewrite K, N. reflexivity.
  - intros _. exists (Zlen lon). rewrite L1, L2, N, !Zlen_map. auto.
  - rewrite K. discriminate.
Qed.

Lemma special_line_wellformed lon lat a b c d e f g h i o :
  new_special_line lon lat a b c d e f g h i = Ok o -> wellformed o.
Proof.
  unfold new_special_line. intros H. apply bind_ok in H as (o1 & H1 & H). apply line_base_ok in H1 as (K & L1 & L2 & N & E & R).
  assert (U1 : under KSpecialLine (map np32 lat) (map np32 lon) "number_points" (VInt (Zlen lon)) o1) by (repeat split; assumption).
  clear K L1 L2 N. repeat (apply bind_ok in H as (? & ? & H)).
  assert (S : exists w, o = set (set (set (set x1 "vg_class" (VInt 3)) "vg_type" (VInt 20)) "record_size"
             (VInt (size_of header_fmt + size_of special_line_fmt + size_of (points_fmt (Zlen lon))))) "stroke" w).
  { destruct (in_list _ _); [destruct (in_range _ _ _); [|discriminate]|]; injection H as <-; eexists; reflexivity. }
  clear H. destruct S as (w & ->).
  match goal with |- wellformed ?o => assert (U : under KSpecialLine (map np32 lat) (map np32 lon) "number_points" (VInt (Zlen lon)) o) end.
  { under_tac. }
  destruct U as (K & L1 & L2 & N). split.
  - unfold sized, tail_len, o_int. rewrite K, N. reflexivity.
  - intros _. exists (Zlen lon). rewrite L1, L2, N, !Zlen_map. auto.
  - rewrite K. discriminate.
Qed.

Lemma special_text_wellformed a b t c d e f g h i j k l m o :
  new_special_text a b t c d e f g h i j k l m = Ok o -> wellformed o.
Proof.
  unfold new_special_text. cbv zeta. intros H. 
  remember (set (set (set (set (set (set (base KSpecialText [] []) "lat" b) "lon" a) "min_lon" a) "min_lat" b) "max_lon" a) "max_lat" b) as o0 eqn:E0.
  assert (U0 : under KSpecialText [] [] "label" VNone o0) by (subst o0; repeat split).
  clear E0. repeat (apply bind_ok in H as (? & ? & H)). destruct t; try discriminate H.
  destruct (Z.ltb_spec 255 (Zlen (s ++ [0]))) as [|Hl]; [discriminate|].
  assert (U6 : under KSpecialText [] [] "label" VNone x5) by under_tac. 
  set (o6 := set (set (set (set x5 "rotation" j) "offset_x" k) "offset_y" l) "text" (VText (s ++ [0]))) in *.
  assert (U7 : under KSpecialText [] [] "text" (VText (s ++ [0])) o6).
  { destruct U6 as (K & L1 & L2 & _). repeat split; assumption. }
  clearbody o6. repeat (apply bind_ok in H as (? & ? & H)). injection H as <-.
  match goal with |- wellformed ?o => assert (U : under KSpecialText [] [] "text" (VText (s ++ [0])) o) end.
  { under_tac. }
  destruct U as (K & L1 & L2 & N). split.
  - unfold sized, tail_len. rewrite K, N. reflexivity.
  - rewrite K. discriminate.
  - intros _. exists s. split; [exact N|]. rewrite Zlen_app in Hl. cbn in Hl. lia.
Qed.

Lemma symbol_wellformed mk a b c d e f g h o : new_symbol mk a b c d e f g h = Ok o -> wellformed o.
Proof.
  unfold new_symbol. cbv zeta. intros H.
  match type of H with context[set (base ?k [] []) "number_symbols" (VInt 1)] =>
    set (o0 := base k [] []) in *; assert (U0 : under k [] [] "label" VNone o0) by (repeat split); clearbody o0 end.
  repeat (apply bind_ok in H as (? & ? & H)). injection H as <-.
  match goal with |- wellformed ?o => assert (U : under (if mk then KMarker else KSpecialSymbol) [] [] "label" VNone o) end.
  { under_tac. }
  destruct U as (K & L1 & L2 & N). split.
  - unfold sized, tail_len. rewrite K. destruct mk; reflexivity.
  - rewrite K. destruct mk; discriminate.
  - rewrite K. destruct mk; discriminate.
Qed.

Lemma built_wellformed o : built o -> wellformed o.
Proof.
  induction 1.
  - eapply line_wellformed; eassumption.
  - eapply front_wellformed; eassumption.
  - eapply special_line_wellformed; eassumption.
  - eapply special_text_wellformed; eassumption.
  - eapply symbol_wellformed; eassumption.
  - eapply wellformed_frame; [apply frame_act|assumption].
Qed.
Lemma file_header_wellformed : wellformed file_header.
Proof. split; [reflexivity|discriminate|discriminate]. Qed.

Lemma encode_inv o b : encode o = Ok b -> exists h vals i t,
  encode_header o = Ok h /\ info_values o = Ok vals /\ struct_pack BE (info_fmt (o_kind o)) vals = Ok i /\
  encode_tail o = Ok t /\ b = h ++ i ++ t.
Proof.
  unfold encode. intros H. apply bind_ok in H as (h & ? & H). apply bind_ok in H as (v & ? & H).
  apply bind_ok in H as (i & ? & H). apply bind_ok in H as (t & ? & H). injection H as <-. exists h, v, i, t. auto.
Qed.

Lemma encode_length o b : wellformed o -> encode o = Ok b ->
  Zlen b = size_of header_fmt + size_of (info_fmt (o_kind o)) + tail_len o.
Proof.
  intros W H. apply encode_inv in H as (h & v & i & t & Hh & Hv & Hi & Ht & ->).
  apply struct_pack_length in Hh. apply struct_pack_length in Hi. unfold size_of. rewrite !Zlen_app.
  unfold Zlen at 1 2. rewrite Hh, Hi.
  enough (Zlen t = tail_len o) by lia. clear - W Ht. unfold encode_tail, tail_len in *.
  destruct (o_kind o) eqn:K;
    try (injection Ht as <-; reflexivity);
    try (apply struct_pack_length in Ht; unfold size_of, Zlen; lia).
  destruct (o_get o "text") eqn:T; try discriminate. apply bind_ok in Ht as (? & ? & Ht). injection Ht as <-.
  unfold Zlen. rewrite fit_length. reflexivity.
Qed.

Lemma u32_at_app a b i : (i + 4 <= length a)%nat -> u32_at (a ++ b) i = u32_at a i.
Proof. intros H. unfold u32_at. rewrite !app_nth1 by lia. reflexivity. Qed.

Lemma struct_pack_app e f g : forall v w bs, length v = nvals f -> struct_pack e (f ++ g) (v ++ w) = Ok bs ->
  exists a b, struct_pack e f v = Ok a /\ struct_pack e g w = Ok b /\ bs = a ++ b.
Proof.
  induction f as [|c f IH]; intros v w bs L H.
  - destruct v; [|discriminate]. exists [], bs. cbn in H. auto.
  - destruct c; cbn [nvals] in L; try (destruct v as [|x v]; [discriminate L|]; injection L as L);
      cbn [app struct_pack] in H; inv_ok.
    1-5: destruct (IH _ _ _ L H0) as (a & b & A & B & ->); eexists (_ ++ a), b; cbn [struct_pack]; rewrite H, A; cbn;
      repeat split; auto; rewrite app_assoc; reflexivity.
    destruct (IH _ _ _ L H) as (a & b & A & B & ->). eexists (_ ++ a), b. cbn [struct_pack]. rewrite A. cbn [bind].
    repeat split; auto. rewrite app_assoc. reflexivity.
Qed.

Lemma u32_at_shift a b i : u32_at (a ++ b) (length a + i) = u32_at b i.
Proof.
  unfold u32_at. rewrite <- !Nat.add_assoc. rewrite !app_nth2_plus. reflexivity.
Qed.
Lemma u32_enc n b : 0 <= n < two32 -> u32_at (enc_uint BE 4 n ++ b) 0 = n.
Proof. intros H. unfold two32 in H. unfold u32_at, enc_uint. cbn [le_enc rev app nth Nat.add]. lia. Qed.

Lemma encode_size_field o b : wellformed o -> encode o = Ok b -> size_field b = Zlen b /\ (40 <= length b)%nat.
Proof.
  intros W H. pose proof (encode_length _ _ W H) as L. pose proof (wf_size _ W) as S. unfold sized in S. rewrite <- L in S.
  clear L. apply encode_inv in H as (hd & v & x1 & x2 & H & Hv & Hi & Ht & ->). unfold encode_header in H.
  pose proof (struct_pack_length _ _ _ _ H) as LH. change (calcsize header_fmt) with 40%nat in LH.
  split; [|rewrite app_length; lia].
  unfold size_field. rewrite u32_at_app by lia. 
  set (n := Zlen (hd ++ x1 ++ x2)) in *.
  assert (Hn : 0 <= n) by (unfold n, Zlen; lia). clearbody n.
  change header_fmt with (firstn 11 header_fmt ++ FInt :: skipn 12 header_fmt) in H.
  change header_keys with (firstn 11 header_keys ++ "record_size" :: skipn 12 header_keys) in H.
  unfold attrs in H. rewrite map_app in H. apply struct_pack_app in H as (p & q & A & B & ->); [|reflexivity].
  apply struct_pack_length in A. change (calcsize (firstn 11 header_fmt)) with 20%nat in A.
  replace 20%nat with (length p + 0)%nat by lia. rewrite u32_at_shift. cbn [map struct_pack] in B. inv_ok.
  rewrite S in H. cbn [pack_item] in H. apply pack_i32_ok in H as [I ->].
  unfold in_i32, two31 in I. apply andb_prop in I. rewrite u32_enc; unfold two32; rewrite Z.mod_small by lia; lia.
Qed.
