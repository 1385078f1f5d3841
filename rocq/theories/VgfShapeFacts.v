(** What the constructors of Vgf.v fix for good: class, type, points, text and label. *)
From Coq Require Import Lia ZifyBool ZifyNat.
From Verif Require Import Base BaseFacts Floats Structs Vgf VgfFacts.
From Coq Require Import List.
Import ListNotations.
Open Scope string_scope.
Open Scope list_scope.
Open Scope Z_scope.

Definition class_of (k : ekind) : Z :=
  match k with KFront => 1 | KLine | KSpecialLine => 3 | KSpecialText => 5 | KSpecialSymbol | KMarker => 4 | KFileHeader => 0 end.
Definition type_of (k : ekind) : Z :=
  match k with KFront => 2 | KLine => 1 | KSpecialLine => 20 | KSpecialText => 21 | KSpecialSymbol => 15 | KMarker => 19
             | KFileHeader => 22 end.
(** Attributes that no setter changes *)
Definition fixed_of (k : ekind) : list (string * pyval) :=
  [("vg_class", VInt (class_of k)); ("vg_type", VInt (type_of k))] ++
  match k with
  | KLine => [("line_type_hardware", VInt 0); ("line_width_hardware", VInt 0)]
  | KFront => [("label", VBytes [83; 80; 67])]
  | KSpecialSymbol | KMarker => [("number_symbols", VInt 1); ("symbol_type", VInt 0)]
  | _ => []
  end.
Definition shape (o : obj) : Prop := forall k v, In (k, v) (fixed_of (o_kind o)) -> o_get o k = v.

Lemma shape_frame o o' : frame o o' -> shape o -> shape o'.
Proof.
  intros (K & _ & _ & F) S k v H. rewrite K in H. rewrite F; [apply S; exact H|].
  unfold fixed_of in H. apply in_app_or in H as [H|H].
  - cbn in H. destruct H as [E|[E|[]]]; injection E as <- <-; reflexivity.
  - destruct (o_kind o); cbn in H; repeat (destruct H as [H|H]); try contradiction; injection H as <- <-; reflexivity.
Qed.

Lemma kind_assign o p v o' : assign_ok o p v = Ok o' -> o_kind o' = o_kind o.
Proof. intros H. apply (frame_assign_ok _ _ _ _ H). Qed.
Lemma get_assign o p v o' k : assign_ok o p v = Ok o' -> fixed_key k = true -> o_get o' k = o_get o k.
Proof. intros H. apply (frame_assign_ok _ _ _ _ H). Qed.

Ltac get_tac :=
  repeat (rewrite get_set; cbn [String.eqb Ascii.eqb Bool.eqb]);
  repeat match goal with
  | H : assign_ok _ _ _ = Ok ?o |- o_get ?o _ = _ => rewrite (get_assign _ _ _ _ _ H) by reflexivity
  | |- o_get (set _ _ _) _ = _ => rewrite get_set; cbn [String.eqb Ascii.eqb Bool.eqb]
  end; try reflexivity.

Lemma line_base_kind k lon lat c w cl fi sm o : line_base k lon lat c w cl fi sm = Ok o -> o_kind o = k.
Proof. intros H. apply (line_base_ok _ _ _ _ _ _ _ _ _ H). Qed.

Ltac cases_tac H := cbn in H; repeat (destruct H as [H|H]); try contradiction; injection H as <- <-; get_tac.

Lemma line_shape lon lat a b c d e f o : new_line lon lat a b c d e f = Ok o ->
  o_kind o = KLine /\ shape o /\ o_lat o = map np32 lat /\ o_lon o = map np32 lon /\ Zlen lon = Zlen lat /\ 2 <= Zlen lon <= 500.
Proof.
  unfold new_line. intros H. repeat (apply bind_ok in H as (? & ? & H)). injection H as <-.
  match goal with H : line_base _ _ _ _ _ _ _ _ = Ok _ |- _ => apply line_base_ok in H as (K & L1 & L2 & N & E & R) end.
  match goal with H : assign_ok _ _ _ = Ok _ |- _ => pose proof (frame_assign_ok _ _ _ _ H) as (F1 & F2 & F3 & _) end.
  cbn [o_kind o_lat o_lon set] in *. rewrite F1, F2, F3. repeat split; auto; try lia.
  intros k v I. cbn [o_kind set] in I. rewrite F1, K in I. cases_tac I.
Qed.
Lemma front_shape lon lat a b c d e f g o : new_front lon lat a b c d e f g = Ok o ->
  o_kind o = KFront /\ shape o /\ o_lat o = map np32 lat /\ o_lon o = map np32 lon /\ Zlen lon = Zlen lat /\ 2 <= Zlen lon <= 500.
Proof.
  unfold new_front. intros H. apply bind_ok in H as (o1 & H1 & H). apply with_points_ok in H1 as (K & L1 & L2 & N & E & R).
  assert (U1 : under KFront (map np32 lat) (map np32 lon) "number_points" (VInt (Zlen lon)) o1) by (repeat split; assumption).
  clear K L1 L2 N. repeat (apply bind_ok in H as (? & ? & H)).
  match goal with d : (Z * Z * Z)%type |- _ => destruct d as [[? ?] ?] end. injection H as <-.
  match goal with |- o_kind ?o = _ /\ _ => assert (S : o_kind o = KFront -> shape o) end.
  { intros K k v I. rewrite K in I. clear K. cases_tac I. }
  match goal with |- o_kind ?o = _ /\ _ => assert (U : under KFront (map np32 lat) (map np32 lon) "number_points" (VInt (Zlen lon)) o) end.
  { under_tac. }
  destruct U as (K & L1 & L2 & N). auto 7.
Qed.
Lemma special_line_shape lon lat a b c d e f g h i o : new_special_line lon lat a b c d e f g h i = Ok o ->
  o_kind o = KSpecialLine /\ shape o /\ o_lat o = map np32 lat /\ o_lon o = map np32 lon /\ Zlen lon = Zlen lat /\ 2 <= Zlen lon <= 500.
Proof.
  unfold new_special_line. intros H. apply bind_ok in H as (o1 & H1 & H). apply line_base_ok in H1 as (K & L1 & L2 & N & E & R).
  assert (U1 : under KSpecialLine (map np32 lat) (map np32 lon) "number_points" (VInt (Zlen lon)) o1) by (repeat split; assumption).
  clear K L1 L2 N. repeat (apply bind_ok in H as (? & ? & H)).
  assert (S : exists w, o = set (set (set (set x1 "vg_class" (VInt 3)) "vg_type" (VInt 20)) "record_size"
             (VInt (size_of header_fmt + size_of special_line_fmt + size_of (points_fmt (Zlen lon))))) "stroke" w).
  { destruct (in_list _ _); [destruct (in_range _ _ _); [|discriminate]|]; injection H as <-; eexists; reflexivity. }
  clear H. destruct S as (w & ->).
  match goal with |- o_kind ?o = _ /\ _ => assert (S : o_kind o = KSpecialLine -> shape o) end.
  { intros K k v I. rewrite K in I. clear K. cases_tac I. }
  match goal with |- o_kind ?o = _ /\ _ => assert (U : under KSpecialLine (map np32 lat) (map np32 lon) "number_points" (VInt (Zlen lon)) o) end.
  { under_tac. }
  destruct U as (K & L1 & L2 & N). auto 7.
Qed.
Lemma special_text_shape a b t c d e f g h i j k l m o : new_special_text a b t c d e f g h i j k l m = Ok o ->
  o_kind o = KSpecialText /\ shape o /\ (exists s, t = VText s /\ Zlen s <= 254 /\ o_get o "text" = VText (s ++ [0])) /\
  o_get o "lat" = b /\ o_get o "lon" = a.
Proof.
  unfold new_special_text. cbv zeta. intros H.
  remember (set (set (set (set (set (set (base KSpecialText [] []) "lat" b) "lon" a) "min_lon" a) "min_lat" b) "max_lon" a) "max_lat" b) as o0 eqn:E0.
  assert (U0 : under KSpecialText [] [] "label" VNone o0) by (subst o0; repeat split).
  assert (G0 : o_get o0 "lat" = b /\ o_get o0 "lon" = a) by (subst o0; split; reflexivity).
  clear E0. repeat (apply bind_ok in H as (? & ? & H)). destruct t; try discriminate H.
  destruct (Z.ltb_spec 255 (Zlen (s ++ [0]))) as [|Hl]; [discriminate|].
  repeat (apply bind_ok in H as (? & ? & H)). injection H as <-.
  match goal with |- o_kind ?o = _ /\ _ => assert (K : o_kind o = KSpecialText) end.
  { match goal with |- o_kind ?o = _ => assert (U : under KSpecialText [] [] "label" VNone o) by under_tac end. apply U. }
  split; [exact K|]. split; [|split; [exists s|split]].
  - intros q v I. rewrite K in I. clear K. cases_tac I.
  - split; [reflexivity|]. split; [rewrite Zlen_app in Hl; cbn in Hl; lia|]. clear K G0 U0. get_tac.
  - clear K U0. get_tac. apply G0.
  - clear K U0. get_tac. apply G0.
Qed.
Lemma symbol_shape mk a b c d e f g h o : new_symbol mk a b c d e f g h = Ok o ->
  o_kind o = (if mk then KMarker else KSpecialSymbol) /\ shape o /\ o_get o "lat" = b /\ o_get o "lon" = a.
Proof.
  unfold new_symbol. cbv zeta. intros H. repeat (apply bind_ok in H as (? & ? & H)). injection H as <-.
  match goal with |- o_kind ?o = _ /\ _ => assert (K : o_kind o = if mk then KMarker else KSpecialSymbol) end.
  { match goal with |- o_kind ?o = ?k => assert (U : under k [] [] "label" VNone o) by (under_tac; repeat split) end. apply U. }
  split; [exact K|]. split; [|split].
  - intros q v I. rewrite K in I. clear K. destruct mk; cases_tac I.
  - clear K. get_tac.
  - clear K. get_tac.
Qed.

Lemma built_shape o : built o -> shape o.
Proof.
  induction 1.
  - eapply line_shape; eassumption.
  - eapply front_shape; eassumption.
  - eapply special_line_shape; eassumption.
  - eapply special_text_shape; eassumption.
  - eapply symbol_shape; eassumption.
  - eapply shape_frame; [apply frame_act|assumption].
Qed.
