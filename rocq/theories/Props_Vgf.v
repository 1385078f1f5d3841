(** Properties C46, C49-C51: vector graphics elements as a program builds, changes and encodes them. *)
From Coq Require Import Lia ZifyBool ZifyNat QArith.
From Verif Require Import Base BaseFacts Floats Structs Order Vgf SpecVgf VgfFacts VgfShapeFacts VgfRangeFacts.
From Coq Require Import List.
Import ListNotations.
Open Scope string_scope.
Open Scope list_scope.
Open Scope Z_scope.

(** ** C46: record sizes *)
(** Every element a program can have, after any history of assignments and flips *)
Theorem C46_record_size_is_length : forall o b,
  built o -> encode o = Ok b -> size_field b = Zlen b /\ (40 <= length b)%nat.
Proof. intros o b B. apply encode_size_field, built_wellformed, B. Qed.
Print Assumptions C46_record_size_is_length.

(** What reaches the disk, also when writing stops at an element that cannot be encoded: the
    records of the file header and of the elements before it, one after the other, each as long
    as its own size field says. *)
Lemma write_chain l : Forall wellformed l -> forall bs x, write_all l = (bs, x) ->
  exists n, chain n bs /\ (n <= length l)%nat /\ (x = None <-> n = length l).
Proof.
  induction l as [|o l IH]; intros F bs x H; cbn [write_all] in H.
  - injection H as <- <-. exists 0%nat. split; [constructor|]. cbn. split; [lia|tauto].
  - inversion F as [|? ? W F']; subst. destruct (encode o) as [b|e] eqn:E.
    + destruct (write_all l) as [bs' x'] eqn:E'. injection H as <- <-.
      destruct (IH F' _ _ eq_refl) as (n & C & L & I). destruct (encode_size_field o b W E) as [SZ L40].
      exists (S n). split; [constructor; assumption|]. cbn. split; [lia|]. rewrite I. lia.
    + injection H as <- <-. exists 0%nat. split; [constructor|]. cbn. split; [lia|]. split; intros; [discriminate|lia].
Qed.
Theorem C46_file_is_records : forall l bs x,
  Forall built l -> to_vgf l = (bs, x) ->
  exists n, chain n bs /\ (n <= S (length l))%nat /\ (x = None <-> n = S (length l)).
Proof.
  intros l bs x F H. apply (write_chain (vgfile l)); [|exact H]. constructor; [apply file_header_wellformed|].
  eapply Forall_impl; [|exact F]. apply built_wellformed.
Qed.
Print Assumptions C46_file_is_records.

(** A front of three points whose width is then changed, a line, and text *)
Definition got (r : res obj) : obj := match r with Ok o => o | Err _ => file_header end.
Lemma got_ok r : is_ok r = true -> r = Ok (got r).
Proof. destruct r; [reflexivity|discriminate]. Qed.
Definition ex_front : obj :=
  got (new_front [of_Z (-90); of_Z (-91); of_Z (-92)] [of_Z 40; of_Z 41; of_Z 42]
          (VInt 420) (VInt 3) VNone (VInt 0) (VInt 100) (VInt 1) (VInt 1)).
Definition ex_line : obj :=
  got (new_line [of_Z 10; of_Z 20] [of_Z 30; of_Z 40] (VInt 2) (VInt 1) (VInt 0) (VInt 0) (VInt 0) (VInt 3)).
Definition ex_text : obj :=
  got (new_special_text (VInt 10) (VInt 20) (VText [72; 105]) (VInt 1) (VInt 14) (VInt 0) (VInt 21) (VInt 0)
          VNone VNone (VInt 0) (VInt 0) (VInt 0) (VInt 0)).
Lemma ex_front_built : built ex_front.
Proof. eapply b_front. apply got_ok. vm_compute. reflexivity. Qed.
Lemma ex_line_built : built ex_line.
Proof. eapply b_line. apply got_ok. vm_compute. reflexivity. Qed.
Lemma ex_text_built : built ex_text.
Proof. eapply b_special_text. apply got_ok. vm_compute. reflexivity. Qed.
Example C46_example_front :
  built (act (act ex_front (AAssign PWidth (VInt 7))) AFlip) /\
  match encode (act (act ex_front (AAssign PWidth (VInt 7))) AFlip) with
  | Ok b => size_field b = 92 /\ Zlen b = 92 | Err _ => False end.
Proof. split; [repeat (apply b_act; [|reflexivity]); apply ex_front_built|vm_compute; auto]. Qed.
Example C46_example_file :
  Forall built [ex_line; ex_text; ex_front] /\ snd (to_vgf [ex_line; ex_text; ex_front]) = None /\
  Zlen (fst (to_vgf [ex_line; ex_text; ex_front])) = 424 + 76 + 103 + 92.
Proof.
  split; [repeat constructor; [apply ex_line_built|apply ex_text_built|apply ex_front_built]|].
  split; [vm_compute; reflexivity|]. vm_compute. reflexivity.
Qed.
(** A group type of 300 is accepted and cannot be written: the file keeps what came before it. *)
Example C46_example_truncated :
  match to_vgf [ex_line; act ex_line (AAssign PGroupType (VInt 300)); ex_front] with
  | (bs, x) => x = Some StructError /\ Zlen bs = Zlen (fst (to_vgf [ex_line]))
  end.
Proof. vm_compute. auto. Qed.

(** ** C49: validated attributes *)
(** Missing from the property as stated: NaN arguments, text flags switched back to hardware
    fonts after a free choice of font, the width of fronts (C50), and symbol constructors called
    with a width, size or code out of range.  Each is refuted below. *)
Theorem C49_ranges_partial : forall o args l p,
  made o args -> Forall not_nan args -> has_prop (o_kind o) p = true ->
  (o_kind o = KFront -> p <> PWidth) ->
  (o_kind o = KSpecialSymbol \/ o_kind o = KMarker -> p = PWidth \/ p = PSize \/ p = PSymbolCode -> documented o p) ->
  history (careful p) o l ->
  documented (after o l) p.
Proof.
  intros o args l p M N HP FW SY H.
  assert (D : forall q, has_prop (o_kind o) q = true -> (o_kind o = KFront -> q <> PWidth) ->
     (o_kind o = KSpecialSymbol \/ o_kind o = KMarker -> q = PWidth \/ q = PSize \/ q = PSymbolCode -> documented o q) ->
     documented o q).
  { clear - M N. intros q HP FW SY. destruct M.
    - destruct (line_documented _ _ _ _ _ _ _ _ _ H N) as [K D]. rewrite K in HP. auto.
    - destruct (front_documented _ _ _ _ _ _ _ _ _ _ H N) as [K D]. rewrite K in HP. auto.
    - destruct (special_line_documented _ _ _ _ _ _ _ _ _ _ _ _ H N) as [K D]. rewrite K in HP. auto.
    - destruct (special_text_documented _ _ _ _ _ _ _ _ _ _ _ _ _ _ _ H N) as [K D]. rewrite K in HP. auto.
    - inversion N; subst. destruct (symbol_documented _ _ _ _ _ _ _ _ _ _ H) as [K D]; [assumption|].
      rewrite K in HP, SY. destruct mk, q; try discriminate HP; try exact I; try (apply D; cbn; tauto); apply SY; auto. }
  apply history_documented; auto.
  intros ->. apply D; [|discriminate|intros _ [E|[E|E]]; discriminate E].
  destruct (o_kind o); try discriminate HP. reflexivity.
Qed.
Print Assumptions C49_ranges_partial.

(** Rejected assignments.  Missing: fronts given codes or widths that are not integers. *)
Theorem C49_rejected_unchanged_partial : forall o args l p v x,
  made o args -> history front_ints o l -> has_prop (o_kind o) p = true ->
  (o_kind o = KFront -> front_ints (AAssign p v)) ->
  snd (assign (after o l) p v) = Some x -> fst (assign (after o l) p v) = after o l.
Proof.
  intros o args l p v x M H HP FI. apply rejected_unchanged; [rewrite after_kind; exact HP|].
  rewrite after_kind. intros K Hp. split; [destruct Hp as [-> | ->]; apply FI; exact K|].
  apply history_front_ok; [exact K|exact H|].
  destruct M as [? ? ? ? ? ? ? ? ? C|? ? ? ? ? ? ? ? ? ? C|? ? ? ? ? ? ? ? ? ? ? ? C|? ? ? ? ? ? ? ? ? ? ? ? ? ? ? C|? ? ? ? ? ? ? ? ? ? C].
  - apply line_shape in C as [C _]. congruence.
  - eapply front_ctor_ok; eassumption.
  - apply special_line_shape in C as [C _]. congruence.
  - apply special_text_shape in C as [C _]. congruence.
  - apply symbol_shape in C as [C _]. destruct mk; congruence.
Qed.
Print Assumptions C49_rejected_unchanged_partial.

(** A front whose width is changed, is given a code out of range, and flipped *)
Example C49_example :
  made ex_front [VInt 420; VInt 3; VNone; VInt 0; VInt 100; VInt 1; VInt 1] /\
  Forall not_nan [VInt 420; VInt 3; VNone; VInt 0; VInt 100; VInt 1; VInt 1] /\
  let l := [AAssign PWidth (VInt 7); AAssign PFrontCode (VInt 1000); AFlip; AAssign PPipSize (VInt 40)] in
  history (careful PPipSize) ex_front l /\ history front_ints ex_front l /\
  value (after ex_front l) PFrontCode = VInt 470 /\ value (after ex_front l) PPipSize = VInt 40 /\
  snd (assign (after ex_front l) PPipSize (VInt 501)) = Some ValueError.
Proof.
  split; [eapply m_front; apply got_ok; vm_compute; reflexivity|].
  split; [repeat constructor; discriminate|]. cbv zeta.
  assert (K : o_kind ex_front = KFront) by (vm_compute; reflexivity). unfold history. rewrite K.
  split; [|split; [|vm_compute; auto]].
  - repeat (constructor; [split; [reflexivity|cbn; first [exact I|split; [discriminate|discriminate]]]|]). constructor.
  - repeat (constructor; [split; [reflexivity|cbn; first [exact I|eexists; reflexivity]]|]). constructor.
Qed.

(** What is not covered is false. *)
(** The Marker constructor stores a code that its own setter refuses. *)
Definition ex_marker : obj :=
  got (new_symbol true (VInt 10) (VInt 20) (VInt 99) (VInt 1) (VInt 1) (VInt 1) (VInt 0) (VInt 0)).
Lemma not_whole P v : match as_int v with Some z => ~ P z | None => True end -> ~ whole P v.
Proof. intros H W. apply whole_spec in W as (z & A & B). rewrite A in H. exact (H B). Qed.
Theorem C49_constructor_refuted : exists o args,
  made o args /\ Forall not_nan args /\ ~ documented o PSymbolCode.
Proof.
  exists ex_marker, [VInt 1]. split; [apply (m_symbol true (VInt 10) (VInt 20) (VInt 99) (VInt 1) (VInt 1) (VInt 1) (VInt 0) (VInt 0)), got_ok; vm_compute; reflexivity|].
  split; [repeat constructor; discriminate|].
  assert (K : o_kind ex_marker = KMarker) by (vm_compute; reflexivity).
  assert (V : value ex_marker PSymbolCode = VInt 99) by (vm_compute; reflexivity).
  unfold documented. rewrite K, V. apply not_whole. cbn. lia.
Qed.
Print Assumptions C49_constructor_refuted.
(** A front code of 420.0 is refused with an exception, and stored. *)
Theorem C49_rejected_refuted : exists o args v x,
  made o args /\ snd (assign o PFrontCode v) = Some x /\
  value (fst (assign o PFrontCode v)) PFrontCode <> value o PFrontCode.
Proof.
  exists ex_front, [VInt 420; VInt 3; VNone; VInt 0; VInt 100; VInt 1; VInt 1], (VFloat (of_Z 430)), ValueError.
  split; [eapply m_front; apply got_ok; vm_compute; reflexivity|]. split; [vm_compute; reflexivity|].
  vm_compute. discriminate.
Qed.
Print Assumptions C49_rejected_refuted.
(** A line width that is not a number is accepted. *)
Theorem C49_nan_refuted : exists o args v,
  made o args /\ Forall not_nan args /\ snd (assign o PWidth v) = None /\ ~ documented (fst (assign o PWidth v)) PWidth.
Proof.
  exists ex_line, [VInt 2; VInt 1; VInt 0; VInt 0; VInt 0; VInt 3], (VFloat S754_nan).
  split; [eapply m_line; apply got_ok; vm_compute; reflexivity|]. split; [repeat constructor; discriminate|].
  split; [vm_compute; reflexivity|]. 
  assert (K : o_kind (fst (assign ex_line PWidth (VFloat S754_nan))) = KLine) by (vm_compute; reflexivity).
  assert (V : value (fst (assign ex_line PWidth (VFloat S754_nan))) PWidth = VFloat S754_nan) by (vm_compute; reflexivity).
  unfold documented. rewrite K, V. intros [E _]. vm_compute in E. discriminate E.
Qed.
Print Assumptions C49_nan_refuted.
(** Text with hardware fonts whose font is none of them, by three accepted assignments *)
Theorem C49_font_refuted : exists o args l,
  made o args /\ Forall not_nan args /\ history (fun _ => True) o l /\
  (forall n p v, nth_error l n = Some (AAssign p v) -> snd (assign (after o (firstn n l)) p v) = None) /\
  ~ documented (after o l) PFont.
Proof.
  exists ex_text, [VInt 1; VInt 14; VInt 0; VInt 21; VInt 0; VNone; VNone; VInt 0],
    [AAssign PTextFlag (VInt 1); AAssign PFont (VInt 99); AAssign PTextFlag (VInt 2)].
  split; [eapply m_special_text; apply got_ok; vm_compute; reflexivity|]. split; [repeat constructor; discriminate|].
  assert (K : o_kind ex_text = KSpecialText) by (vm_compute; reflexivity).
  split; [unfold history; rewrite K; repeat constructor|].
  split.
  { intros n p v. destruct n as [|[|[|n]]]; cbn [nth_error]; intros E; [| | |destruct n; discriminate E];
      injection E as <- <-; vm_compute; reflexivity. }
  match goal with |- ~ documented ?o _ =>
    assert (V : value o PFont = VInt 99) by (vm_compute; reflexivity);
    assert (T : value o PTextFlag = VInt 2) by (vm_compute; reflexivity); unfold documented; rewrite V, T end.
  intros [W|W]; revert W; apply not_whole; cbn; [lia|]. intros (t & s & E & A & B). lia.
Qed.
Print Assumptions C49_font_refuted.
(** A front code of 400 gives the front width 0, which the width setter refuses. *)
Theorem C49_front_width_refuted : exists o args,
  made o args /\ Forall not_nan args /\ ~ documented o PWidth /\ snd (assign o PWidth (value o PWidth)) = Some ValueError.
Proof.
  exists (got (new_front [of_Z (-90); of_Z (-91)] [of_Z 40; of_Z 41] (VInt 400) (VInt 3) VNone (VInt 0) (VInt 100) (VInt 1) (VInt 1))),
    [VInt 400; VInt 3; VNone; VInt 0; VInt 100; VInt 1; VInt 1].
  split; [eapply m_front; apply got_ok; vm_compute; reflexivity|]. split; [repeat constructor; discriminate|].
  split; [|vm_compute; reflexivity].
  match goal with |- ~ documented ?o _ =>
    assert (V : value o PWidth = VInt 0) by (vm_compute; reflexivity);
    assert (K : o_kind o = KFront) by (vm_compute; reflexivity); unfold documented; rewrite V, K end.
  apply not_whole. cbn. lia.
Qed.
Print Assumptions C49_front_width_refuted.

(** ** C50: front code and width *)
(** The intensity digit of a code of type, intensity and character digits *)
Definition intensity (code : Z) : Z := code / 10 mod 10.
Theorem C50_front_code_width_partial : forall lon lat a b c d e f g o l,
  new_front lon lat a b c d e f g = Ok o -> history front_ints o l ->
  exists code, value (after o l) PFrontCode = VInt code /\ 0 <= code <= 999 /\
               value (after o l) PWidth = VInt (intensity code).
Proof.
  intros lon lat a b c d e f g o l H HL. destruct (front_ctor_ok _ _ _ _ _ _ _ _ _ _ H) as [F K].
  destruct (history_front_ok l o K HL F) as (code & C & R & W & _). exists code. auto.
Qed.
Print Assumptions C50_front_code_width_partial.
(** An accepted width is what is read back, and changes no other digit of the code. *)
Theorem C50_width_assigned : forall lon lat a b c d e f g o l w,
  new_front lon lat a b c d e f g = Ok o -> history front_ints o l -> 1 <= w <= 8 ->
  exists code code', value (after o l) PFrontCode = VInt code /\
    snd (assign (after o l) PWidth (VInt w)) = None /\
    value (fst (assign (after o l) PWidth (VInt w))) PFrontCode = VInt code' /\
    value (fst (assign (after o l) PWidth (VInt w))) PWidth = VInt w /\
    code' / 100 = code / 100 /\ intensity code' = w /\ code' mod 10 = code mod 10.
Proof.
  intros lon lat a b c d e f g o l w H HL Hw. destruct (front_ctor_ok _ _ _ _ _ _ _ _ _ _ H) as [F K].
  pose proof (history_front_ok l o K HL F) as F'. pose proof (after_kind l o) as K'. rewrite K in K'.
  remember (after o l) as o'. clear - F' K' Hw.
  destruct F' as (code & C & R & W & _). exists code, (code / 100 * 100 + w * 10 + code mod 10).
  split; [exact C|]. cbn [assign]. rewrite K'. unfold set_front_width.
  replace (in_range (VInt w) 1 9) with true by (unfold in_range, as_int; lia).
  rewrite C, code_digits_spec by lia. cbn [bind]. rewrite join_digits by lia. cbn [snd fst done].
  split; [reflexivity|]. split; [reflexivity|]. split; [reflexivity|]. unfold intensity.
  clear - R Hw. assert (0 <= code mod 10 < 10) by (apply Z.mod_pos_bound; lia).
  set (m := code mod 10) in *. clearbody m. set (q := code / 100). clearbody q. clear R.
  Zify.zify. split; [|split]; Z.div_mod_to_equations; lia.
Qed.
Print Assumptions C50_width_assigned.
Example C50_example :
  let l := [AAssign PWidth (VInt 7); AAssign PFrontCode (VInt 1000); AFlip; AAssign PPipSize (VInt 40)] in
  history front_ints ex_front l /\ value (after ex_front l) PFrontCode = VInt 470 /\ value (after ex_front l) PWidth = VInt 7.
Proof. destruct C49_example as (_ & _ & _ & H & V & _). split; [exact H|]. split; [exact V|vm_compute; reflexivity]. Qed.
(** A width of 3.0 is stored while the code keeps its digit, and the caller gets an exception. *)
Theorem C50_float_width_refuted : exists o args,
  made o args /\ o_kind o = KFront /\
  let o' := fst (assign o PWidth (VFloat (of_Z 3))) in
  snd (assign o PWidth (VFloat (of_Z 3))) = Some ValueError /\
  value o' PFrontCode = VInt 420 /\ value o' PWidth = VFloat (of_Z 3).
Proof.
  exists ex_front, [VInt 420; VInt 3; VNone; VInt 0; VInt 100; VInt 1; VInt 1].
  split; [eapply m_front; apply got_ok; vm_compute; reflexivity|]. vm_compute. auto.
Qed.
Print Assumptions C50_float_width_refuted.

(** ** C51: flipping twice *)
Lemma negate_twice v : negate (negate v) = v.
Proof. destruct v; cbn; try reflexivity; [rewrite Z.opp_involutive; reflexivity|]. destruct f; cbn; rewrite ?negb_involutive; reflexivity. Qed.
Theorem C51_flip_twice : forall o, same_object (flip (flip o)) o.
Proof.
  intros o. unfold flip. destruct (o_kind o) eqn:K; try (rewrite K; repeat split; auto; fail).
  - cbn [o_kind set]. rewrite K. repeat split; cbn [o_kind set]; auto. intros k. cbn [o_get set].
    rewrite String.eqb_refl, negate_twice. destruct (String.eqb_spec k "pip_direction") as [->|]; reflexivity.
  - cbn [o_kind set]. rewrite K. repeat split; cbn [o_kind set]; auto. intros k. cbn [o_get set].
    rewrite String.eqb_refl, negate_twice. destruct (String.eqb_spec k "direction") as [->|]; reflexivity.
Qed.
Print Assumptions C51_flip_twice.
(** ... and flipping once does change the direction of every front and special line that a program has *)
Example C51_example : value ex_front PPipDirection = VInt 1 /\ value (flip ex_front) PPipDirection = VInt (-1).
Proof. vm_compute. auto. Qed.
