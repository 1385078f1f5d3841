(** Lemmas about the setters of Vgf.v: validated ranges, rejected assignments, front codes,
    flipping. *)
From Coq Require Import QArith Lqa Lia ZifyBool ZifyNat.
From Verif Require Import Base BaseFacts Floats FloatsFacts Strings StringsFacts Structs StructsFacts Order RoundFacts VgfBase Vgf SpecVgf VgfFacts.
From Coq Require Import List.
Open Scope string_scope.
Open Scope list_scope.
Open Scope Z_scope.
Ltac Zify.zify_post_hook ::= Z.div_mod_to_equations.

(** ** Integers equal to floats *)
Lemma finite_integral s m e z : (q_of (S754_finite s m e) == inject_Z z)%Q -> integral m e = true.
Proof.
  unfold integral. destruct (Z.leb_spec 0 e); [reflexivity|]. cbn [orb]. intros Q.
  assert (P : 0 < 2 ^ (- e)) by (apply Z.pow_pos_nonneg; lia).
  apply Z.eqb_eq. apply Z.mod_divide; [lia|].
  exists (if s then - z else z).
  unfold q_of, pow2q in Q. destruct (Z.ltb_spec e 0); [|lia]. unfold Qeq, inject_Z, Qmult in Q.
  destruct s; cbn [Qnum Qden] in Q; rewrite ?Pos.mul_1_l, ?Z.mul_1_r, Z2Pos.id in Q by exact P; lia.
Qed.

Lemma float_int_spec f z : float_int f = Some z <-> finite f = true /\ (inject_Z z == q_of f)%Q.
Proof.
  split.
  - destruct f as [s| | |s m e]; cbn [float_int]; try discriminate.
    + intros [= <-]. split; reflexivity.
    + destruct (integral m e) eqn:I; [|discriminate]. intros [= <-]. split; [reflexivity|].
      rewrite q_of_finite. unfold integral in I. unfold trunc_mag.
      assert (T : (inject_Z (if e <? 0 then Z.pos m / 2 ^ (- e) else Z.pos m * 2 ^ e) == inject_Z (Z.pos m) * pow2q e)%Q).
      { unfold pow2q. destruct (Z.ltb_spec e 0).
        - destruct (Z.leb_spec 0 e); [lia|]. cbn [orb] in I. apply Z.eqb_eq in I.
          assert (P : 0 < 2 ^ (- e)) by (apply Z.pow_pos_nonneg; lia).
          unfold Qeq, inject_Z, Qmult. cbn [Qnum Qden]. rewrite Pos.mul_1_l, !Z.mul_1_r, Z2Pos.id by exact P.
          pose proof (Z.div_mod (Z.pos m) (2 ^ - e) ltac:(lia)). lia.
        - rewrite inject_Z_mult. reflexivity. }
      destruct s; unfold sgn; [rewrite inject_Z_opp|]; rewrite T; reflexivity.
  - intros [F Q]. symmetry in Q. pose proof (int_of_exact f z F Q) as I. destruct f as [s| | |s m e]; try discriminate.
    + cbn in I. injection I as <-. reflexivity.
    + cbn [float_int]. rewrite (finite_integral _ _ _ _ Q). cbn [int_of_float] in I. injection I as <-. reflexivity.
Qed.
Lemma as_int_spec v z : as_int v = Some z <-> denotes v (inject_Z z).
Proof.
  destruct v; cbn [as_int denotes]; try (split; [discriminate|tauto]).
  - split; [intros [= <-]; reflexivity|]. unfold Qeq, inject_Z. cbn. intros H. f_equal. lia.
  - apply float_int_spec.
Qed.
Lemma whole_spec P v : whole P v <-> exists z, as_int v = Some z /\ P z.
Proof. unfold whole. split; intros (z & A & B); exists z; split; auto; apply as_int_spec; exact A. Qed.
Lemma in_range_spec v lo hi : in_range v lo hi = true <-> whole (fun z => lo <= z < hi) v.
Proof.
  rewrite whole_spec. unfold in_range. destruct (as_int v) as [z|].
  - split; [intros H; exists z; split; [reflexivity|lia]|]. intros (y & [= <-] & H). lia.
  - split; [discriminate|]. intros (y & H & _). discriminate.
Qed.
Lemma in_list_spec v l : in_list v l = true <-> whole (fun z => In z l) v.
Proof.
  rewrite whole_spec. unfold in_list. destruct (as_int v) as [z|].
  - rewrite existsb_exists. split.
    + intros (y & I & E). exists z. split; [reflexivity|]. apply Z.eqb_eq in E. subst. exact I.
    + intros (y & [= <-] & H). exists z. split; [exact H|lia].
  - split; [discriminate|]. intros (y & H & _). discriminate.
Qed.
Lemma whole_weaken (P Q : Z -> Prop) v : (forall z, P z -> Q z) -> whole P v -> whole Q v.
Proof. intros I (z & D & H). exists z. auto. Qed.

(** ** Comparisons *)
Lemma SFcompare_swap x y : SFcompare y x = option_map CompOpp (SFcompare x y).
Proof.
  destruct x as [s|s| |s m e], y as [s'|s'| |s' m' e']; try destruct s; try destruct s'; try reflexivity; cbn [SFcompare option_map CompOpp].
  - rewrite (Z.compare_antisym e e'). destruct (e ?= e'); cbn [CompOpp]; try reflexivity.
    rewrite (Pos.compare_cont_antisym m m' Eq). reflexivity.
  - rewrite (Z.compare_antisym e e'). destruct (e ?= e'); cbn [CompOpp]; try reflexivity.
    rewrite (Pos.compare_cont_antisym m m' Eq). reflexivity.
Qed.
Lemma not_lt_le x y : x <> S754_nan -> y <> S754_nan -> SFltb x y = false -> SFleb y x = true.
Proof.
  intros NX NY. unfold SFltb, SFleb. rewrite (SFcompare_swap x y).
  destruct (SFcompare x y) as [[| |]|] eqn:E; cbn; try congruence.
  intros _. exfalso. destruct x as [s|s| |s m e], y as [s'|s'| |s' m' e']; try destruct s; try destruct s'; cbn in E; congruence.
Qed.

(** ** What an assignment may change *)
Definition touches (kd : ekind) (q : prop) (k : string) : bool :=
  String.eqb k (attribute q) ||
  match q with
  | PTextType => String.eqb k "turbulence_symbol"
  | PFrontCode => existsb (String.eqb k) ["front_type"; "front_intensity"; "front_character"; "width"]
  | PWidth => match kd with
              | KFront => existsb (String.eqb k) ["front_type"; "front_intensity"; "front_character"; "front_code"]
              | _ => false
              end
  | _ => false
  end.
Definition keeps (k : string) (o o' : obj) : Prop := o_get o' k = o_get o k.
Lemma keeps_set k o o' k' v : String.eqb k k' = false -> keeps k o o' -> keeps k o (set o' k' v).
Proof. unfold keeps. intros E H. rewrite get_set, E. exact H. Qed.
Lemma assign_keeps o q v k : touches (o_kind o) q k = false -> keeps k o (fst (assign o q v)).
Proof.
  unfold touches. intros T. apply orb_false_iff in T as [T1 T2].
  assert (C : forall b, keeps k o (fst (checked o (attribute q) v b))).
  { intros b. unfold checked. destruct b; cbn [fst done fail]; [apply keeps_set; [exact T1|]|]; reflexivity. }
  assert (D : forall b, keeps k o (fst (compared o (attribute q) v b))).
  { intros b. unfold compared. destruct b as [[|]|]; cbn [fst done fail]; [|apply keeps_set; [exact T1|]|]; reflexivity. }
  destruct q; cbn [attribute] in *; cbn [assign]; try apply C; try apply D;
    try (cbn [fst done]; apply keeps_set; [exact T1|reflexivity]).
  - destruct (o_kind o) eqn:K; try apply D; [|cbn [fst done]; apply keeps_set; [exact T1|reflexivity]].
    cbn [existsb] in T2. apply orb_false_iff in T2 as [A T2]. apply orb_false_iff in T2 as [B T2].
    apply orb_false_iff in T2 as [E T2]. apply orb_false_iff in T2 as [G _].
    unfold set_front_width. destruct (in_range _ _ _); cbn [fst fail]; [|reflexivity].
    destruct (code_digits _) as [[[a b] c]|]; cbn [fst fail]; [|repeat (apply keeps_set; [assumption|]); reflexivity].
    destruct v; cbn [fst fail]; try (repeat (apply keeps_set; [assumption|]); reflexivity).
    destruct (py_int _); cbn [fst fail done]; repeat (apply keeps_set; [assumption|]); reflexivity.
  - destruct (o_kind o); first [apply C | apply D].
  - cbn [existsb] in T2. apply orb_false_iff in T2 as [A T2]. apply orb_false_iff in T2 as [B T2].
    apply orb_false_iff in T2 as [E T2]. apply orb_false_iff in T2 as [G _].
    unfold set_front_code. destruct (in_range _ _ _); cbn [fst fail]; [|reflexivity].
    destruct (code_digits _) as [[[a b] c]|]; cbn [fst fail done]; repeat (apply keeps_set; [assumption|]); reflexivity.
  - destruct (o_kind o); first [apply C | apply D].
  - destruct (in_range _ _ _); cbn [fst fail done]; repeat (apply keeps_set; [assumption|]); reflexivity.
  - unfold set_symbol_code. destruct v; cbn [fst fail done]; try reflexivity.
    destruct (_ || _); cbn [fst fail done]; [reflexivity|]. apply keeps_set; [exact T1|reflexivity].
Qed.
Lemma assign_kind o q v : o_kind (fst (assign o q v)) = o_kind o.
Proof. apply frame_assign. Qed.

(** ** Front codes *)
Lemma below (n : nat) (P : Z -> bool) : forallb P (map Z.of_nat (seq 0 n)) = true ->
  forall z, 0 <= z < Z.of_nat n -> P z = true.
Proof.
  intros H z Hz. rewrite forallb_forall in H. apply H. apply in_map_iff. exists (Z.to_nat z).
  rewrite in_seq. lia.
Qed.
Lemma code_digits_spec z : 0 <= z < 1000 -> code_digits (VInt z) = Ok (z / 100, z / 10 mod 10, z mod 10).
Proof.
  set (P := fun z => match code_digits (VInt z) with
                     | Ok (a, b, c) => (a =? z / 100) && (b =? z / 10 mod 10) && (c =? z mod 10)
                     | Err _ => false end).
  intros H. assert (E : P z = true) by (apply (below 1000); [vm_compute; reflexivity|lia]).
  unfold P in E. destruct (code_digits (VInt z)) as [[[a b] c]|]; [|discriminate].
  apply andb_prop in E as [E E3]. apply andb_prop in E as [E1 E2].
  apply Z.eqb_eq in E1, E2, E3. subst. reflexivity.
Qed.
Lemma join_digits a w c : 0 <= a <= 9 -> 0 <= w <= 9 -> 0 <= c <= 9 ->
  py_int (dec a ++ dec w ++ dec c) = Ok (a * 100 + w * 10 + c).
Proof.
  set (P := fun z => match py_int (dec (z / 100) ++ dec (z / 10 mod 10) ++ dec (z mod 10)) with
                     | Ok n => n =? z | Err _ => false end).
  intros Ha Hw Hc. set (z := a * 100 + w * 10 + c).
  assert (E : P z = true) by (apply (below 1000); [vm_compute; reflexivity|lia]).
  unfold P in E. replace (z / 100) with a in E by lia. replace (z / 10 mod 10) with w in E by lia.
  replace (z mod 10) with c in E by lia. destruct (py_int _); [|discriminate]. apply Z.eqb_eq in E. congruence.
Qed.

(** The digits of a valid code, and the width that goes with them *)
Definition front_ok (o : obj) : Prop :=
  exists c, o_get o "front_code" = VInt c /\ 0 <= c <= 999 /\ o_get o "width" = VInt (c / 10 mod 10) /\
    o_get o "front_type" = VInt (c / 100) /\ o_get o "front_intensity" = VInt (c / 10 mod 10) /\
    o_get o "front_character" = VInt (c mod 10).

Lemma front_code_ok o v o' : set_front_code o v = (o', None) -> front_ok o'.
Proof.
  unfold set_front_code. destruct (in_range v 0 1000) eqn:R; [|discriminate].
  destruct v; try discriminate. unfold in_range, as_int in R.
  rewrite code_digits_spec by lia. intros [= <-]. exists z.
  cbn [set o_get String.eqb Ascii.eqb Bool.eqb]. repeat split; lia.
Qed.
Lemma front_code_int o z : set_front_code o (VInt z) = (o, Some ValueError) \/ exists o', set_front_code o (VInt z) = (o', None).
Proof.
  unfold set_front_code. destruct (in_range (VInt z) 0 1000) eqn:R; [|left; reflexivity].
  right. unfold in_range, as_int in R. rewrite code_digits_spec by lia. eexists. reflexivity.
Qed.
Lemma front_width_int o z : front_ok o ->
  set_front_width o (VInt z) = (o, Some ValueError) \/
  exists o', set_front_width o (VInt z) = (o', None) /\ front_ok o' /\ o_get o' "width" = VInt z.
Proof.
  intros (c & C & R & _). unfold set_front_width. destruct (in_range (VInt z) 1 9) eqn:RZ; [|left; reflexivity].
  right. unfold in_range, as_int in RZ. rewrite C. rewrite code_digits_spec by lia.
  rewrite join_digits by lia. eexists. split; [reflexivity|].
  split; [|reflexivity]. exists (c / 100 * 100 + z * 10 + c mod 10).
  cbn [set o_get String.eqb Ascii.eqb Bool.eqb].
  split; [reflexivity|]. split; [lia|]. repeat split; f_equal; lia.
Qed.
Lemma front_width_bound o v o' x : front_ok o -> set_front_width o v = (o', x) ->
  (exists c, o_get o' "front_code" = VInt c /\ 0 <= c <= 999).
Proof.
  intros (c & C & R & _). unfold set_front_width. destruct (in_range v 1 9) eqn:RZ.
  - rewrite C, code_digits_spec by lia. destruct v; try (intros [= <- <-]; exists c; auto).
    unfold in_range, as_int in RZ. rewrite join_digits by lia. intros [= <- <-].
    exists (c / 100 * 100 + z * 10 + c mod 10). split; [reflexivity|lia].
  - intros [= <- <-]. exists c. auto.
Qed.

(** ** Documented ranges *)

(** [documented] depends on the class, the property and two attributes others may depend on. *)
Lemma documented_ext o o' p : o_kind o' = o_kind o -> value o' p = value o p ->
  (p = PFont -> value o' PTextFlag = value o PTextFlag) ->
  (p = PTurbulence -> value o' PTextType = value o PTextType) ->
  documented o p -> documented o' p.
Proof.
  intros K V F T. unfold documented. rewrite K, V.
  destruct p; try (exact (fun H => H)).
  - rewrite F by reflexivity. exact (fun H => H).
  - rewrite T by reflexivity. exact (fun H => H).
Qed.

(** What a successful or rejected assignment makes of the property itself *)
Lemma checked_value o p v b : let o' := fst (checked o (attribute p) v b) in
  (b = true /\ value o' p = v) \/ (o' = o /\ snd (checked o (attribute p) v b) <> None).
Proof.
  cbv zeta. unfold checked. destruct b; cbn [fst snd done fail]; [left|right; split; [reflexivity|discriminate]].
  split; [reflexivity|]. unfold value. rewrite get_set, String.eqb_refl. reflexivity.
Qed.
Lemma compared_value o p v b : let o' := fst (compared o (attribute p) v b) in
  (b = Ok false /\ value o' p = v) \/ (o' = o /\ snd (compared o (attribute p) v b) <> None).
Proof.
  cbv zeta. unfold compared. destruct b as [[|]|]; cbn [fst snd done fail];
    [right; split; [reflexivity|discriminate]|left|right; split; [reflexivity|discriminate]].
  split; [reflexivity|]. unfold value. rewrite get_set, String.eqb_refl. reflexivity.
Qed.

Lemma of_Z_small_notnan n : In n [0; 1; 10; 99] -> of_Z n <> S754_nan.
Proof. cbn. intros [<-|[<-|[<-|[<-|[]]]]]; vm_compute; discriminate. Qed.
Lemma v_lt_at_least v n : In n [0; 1; 10; 99] -> not_nan v -> v_lt v n = Ok false -> at_least (of_Z n) n v.
Proof.
  intros I N. destruct v; cbn [v_lt at_least]; try discriminate; intros [= H]; [lia|].
  apply not_lt_le; [|apply of_Z_small_notnan; exact I|exact H]. intros ->. apply N. reflexivity.
Qed.
Lemma v_gt_at_most v n : In n [0; 1; 10; 99] -> not_nan v -> v_gt v n = Ok false -> at_most n v.
Proof.
  intros I N. destruct v; cbn [v_gt at_most]; try discriminate; intros [= H]; [lia|].
  apply not_lt_le; [apply of_Z_small_notnan; exact I| |exact H]. intros ->. apply N. reflexivity.
Qed.
Lemma v_lt_tenth_at_least v : not_nan v -> v_lt_tenth v = Ok false -> at_least one_tenth 1 v.
Proof.
  intros N. destruct v; cbn [v_lt_tenth at_least]; try discriminate; intros [= H]; [lia|].
  apply not_lt_le; [intros ->; apply N; reflexivity|discriminate|exact H].
Qed.
Lemma or_else_false a b : or_else a b = Ok false -> a = Ok false /\ b = Ok false.
Proof. unfold or_else. destruct a as [[|]|]; cbn; try discriminate. auto. Qed.

Lemma font_codes z : In z [1; 2; 3; 11; 12; 13; 21; 22; 23; 31; 32; 33] ->
  exists t s, z = t * 10 + s /\ 0 <= t <= 3 /\ 1 <= s <= 3.
Proof.
  intros H. exists (z / 10), (z mod 10). cbn in H. intuition; subst; cbn; lia.
Qed.

Definition invariant_front (o : obj) : Prop :=
  o_kind o = KFront -> whole (fun z => 0 <= z <= 999) (o_get o "front_code").

(** ** Rejected assignments *)
Lemma rejected_unchanged o p v x : has_prop (o_kind o) p = true ->
  (o_kind o = KFront -> p = PFrontCode \/ p = PWidth -> is_int v /\ front_ok o) ->
  snd (assign o p v) = Some x -> fst (assign o p v) = o.
Proof.
  intros HP HF.
  assert (C : forall k b, snd (checked o k v b) = Some x -> fst (checked o k v b) = o).
  { intros k b. unfold checked. destruct b; cbn; congruence. }
  assert (D : forall k b, snd (compared o k v b) = Some x -> fst (compared o k v b) = o).
  { intros k b. unfold compared. destruct b as [[|]|]; cbn; congruence. }
  destruct p; cbn [assign]; try apply C; try apply D; try (cbn; congruence).
  - destruct (o_kind o); try apply D; [|cbn; congruence]. destruct HF as [[z ->] HF]; auto.
    destruct (front_width_int o z HF) as [E|(o' & E & _)]; rewrite E; cbn; congruence.
  - destruct (o_kind o); first [apply C | apply D].
  - cbn [has_prop] in HP. destruct (o_kind o); try discriminate. destruct HF as [[z ->] HF]; auto.
    destruct (front_code_int o z) as [E|(o' & E)]; rewrite E; cbn; congruence.
  - destruct (o_kind o); first [apply C | apply D].
  - destruct (in_range _ _ _); cbn; congruence.
  - unfold set_symbol_code. destruct v; cbn; try congruence. destruct (_ || _); cbn; congruence.
Qed.

Ltac chk :=
  match goal with
  | |- documented (fst (checked ?o ?k ?v ?b)) ?p =>
      let H := fresh "H" in let H1 := fresh "H" in let H2 := fresh "H" in
      destruct (checked_value o p v b) as [[H1 H2]|[H H1]];
      [cbn [attribute] in H2; unfold documented; rewrite ?H2; clear H2
      |cbn [attribute] in H, H1; rewrite H; auto]
  end.
Ltac cmp :=
  match goal with
  | |- documented (fst (compared ?o ?k ?v ?b)) ?p =>
      let H := fresh "H" in let H1 := fresh "H" in let H2 := fresh "H" in
      destruct (compared_value o p v b) as [[H1 H2]|[H H1]];
      [cbn [attribute] in H2; unfold documented; rewrite ?H2; clear H2
      |cbn [attribute] in H, H1; rewrite H; auto]
  end.
Ltac rng := match goal with H : in_range _ _ _ = true |- _ => apply in_range_spec in H; revert H; apply whole_weaken; intros; cbn in *; lia
            | H : in_list _ _ = true |- _ => apply in_list_spec in H; revert H; apply whole_weaken; intros; cbn in *; lia end.

Lemma checked_kind o k v b : o_kind (fst (checked o k v b)) = o_kind o.
Proof. unfold checked. destruct b; reflexivity. Qed.
Lemma compared_kind o k v b : o_kind (fst (compared o k v b)) = o_kind o.
Proof. unfold compared. destruct b as [[|]|]; reflexivity. Qed.

(** Assigning the property itself *)
Lemma assign_documented_self o p v : not_nan v -> (o_kind o = KFront -> p <> PWidth) ->
  (p = PFont -> documented o PTextFlag) ->
  (snd (assign o p v) <> None -> documented o p) -> documented (fst (assign o p v)) p.
Proof.
  intros N FW FT D. destruct p; cbn [assign] in *; try (chk; rng); try exact I.
  - cmp. apply v_lt_at_least; cbn; auto.
  - cmp. apply v_lt_at_least; cbn; auto.
  - destruct (o_kind o) eqn:K; try (exfalso; apply FW; reflexivity);
      try (cmp; rewrite compared_kind, K; apply or_else_false in H0 as [A B];
           split; [apply v_lt_at_least|apply v_gt_at_most]; cbn; auto; fail).
    unfold documented. cbn [set done fst o_kind]. rewrite K. exact I.
  - destruct (o_kind o) eqn:K;
      try (cmp; rewrite compared_kind, K; apply or_else_false in H0 as [A B];
           split; [apply v_lt_at_least|apply v_gt_at_most]; cbn; auto; fail).
    chk. rewrite checked_kind, K. rng.
  - unfold set_front_code in *. destruct (in_range v 0 1000) eqn:R; [|apply D; discriminate].
    apply in_range_spec in R.
    unfold documented. match goal with |- whole _ ?x => assert (X : x = v) end.
    { unfold value. destruct (code_digits v) as [[[a b] c]|]; reflexivity. }
    rewrite X. revert R. apply whole_weaken. intros; lia.
  - cmp. destruct v; try discriminate; injection H0 as H0; [lia|].
    unfold SFleb, SFltb in *. change (of_Z 0) with (S754_zero false) in *.
    destruct f as [[|]|[|]| |[|] m e]; try discriminate; try reflexivity. exfalso. apply N. reflexivity.
  - destruct (o_kind o) eqn:K;
      try (cmp; rewrite compared_kind, K; apply or_else_false in H0 as [A B];
           split; [apply v_lt_tenth_at_least|apply v_gt_at_most]; cbn; auto; fail).
    chk. rewrite checked_kind, K. apply in_list_spec in H0. exact H0.
  - destruct (checked_value o PFont v (negb (in_list (o_get o "text_flag") [2]) ||
         in_list v [1; 2; 3; 11; 12; 13; 21; 22; 23; 31; 32; 33])) as [[H1 H2]|[H H1]]; cbn [attribute] in *; [|rewrite H; auto].
    assert (TF : value (fst (checked o "font" v (negb (in_list (o_get o "text_flag") [2]) ||
         in_list v [1; 2; 3; 11; 12; 13; 21; 22; 23; 31; 32; 33]))) PTextFlag = o_get o "text_flag").
    { unfold checked. destruct (_ || _); reflexivity. }
    unfold documented. rewrite H2, TF. apply orb_prop in H1 as [H1|H1].
    + left. specialize (FT eq_refl). unfold documented, value in FT. cbn [attribute] in FT.
      destruct FT as (z & Z1 & [->| ->]); [exists 1; auto|].
      exfalso. apply negb_true_iff in H1. 
      assert (in_list (o_get o "text_flag") [2] = true); [|congruence].
      apply in_list_spec. exists 2. cbn. auto.
    + right. apply in_list_spec in H1. revert H1. apply whole_weaken. apply font_codes.
  - destruct (in_range v 0 17) eqn:R; [|apply D; discriminate]. apply in_range_spec in R. revert R. apply whole_weaken. intros; lia.
  - match goal with |- documented (fst (checked ?o ?k ?v ?b)) ?p => destruct (checked_value o p v b) as [[H1 H2]|[H H1]] end;
      cbn [attribute] in *; [|rewrite H; auto].
    match goal with |- documented ?o' _ => assert (TT : value o' PTextType = o_get o "text_type") end.
    { unfold checked. match goal with |- context[if ?b then done _ else _] => destruct b end; reflexivity. }
    unfold documented. rewrite H2, TT. clear H2 TT. split; intros W.
    + assert (T : in_list (o_get o "text_type") [7; 9] = true).
      { apply in_list_spec. revert W. apply whole_weaken. intros z [->| ->]; cbn; auto. }
      rewrite T in H1. cbn [andb] in H1. destruct (in_range v 0 9) eqn:R; [|discriminate].
      apply in_range_spec in R. revert R. apply whole_weaken. intros; lia.
    + assert (T : in_list (o_get o "text_type") [12] = true).
      { apply in_list_spec. revert W. apply whole_weaken. intros z ->; cbn; auto. }
      assert (T' : in_list (o_get o "text_type") [7; 9] = false).
      { apply whole_spec in W as (z & Z1 & ->). unfold in_list. rewrite Z1. reflexivity. }
      rewrite T, T' in H1. cbn [andb] in H1. destruct (in_range v 0 11) eqn:R; [|discriminate].
      apply in_range_spec in R. revert R. apply whole_weaken. intros; lia.
  - unfold set_symbol_code in *. destruct v; try (apply D; discriminate).
    destruct ((z <? 1) || _) eqn:R; [apply D; discriminate|]. unfold documented. cbn [set done fst o_kind value attribute o_get String.eqb Ascii.eqb Bool.eqb].
    destruct (o_kind o); (exists z; split; [cbn; reflexivity|lia]).
Qed.

Lemma attribute_inj p q : attribute p = attribute q -> p = q.
Proof. destruct p, q; intros H; try reflexivity; discriminate H. Qed.
Lemma touches_cases kd p q : touches kd q (attribute p) = true -> p = q \/
  (p = PTurbulence /\ q = PTextType) \/ (p = PWidth /\ q = PFrontCode) \/ (p = PFrontCode /\ q = PWidth /\ kd = KFront).
Proof.
  unfold touches. intros T. apply orb_prop in T as [T|T].
  - left. apply attribute_inj. apply String.eqb_eq. exact T.
  - right. destruct q; try discriminate.
    + destruct kd; try discriminate. destruct p; try discriminate. auto.
    + destruct p; try discriminate; auto.
    + destruct p; try discriminate; auto.
Qed.

Lemma assign_documented o p q v : has_prop (o_kind o) q = true -> not_nan v -> (o_kind o = KFront -> p <> PWidth) ->
  (p = PFont -> documented o PTextFlag /\ (q = PTextFlag -> ~ whole (fun z => z = 2) v)) ->
  documented o p -> documented (fst (assign o q v)) p.
Proof.
  intros HP N FW FT D.
  assert (EQ : {p = q} + {p <> q}) by decide equality. destruct EQ as [<-|NE].
  { apply assign_documented_self; auto. intros E. apply FT. exact E. }
  destruct (touches (o_kind o) q (attribute p)) eqn:T.
  - apply touches_cases in T. destruct T as [->|[[-> ->]|[[-> ->]|[-> [-> K]]]]]; [congruence| | |].
    + cbn [assign]. destruct (in_range v 0 17) eqn:R; [|exact D]. unfold documented, done, fst, value. cbn [set o_get attribute String.eqb Ascii.eqb Bool.eqb].
      split; intros _; (exists 0; split; [reflexivity|lia]).
    + exfalso. cbn [has_prop] in HP. destruct (o_kind o); try discriminate. apply FW; reflexivity.
    + cbn [assign]. rewrite K. unfold set_front_width. destruct (in_range v 1 9) eqn:R; [|exact D].
      unfold documented, value in D. cbn [attribute] in D. destruct D as (c & C & B).
      destruct (code_digits (o_get o "front_code")) as [[[a b] d]|] eqn:CD; [|exists c; split; [exact C|exact B]].
      destruct (o_get o "front_code") as [z|f|x|x|] eqn:FC; try discriminate. cbn in C. assert (z = c) by (unfold Qeq in C; cbn in C; lia). subst z.
      rewrite code_digits_spec in CD by lia. injection CD as <- <- <-.
      unfold in_range in R. destruct v; try discriminate R.
      * unfold as_int in R. rewrite join_digits by lia.
        exists (c / 100 * 100 + z * 10 + c mod 10). split; [reflexivity|lia].
      * exists c. split; [|lia]. unfold value. cbn. rewrite FC. reflexivity.
  - assert (TF : {p = PFont /\ q = PTextFlag} + {p = PFont -> q <> PTextFlag}) by (destruct p, q; auto; right; discriminate).
    destruct TF as [[-> ->]|TF].
    + destruct (FT eq_refl) as [_ H]. specialize (H eq_refl). cbn [assign]. unfold checked.
      destruct (in_list v [1; 2]) eqn:L; [|exact D]. apply in_list_spec in L as (z & L & I). cbn [In] in I. destruct I as [<-|[<-|[]]].
      * left. exists 1. split; [exact L|reflexivity].
      * exfalso. apply H. exists 2. auto.
    + apply (documented_ext o); auto.
      * apply assign_kind.
      * apply assign_keeps. exact T.
      * intros ->. specialize (TF eq_refl). apply assign_keeps. cbn [attribute].
        destruct (touches (o_kind o) q "text_flag") eqn:T2; [|reflexivity].
        apply (touches_cases _ PTextFlag) in T2. destruct T2 as [<-|[[T2 _]|[[T2 _]|[T2 _]]]]; try discriminate. congruence.
      * intros ->. apply assign_keeps. cbn [attribute].
        destruct (touches (o_kind o) q "text_type") eqn:T2; [|reflexivity].
        apply (touches_cases _ PTextType) in T2. destruct T2 as [<-|[[T2 _]|[[T2 _]|[T2 _]]]]; try discriminate.
Qed.

Lemma as_int_negate v z : as_int v = Some z -> as_int (negate v) = Some (- z).
Proof.
  destruct v; cbn [as_int negate]; try discriminate; [intros [= <-]; reflexivity|].
  destruct f as [s| | |s m e]; cbn [float_int SFopp]; try discriminate; [intros [= <-]; reflexivity|].
  destruct (integral m e); [|discriminate]. intros [= <-]. destruct s; cbn [negb]; f_equal; lia.
Qed.
Lemma negate_direction v : whole (fun z => z = 1 \/ z = -1) v -> whole (fun z => z = 1 \/ z = -1) (negate v).
Proof.
  rewrite !whole_spec. intros (z & A & B). exists (- z). split; [apply as_int_negate; exact A|lia].
Qed.

Lemma flip_documented o p : documented o p -> documented (flip o) p.
Proof.
  intros D. unfold flip. destruct (o_kind o) eqn:K; try exact D.
  - assert (E : {p = PPipDirection} + {p <> PPipDirection}) by decide equality. destruct E as [->|E].
    + unfold documented, value in *. cbn [attribute] in *. rewrite get_set. cbn [String.eqb Ascii.eqb Bool.eqb].
      apply negate_direction. exact D.
    + apply (documented_ext o); auto; unfold value; rewrite get_set.
      destruct (String.eqb_spec (attribute p) "pip_direction") as [H|H]; [|reflexivity].
      exfalso. apply E. apply (attribute_inj p PPipDirection). exact H.
  - assert (E : {p = PDirection} + {p <> PDirection}) by decide equality. destruct E as [->|E].
    + unfold documented, value in *. cbn [attribute] in *. rewrite get_set. cbn [String.eqb Ascii.eqb Bool.eqb].
      apply negate_direction. exact D.
    + apply (documented_ext o); auto; unfold value; rewrite get_set.
      destruct (String.eqb_spec (attribute p) "direction") as [H|H]; [|reflexivity].
      exfalso. apply E. apply (attribute_inj p PDirection). exact H.
Qed.

(** ** Histories *)
Lemma act_kind o a : o_kind (act o a) = o_kind o.
Proof. apply frame_act. Qed.
Lemma after_kind l : forall o, o_kind (after o l) = o_kind o.
Proof. induction l as [|a l IH]; intros o; cbn; [reflexivity|]. unfold after in IH. rewrite IH. apply act_kind. Qed.

Lemma act_documented o p a : allowed (o_kind o) a = true -> careful p a -> (o_kind o = KFront -> p <> PWidth) ->
  (p = PFont -> documented o PTextFlag) -> documented o p -> documented (act o a) p.
Proof.
  intros A C FW FT D. destruct a as [q v|]; cbn [act allowed careful] in *; [|apply flip_documented; exact D].
  destruct C as [N C]. apply assign_documented; auto.
Qed.
Lemma history_documented p l : forall o, history (careful p) o l -> (o_kind o = KFront -> p <> PWidth) ->
  (p = PFont -> documented o PTextFlag) -> documented o p -> documented (after o l) p.
Proof.
  induction l as [|a l IH]; intros o H FW FT D; cbn; [exact D|].
  inversion H as [|? ? [A C] H']; subst. apply IH.
  - unfold history in *. rewrite act_kind. exact H'.
  - rewrite act_kind. exact FW.
  - intros E. apply act_documented; auto; try discriminate.
    destruct a; cbn in *; [split; [tauto|discriminate]|exact I].
  - apply act_documented; auto.
Qed.

(** Fronts whose code and width are only assigned integers *)
Lemma front_ok_keeps o o' : (forall k, In k ["front_code"; "width"; "front_type"; "front_intensity"; "front_character"] -> o_get o' k = o_get o k) ->
  front_ok o -> front_ok o'.
Proof.
  intros K (c & F). exists c. rewrite !K by (cbn; tauto). exact F.
Qed.
Lemma act_front_ok o a : o_kind o = KFront -> allowed KFront a = true -> front_ints a -> front_ok o -> front_ok (act o a).
Proof.
  intros K A I F. destruct a as [p v|].
  - cbn [act allowed] in *.
    assert (G : forall q, (forall k, In k ["front_code"; "width"; "front_type"; "front_intensity"; "front_character"] ->
              touches KFront q k = false) -> front_ok (fst (assign o q v))).
    { intros q T. apply (front_ok_keeps o); [|exact F]. intros k Hk. apply assign_keeps. rewrite K. apply T. exact Hk. }
    destruct p; try discriminate A;
      try (apply G; intros k Hk; cbn [In] in Hk; intuition (subst; reflexivity)).
    + cbn [front_ints] in I. destruct I as [z ->]. cbn [assign]. rewrite K.
      destruct (front_width_int o z F) as [E|(o' & E & F' & _)]; rewrite E; assumption.
    + cbn [front_ints] in I. destruct I as [z ->]. cbn [assign].
      destruct (front_code_int o z) as [E|(o' & E)]; rewrite E; [assumption|]. apply front_code_ok in E. exact E.
  - cbn [act]. unfold flip. rewrite K. apply (front_ok_keeps o); [|exact F].
    intros k Hk. rewrite get_set. cbn [In] in Hk. intuition (subst; reflexivity).
Qed.
Lemma history_front_ok l : forall o, o_kind o = KFront -> history front_ints o l -> front_ok o -> front_ok (after o l).
Proof.
  induction l as [|a l IH]; intros o K H F; cbn; [exact F|].
  inversion H as [|? ? [A C] H']; subst. apply IH.
  - rewrite act_kind. exact K.
  - unfold history in *. rewrite act_kind. exact H'.
  - apply act_front_ok; auto. rewrite <- K. exact A.
Qed.

(** ** Constructors *)
Definition doc_all (ps : list prop) (o : obj) : Prop := forall p, In p ps -> documented o p.
Lemma assign_ok_inv o q v o' : assign_ok o q v = Ok o' -> fst (assign o q v) = o' /\ snd (assign o q v) = None.
Proof. unfold assign_ok. destruct (assign o q v) as [x [e|]]; [discriminate|]. intros [= <-]. auto. Qed.
Lemma doc_assign ps o q v o' : assign_ok o q v = Ok o' -> has_prop (o_kind o) q = true -> not_nan v ->
  (o_kind o = KFront -> ~ In PWidth (q :: ps)) -> (In PFont (q :: ps) -> In PTextFlag ps /\ q <> PTextFlag) ->
  doc_all ps o -> doc_all (q :: ps) o'.
Proof.
  intros H HP N FW FT D p [->|Hp]; apply assign_ok_inv in H as [<- S].
  - apply assign_documented_self; auto.
    + intros K ->. apply (FW K). left. reflexivity.
    + intros ->. apply D, FT. left. reflexivity.
    + rewrite S. congruence.
  - apply assign_documented; auto.
    + intros K ->. apply (FW K). right. exact Hp.
    + intros ->. split; [|intros ->; exfalso].
      * apply D, FT. right. exact Hp.
      * apply FT; [right; exact Hp|reflexivity].
Qed.
Definition neutral (k : string) (ps : list prop) : bool :=
  negb (String.eqb k "text_flag") && negb (String.eqb k "text_type") &&
  forallb (fun p => negb (String.eqb (attribute p) k)) ps.
Lemma doc_set ps o k v : neutral k ps = true -> doc_all ps o -> doc_all ps (set o k v).
Proof.
  intros N D p Hp. unfold neutral in N. apply andb_prop in N as [N N3]. apply andb_prop in N as [N1 N2].
  rewrite forallb_forall in N3. specialize (N3 p Hp).
  apply (documented_ext o); auto; intros; unfold value; rewrite get_set; cbn [attribute].
  - destruct (String.eqb (attribute p) k); [discriminate|reflexivity].
  - rewrite String.eqb_sym. destruct (String.eqb k "text_flag"); [discriminate|reflexivity].
  - rewrite String.eqb_sym. destruct (String.eqb k "text_type"); [discriminate|reflexivity].
Qed.

Definition stage (k : ekind) (ps : list prop) (o : obj) : Prop := o_kind o = k /\ doc_all ps o.
Definition mem (p : prop) (ps : list prop) : bool := existsb (fun q => String.eqb (attribute p) (attribute q)) ps.
Lemma mem_In p ps : mem p ps = true <-> In p ps.
Proof.
  unfold mem. rewrite existsb_exists. split.
  - intros (q & I & E). apply String.eqb_eq in E. apply attribute_inj in E. subst. exact I.
  - intros I. exists p. split; [exact I|apply String.eqb_refl].
Qed.
Definition stageable (k : ekind) (q : prop) (ps : list prop) : bool :=
  has_prop k q && negb (match k with KFront => mem PWidth (q :: ps) | _ => false end) &&
  (negb (mem PFont (q :: ps)) || (mem PTextFlag ps && negb (mem q [PTextFlag]))).
Lemma stage_assign k ps o q v o' : assign_ok o q v = Ok o' -> stageable k q ps = true -> not_nan v ->
  stage k ps o -> stage k (q :: ps) o'.
Proof.
  intros H SB N [K D]. unfold stageable in SB. apply andb_prop in SB as [SB FT]. apply andb_prop in SB as [HP FW]. split.
  - apply frame_assign_ok in H as [F _]. congruence.
  - eapply doc_assign; try eassumption; rewrite ?K; auto.
    + intros ->. intros C. apply mem_In in C. rewrite C in FW. discriminate.
    + intros C. apply mem_In in C. rewrite C in FT. cbn [negb orb] in FT. apply andb_prop in FT as [A B].
      split; [apply mem_In; exact A|]. intros ->. discriminate B.
Qed.
Lemma stage_set k ps o q v : neutral q ps = true -> stage k ps o -> stage k ps (set o q v).
Proof. intros N [K D]. split; [exact K|apply doc_set; assumption]. Qed.
(** Only the listed properties are claimed *)
Lemma stage_sub k ps ps' o : incl ps' ps -> stage k ps o -> stage k ps' o.
Proof. intros I [K D]. split; [exact K|]. intros p Hp. apply D, I, Hp. Qed.

Definition group_props : list prop := [PGroupType; PGroupNumber].
Lemma base_stage k lat lon : stage k group_props (base k lat lon).
Proof. split; [reflexivity|]. intros p [<-|[<-|[]]]; cbn; reflexivity. Qed.

Ltac stage_tac :=
  repeat match goal with
  | H : assign_ok _ ?q _ = Ok ?o |- stage _ (?q :: _) ?o =>
      eapply stage_assign; [exact H|reflexivity|try assumption|]; clear H
  | |- stage _ _ (set _ _ _) => apply stage_set; [reflexivity|]
  end.

Lemma with_points_stage k lon lat o : with_points k lon lat = Ok o -> stage k group_props o.
Proof.
  unfold with_points. destruct (negb _); [discriminate|]. destruct (_ <? _); [discriminate|].
  destruct (_ <? _); [discriminate|]. intros [= <-]. stage_tac. apply base_stage.
Qed.
Definition line_props : list prop := PSmooth :: PFilled :: PClosed :: PWidth :: PMinorColor :: PMajorColor :: group_props.
Lemma line_base_stage k lon lat c w cl fi sm o : line_base k lon lat c w cl fi sm = Ok o -> is_line k = true ->
  not_nan c -> not_nan w -> not_nan cl -> not_nan fi -> not_nan sm -> stage k line_props o.
Proof.
  unfold line_base. intros H L. intros. repeat (apply bind_ok in H as (? & ? & H)).
  match goal with H : with_points _ _ _ = Ok _ |- _ => apply with_points_stage in H end.
  unfold line_props. destruct k; try discriminate L; stage_tac; assumption.
Qed.

Lemma line_documented lon lat a b c d e f o : new_line lon lat a b c d e f = Ok o ->
  Forall not_nan [a; b; c; d; e; f] -> o_kind o = KLine /\ forall p, has_prop KLine p = true -> documented o p.
Proof.
  unfold new_line. intros H F. repeat (match type of F with Forall _ (_ :: _) => inversion F as [|? ? ? F']; subst; clear F; rename F' into F end).
  repeat (apply bind_ok in H as (? & ? & H)). injection H as <-.
  match goal with H : line_base _ _ _ _ _ _ _ _ = Ok _ |- _ => apply line_base_stage in H; auto end.
  match goal with |- o_kind ?o = _ /\ _ => assert (S : stage KLine (PLineType :: line_props) o) by (stage_tac; assumption) end.
  destruct S as [K D]. split; [exact K|]. intros p HP. destruct p; try discriminate HP; apply D; cbn; tauto.
Qed.

Lemma not_nan_int z : not_nan (VInt z).
Proof. discriminate. Qed.
#[local] Hint Resolve not_nan_int : core.
Lemma not_nan_default a b : not_nan a -> not_nan b -> not_nan (match a with VNone => b | _ => a end).
Proof. destruct a; auto. Qed.
#[local] Hint Resolve not_nan_default : core.

Definition front_props : list prop :=
  PSmooth :: PPipDirection :: PPipStroke :: PPipSize :: PFrontCode :: PFilled :: PClosed :: PMinorColor :: PMajorColor :: group_props.
Lemma front_documented lon lat a b c d e f g o : new_front lon lat a b c d e f g = Ok o ->
  Forall not_nan [a; b; c; d; e; f; g] -> o_kind o = KFront /\ forall p, has_prop KFront p = true -> p <> PWidth -> documented o p.
Proof.
  unfold new_front. intros H F. repeat (match type of F with Forall _ (_ :: _) => inversion F as [|? ? ? F']; subst; clear F; rename F' into F end).
  repeat (apply bind_ok in H as (? & ? & H)).
  match goal with d : (Z * Z * Z)%type |- _ => destruct d as [[? ?] ?] end. injection H as <-.
  match goal with H : with_points _ _ _ = Ok _ |- _ => apply with_points_stage in H end.
  match goal with |- o_kind ?o = _ /\ _ => assert (S : stage KFront front_props o) by (unfold front_props; stage_tac; auto) end.
  destruct S as [K D]. split; [exact K|]. intros p HP NW. destruct p; try discriminate HP; try congruence; apply D; cbn; tauto.
Qed.
Lemma front_ctor_ok lon lat a b c d e f g o : new_front lon lat a b c d e f g = Ok o -> front_ok o /\ o_kind o = KFront.
Proof.
  intros H. assert (K : o_kind o = KFront).
  { unfold new_front in H. apply bind_ok in H as (o1 & H1 & H). apply with_points_ok in H1 as (K & _).
    assert (U1 : under KFront (o_lat o1) (o_lon o1) "number_points" (o_get o1 "number_points") o1) by (repeat split; assumption).
    repeat (apply bind_ok in H as (? & ? & H)).
    match goal with d : (Z * Z * Z)%type |- _ => destruct d as [[? ?] ?] end. injection H as <-.
    match goal with |- o_kind ?o = _ => assert (U : under KFront (o_lat o1) (o_lon o1) "number_points" (o_get o1 "number_points") o) by under_tac end.
    apply U. }
  split; [|exact K]. clear K. unfold new_front in H. repeat (apply bind_ok in H as (? & ? & H)).
  match goal with d : (Z * Z * Z)%type |- _ => destruct d as [[? ?] ?] end. injection H as <-.
  assert (FC : forall o v o', assign_ok o PFrontCode v = Ok o' -> front_ok o').
  { clear. intros o v o' H. apply assign_ok_inv in H as [H1 H2]. cbn [assign] in H1, H2. apply (front_code_ok o v).
    rewrite (surjective_pairing (set_front_code _ _)), H1, H2. reflexivity. }
  match goal with H : assign_ok _ PFrontCode _ = Ok _ |- _ => apply FC in H; rename H into F end. clear FC.
  assert (G : forall o q v o', assign_ok o q v = Ok o' -> In q [PPipSize; PPipStroke; PPipDirection; PSmooth] -> front_ok o -> front_ok o').
  { clear. intros o q v o' H I F. apply assign_ok_inv in H as [<- _]. apply (front_ok_keeps o); [|exact F].
    intros k Hk. apply assign_keeps. cbn [In] in I, Hk. intuition (subst; reflexivity). }
  assert (F4 : front_ok x8).
  { repeat match goal with H : assign_ok _ ?q _ = Ok ?o |- front_ok ?o => eapply G; [exact H|cbn [In]; tauto|]; clear H end. exact F. }
  destruct F4 as (cd & C & R & W & T & I & Ch).
  match goal with H : code_digits _ = Ok _ |- _ => cbn [set o_get String.eqb Ascii.eqb Bool.eqb] in H; rewrite C, code_digits_spec in H by lia; injection H as <- <- <- end.
  exists cd. cbn [set o_get String.eqb Ascii.eqb Bool.eqb]. repeat split; auto; lia.
Qed.

Lemma special_line_documented lon lat a b c d e f g h i o : new_special_line lon lat a b c d e f g h i = Ok o ->
  Forall not_nan [a; b; c; d; e; f; g; h; i] -> o_kind o = KSpecialLine /\ forall p, has_prop KSpecialLine p = true -> documented o p.
Proof.
  unfold new_special_line. intros H F. repeat (match type of F with Forall _ (_ :: _) => inversion F as [|? ? ? F']; subst; clear F; rename F' into F end).
  repeat (apply bind_ok in H as (? & ? & H)).
  match goal with H : line_base _ _ _ _ _ _ _ _ = Ok _ |- _ => apply line_base_stage in H; auto end.
  assert (S : stage KSpecialLine (PSize :: PDirection :: PLineType :: line_props) o).
  { destruct (in_list _ _); [destruct (in_range _ _ _); [|discriminate]|]; injection H as <-; stage_tac; assumption. }
  destruct S as [K D]. split; [exact K|]. intros p HP. destruct p; try discriminate HP; apply D; cbn; tauto.
Qed.

Definition text_props : list prop := PAlign :: PFont :: PTextFlag :: PMinorColor :: PMajorColor :: PTextColor :: PSize :: PClosed :: PFilled :: PSmooth :: group_props.
Lemma special_text_documented a b t c d e f g h i j k l m o : new_special_text a b t c d e f g h i j k l m = Ok o ->
  Forall not_nan [c; d; e; f; g; h; i; m] -> o_kind o = KSpecialText /\ forall p, has_prop KSpecialText p = true -> documented o p.
Proof.
  unfold new_special_text. cbv zeta. intros H F.
  repeat (match type of F with Forall _ (_ :: _) => inversion F as [|? ? ? F']; subst; clear F; rename F' into F end).
  remember (set (set (set (set (set (set (base KSpecialText [] []) "lat" b) "lon" a) "min_lon" a) "min_lat" b) "max_lon" a) "max_lat" b) as o0 eqn:E0.
  assert (U0 : stage KSpecialText (PClosed :: PFilled :: PSmooth :: group_props) o0).
  { subst o0. stage_tac. split; [reflexivity|]. intros p Hp. cbn in Hp.
    destruct Hp as [<-|[<-|[<-|[<-|[<-|[]]]]]]; cbn; try reflexivity; exists 0; split; try reflexivity; auto; lia. }
  clear E0. repeat (apply bind_ok in H as (? & ? & H)). destruct t; try discriminate H.
  destruct (255 <? Zlen (s ++ [0])); [discriminate|].
  assert (S6 : stage KSpecialText text_props x5) by (unfold text_props; stage_tac; auto).
  repeat (apply bind_ok in H as (? & ? & H)). injection H as <-.
  match goal with |- o_kind ?o = _ /\ _ => assert (S : stage KSpecialText (PTurbulence :: PFacecolor :: PEdgecolor :: PTextType :: text_props) o) by (unfold text_props in *; stage_tac; auto) end.
  destruct S as [K D]. split; [exact K|]. intros p HP. destruct p; try discriminate HP; try (apply D; cbn; tauto); try exact I.
  unfold documented. rewrite K. exact I.
Qed.

(** Symbols: only the properties whose setters the constructor uses *)
Lemma symbol_documented mk a b c d e f g h o : new_symbol mk a b c d e f g h = Ok o -> not_nan d ->
  o_kind o = (if mk then KMarker else KSpecialSymbol) /\
  forall p, In p [PMinorColor; PMajorColor; PClosed; PFilled; PSmooth; PGroupType; PGroupNumber] -> documented o p.
Proof.
  unfold new_symbol. cbv zeta. intros H N.
  match type of H with context[set (base ?k [] []) "number_symbols" (VInt 1)] => set (k0 := k) in * end.
  assert (U0 : stage k0 (PClosed :: PFilled :: PSmooth :: group_props) (base k0 [] [])).
  { split; [reflexivity|]. intros p Hp. cbn in Hp.
    destruct Hp as [<-|[<-|[<-|[<-|[<-|[]]]]]]; cbn; try reflexivity; exists 0; split; try reflexivity; auto; lia. }
  repeat (apply bind_ok in H as (? & ? & H)). injection H as <-.
  match goal with |- o_kind ?o = _ /\ _ => assert (S : stage k0 (PMinorColor :: PMajorColor :: PClosed :: PFilled :: PSmooth :: group_props) o) end.
  { subst k0. destruct mk; stage_tac; auto. }
  exact S.
Qed.
