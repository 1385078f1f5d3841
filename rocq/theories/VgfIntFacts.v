(** Integer values of the attributes a reader checks: they stay in range through every history,
    whatever else is assigned. *)
From Coq Require Import Lia ZifyBool ZifyNat.
From Verif Require Import Base BaseFacts Floats Structs Vgf SpecVgf VgfFacts VgfRangeFacts VgfShapeFacts.
From Coq Require Import List.
Import ListNotations.
Open Scope string_scope.
Open Scope list_scope.
Open Scope Z_scope.

Definition int_range (k : ekind) (p : prop) (z : Z) : Prop :=
  match p with
  | PMajorColor | PMinorColor => 0 <= z <= 32
  | PLineType => match k with KSpecialLine => 1 <= z <= 26 | _ => 0 <= z <= 99 end
  | PFrontCode => 0 <= z <= 999
  | _ => True
  end.
Definition idoc (o : obj) (p : prop) : Prop := forall z, value o p = VInt z -> int_range (o_kind o) p z.
Definition idocs (o : obj) : Prop := forall p, idoc o p.

Lemma idoc_checked o p v b : idoc o p -> (b = true -> forall z, v = VInt z -> int_range (o_kind o) p z) ->
  idoc (fst (checked o (attribute p) v b)) p.
Proof.
  intros D H. unfold idoc. rewrite checked_kind. destruct (checked_value o p v b) as [[B V]|[E _]].
  - rewrite V. apply H, B.
  - rewrite E. exact D.
Qed.
Lemma idoc_compared o p v b : idoc o p -> (b = Ok false -> forall z, v = VInt z -> int_range (o_kind o) p z) ->
  idoc (fst (compared o (attribute p) v b)) p.
Proof.
  intros D H. unfold idoc. rewrite compared_kind. destruct (compared_value o p v b) as [[B V]|[E _]].
  - rewrite V. apply H, B.
  - rewrite E. exact D.
Qed.

Lemma front_width_idoc o v : idoc o PFrontCode -> idoc (fst (set_front_width o v)) PFrontCode.
Proof.
  intros D. unfold set_front_width. destruct (in_range v 1 9) eqn:R; [|exact D].
  destruct (code_digits (o_get o "front_code")) as [[[a b] c]|] eqn:C; [|exact D].
  destruct v as [w| | | | ]; try exact D.
  destruct (o_get o "front_code") as [code| | | | ] eqn:E; try discriminate C.
  assert (B : 0 <= code <= 999) by (apply (D code); exact E). rewrite code_digits_spec in C by lia. injection C as <- <- <-.
  unfold in_range, as_int in R. rewrite join_digits by (Z.div_mod_to_equations; lia). intros z Hz. cbn in Hz. injection Hz as <-.
  cbn. Z.div_mod_to_equations. lia.
Qed.
Lemma front_code_idoc o v : idoc o PFrontCode -> idoc (fst (set_front_code o v)) PFrontCode.
Proof.
  intros D. unfold set_front_code. destruct (in_range v 0 1000) eqn:R; [|exact D].
  assert (W : forall z, v = VInt z -> 0 <= z <= 999) by (intros z ->; unfold in_range, as_int in R; lia).
  destruct (code_digits v) as [[[a b] c]|]; intros z Hz; cbn in Hz; apply W; exact Hz.
Qed.

Lemma idocs_assign o q v : has_prop (o_kind o) q = true -> idocs o -> idocs (fst (assign o q v)).
Proof.
  intros HQ D p. destruct (touches (o_kind o) q (attribute p)) eqn:T.
  - apply touches_cases in T as [<-|[(-> & ->)|[(-> & ->)|(-> & -> & K)]]]; try (intros z _; exact I).
    + destruct p; try (intros z _; exact I); cbn [assign].
      * apply (idoc_checked o PMajorColor); [apply D|]. intros R z ->. unfold in_range, as_int in R. cbn. lia.
      * apply (idoc_checked o PMinorColor); [apply D|]. intros R z ->. unfold in_range, as_int in R. cbn. lia.
      * destruct (o_kind o) eqn:K; try discriminate HQ.
        -- apply (idoc_compared o PLineType); [apply D|]. intros R z ->. cbn in R. rewrite K. cbn.
           destruct (Z.ltb_spec z 0), (Z.ltb_spec 99 z); cbn in R; try discriminate R; lia.
        -- apply (idoc_checked o PLineType); [apply D|]. intros R z ->. unfold in_range, as_int in R. rewrite K. cbn. lia.
      * apply front_code_idoc, D.
    + cbn [assign]. rewrite K. apply front_width_idoc, D.
  - intros z. unfold value. rewrite (assign_keeps o q v _ T), assign_kind. apply D.
Qed.
Lemma idocs_assign_ok k o q v o' : assign_ok o q v = Ok o' -> o_kind o = k -> has_prop k q = true -> idocs o -> idocs o'.
Proof. intros H <- HQ D. apply assign_ok_inv in H as [<- _]. apply idocs_assign; assumption. Qed.
Definition color_key (k : string) : bool := existsb (String.eqb k) ["major_color"; "minor_color"; "line_type"; "front_code"].
Lemma idocs_set o k v : color_key k = false -> idocs o -> idocs (set o k v).
Proof.
  intros C D p z. unfold value. rewrite get_set. destruct (String.eqb_spec (attribute p) k) as [<-|_]; [|apply D].
  intros _. destruct p; try exact I; discriminate C.
Qed.
Lemma base_idocs k lat lon : idocs (base k lat lon).
Proof. intros p z. destruct p; cbn; try discriminate; try (intros [= <-]); try lia; try exact (fun _ => I); try exact I. Qed.

(** With the kind along, as the tactic needs it *)
Definition kidocs (k : ekind) (o : obj) : Prop := o_kind o = k /\ idocs o.
Lemma kidocs_set k o q v : color_key q = false -> kidocs k o -> kidocs k (set o q v).
Proof. intros C [K D]. split; [exact K|apply idocs_set; assumption]. Qed.
Lemma kidocs_assign k o q v o' : assign_ok o q v = Ok o' -> has_prop k q = true -> kidocs k o -> kidocs k o'.
Proof.
  intros H HQ [K D]. split; [rewrite (kind_assign _ _ _ _ H); exact K|]. eapply idocs_assign_ok; eassumption.
Qed.
Ltac idoc_tac :=
  repeat match goal with
  | |- kidocs _ (set _ _ _) => apply kidocs_set; [reflexivity|]
  | H : assign_ok _ _ _ = Ok ?o |- kidocs _ ?o => eapply kidocs_assign; [exact H|reflexivity|]; clear H
  end; try assumption.
Lemma base_kidocs k lat lon : kidocs k (base k lat lon).
Proof. split; [reflexivity|apply base_idocs]. Qed.
Lemma with_points_kidocs k lon lat o : with_points k lon lat = Ok o -> kidocs k o.
Proof.
  unfold with_points. destruct (negb _); [discriminate|]. destruct (_ <? _); [discriminate|].
  destruct (_ <? _); [discriminate|]. intros [= <-]. idoc_tac. apply base_kidocs.
Qed.
Lemma line_base_kidocs k lon lat c w cl fi sm o : line_base k lon lat c w cl fi sm = Ok o -> is_line k = true -> kidocs k o.
Proof.
  unfold line_base. intros H L. apply bind_ok in H as (o1 & H1 & H). apply with_points_kidocs in H1.
  repeat (apply bind_ok in H as (? & ? & H)). destruct k; try discriminate L; idoc_tac.
Qed.

Lemma built_idocs o : built o -> idocs o.
Proof.
  induction 1 as [? ? ? ? ? ? ? ? ? H|? ? ? ? ? ? ? ? ? ? H|? ? ? ? ? ? ? ? ? ? ? ? H|? ? ? ? ? ? ? ? ? ? ? ? ? ? ? H|? ? ? ? ? ? ? ? ? ? H|o a B IH A].
  - unfold new_line in H. apply bind_ok in H as (o1 & H1 & H). apply line_base_kidocs in H1; [|reflexivity].
    apply bind_ok in H as (o2 & H2 & H). injection H as <-.
    match goal with |- idocs ?o => enough (kidocs KLine o) as [_ D] by exact D end. idoc_tac.
  - unfold new_front in H. apply bind_ok in H as (o1 & H1 & H). apply with_points_kidocs in H1.
    repeat (apply bind_ok in H as (? & ? & H)).
    match goal with d : (Z * Z * Z)%type |- _ => destruct d as [[? ?] ?] end. injection H as <-.
    match goal with |- idocs ?o => enough (kidocs KFront o) as [_ D] by exact D end. idoc_tac.
  - unfold new_special_line in H. apply bind_ok in H as (o1 & H1 & H). apply line_base_kidocs in H1; [|reflexivity].
    repeat (apply bind_ok in H as (? & ? & H)).
    enough (kidocs KSpecialLine o) as [_ D] by exact D.
    destruct (in_list _ _); [destruct (in_range _ _ _); [|discriminate]|]; injection H as <-; idoc_tac.
  - unfold new_special_text in H. cbv zeta in H. repeat (apply bind_ok in H as (? & ? & H)). destruct c; try discriminate H.
    destruct (_ <? _); [discriminate|]. repeat (apply bind_ok in H as (? & ? & H)). injection H as <-.
    match goal with |- idocs ?o => enough (kidocs KSpecialText o) as [_ D] by exact D end. idoc_tac. apply base_kidocs.
  - unfold new_symbol in H. cbv zeta in H. repeat (apply bind_ok in H as (? & ? & H)). injection H as <-.
    match goal with |- idocs ?o => enough (kidocs (if mk then KMarker else KSpecialSymbol) o) as [_ D] by exact D end.
    destruct mk; idoc_tac; apply base_kidocs.
  - destruct a as [q v|]; cbn [act allowed] in *; [apply idocs_assign; assumption|].
    unfold flip. destruct (o_kind o); try assumption; apply idocs_set; auto.
Qed.

(** No element is marked as deleted. *)
Definition kept (o : obj) : Prop := o_get o "delete" = VInt 0.
Lemma kept_set o k v : String.eqb "delete" k = false -> kept o -> kept (set o k v).
Proof. intros E K. unfold kept. rewrite get_set, E. exact K. Qed.
Lemma kept_assign o q v o' : assign_ok o q v = Ok o' -> kept o -> kept o'.
Proof. intros H K. unfold kept. rewrite (get_assign _ _ _ _ _ H) by reflexivity. exact K. Qed.
Ltac kept_tac :=
  repeat match goal with
  | |- kept (set _ _ _) => apply kept_set; [reflexivity|]
  | H : assign_ok _ _ _ = Ok ?o |- kept ?o => eapply kept_assign; [exact H|]; clear H
  end; try assumption.
Lemma with_points_kept k lon lat o : with_points k lon lat = Ok o -> kept o.
Proof.
  unfold with_points. destruct (negb _); [discriminate|]. destruct (_ <? _); [discriminate|].
  destruct (_ <? _); [discriminate|]. intros [= <-]. kept_tac. reflexivity.
Qed.
Lemma line_base_kept k lon lat c w cl fi sm o : line_base k lon lat c w cl fi sm = Ok o -> kept o.
Proof.
  unfold line_base. intros H. apply bind_ok in H as (o1 & H1 & H). apply with_points_kept in H1.
  repeat (apply bind_ok in H as (? & ? & H)). kept_tac.
Qed.
Lemma built_kept o : built o -> kept o.
Proof.
  induction 1 as [? ? ? ? ? ? ? ? ? H|? ? ? ? ? ? ? ? ? ? H|? ? ? ? ? ? ? ? ? ? ? ? H|? ? ? ? ? ? ? ? ? ? ? ? ? ? ? H|? ? ? ? ? ? ? ? ? ? H|o a B IH A].
  - unfold new_line in H. apply bind_ok in H as (o1 & H1 & H). apply line_base_kept in H1.
    apply bind_ok in H as (o2 & H2 & H). injection H as <-. kept_tac.
  - unfold new_front in H. apply bind_ok in H as (o1 & H1 & H). apply with_points_kept in H1.
    repeat (apply bind_ok in H as (? & ? & H)).
    match goal with d : (Z * Z * Z)%type |- _ => destruct d as [[? ?] ?] end. injection H as <-. kept_tac.
  - unfold new_special_line in H. apply bind_ok in H as (o1 & H1 & H). apply line_base_kept in H1.
    repeat (apply bind_ok in H as (? & ? & H)).
    destruct (in_list _ _); [destruct (in_range _ _ _); [|discriminate]|]; injection H as <-; kept_tac.
  - unfold new_special_text in H. cbv zeta in H. repeat (apply bind_ok in H as (? & ? & H)). destruct c; try discriminate H.
    destruct (_ <? _); [discriminate|]. repeat (apply bind_ok in H as (? & ? & H)). injection H as <-. kept_tac. reflexivity.
  - unfold new_symbol in H. cbv zeta in H. repeat (apply bind_ok in H as (? & ? & H)). injection H as <-. kept_tac. reflexivity.
  - unfold kept. destruct (frame_act o a) as (_ & _ & _ & F). rewrite F by reflexivity. exact IH.
Qed.
