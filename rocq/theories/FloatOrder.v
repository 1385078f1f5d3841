(** Comparison of binary64 values is a strict order on everything but NaN. *)
From Coq Require Import Lia ZifyBool SpecFloat ZArith Bool.
From Verif Require Import Base Floats Calc CalcNum SpecMergeOrder MergeOrder VgfRangeFacts.
Open Scope Z_scope.

Lemma fin_compare s m e s' m' e' : SFcompare (S754_finite s m e) (S754_finite s' m' e') =
  Some (match s, s' with
        | true, false => Lt | false, true => Gt
        | false, false => match e ?= e' with Lt => Lt | Gt => Gt | Eq => (m ?= m')%positive end
        | true, true => match e ?= e' with Lt => Gt | Gt => Lt | Eq => CompOpp (m ?= m')%positive end
        end).
Proof. destruct s, s'; cbn; try reflexivity; destruct (e ?= e'); reflexivity. Qed.
(** A value's place: class, exponent, mantissa *)
Definition place3 (x : flt) : Z * Z * Z :=
  match x with
  | S754_infinity true => (-2, 0, 0) | S754_finite true m e => (-1, - e, - Z.pos m) | S754_zero _ => (0, 0, 0)
  | S754_finite false m e => (1, e, Z.pos m) | S754_infinity false => (2, 0, 0) | S754_nan => (3, 0, 0)
  end.
Definition lt3 (a b : Z * Z * Z) : Prop :=
  let '(a1, a2, a3) := a in let '(b1, b2, b3) := b in a1 < b1 \/ (a1 = b1 /\ (a2 < b2 \/ (a2 = b2 /\ a3 < b3))).
Lemma ltb_place x y : not_nan x -> not_nan y -> (SFltb x y = true <-> lt3 (place3 x) (place3 y)).
Proof.
  intros NX NY. unfold SFltb. unfold not_nan in *.
  destruct x as [s|s| |s m e], y as [s'|s'| |s' m' e']; try congruence; try (destruct s, s'; cbn; intuition (lia || discriminate)); try (destruct s; cbn; intuition (lia || discriminate)); try (destruct s'; cbn; intuition (lia || discriminate)).
  rewrite fin_compare. destruct s, s'; cbn [place3 lt3]; try (intuition (lia || discriminate)).
  - destruct (Z.compare_spec e e') as [E|E|E]; [|intuition (lia || discriminate)..].
    destruct (Pos.compare_spec m m') as [F|F|F]; cbn [CompOpp]; intuition (lia || discriminate).
  - destruct (Z.compare_spec e e') as [E|E|E]; [|intuition (lia || discriminate)..].
    destruct (Pos.compare_spec m m') as [F|F|F]; intuition (lia || discriminate).
Qed.
Lemma eqb_place x y : not_nan x -> not_nan y -> (SFeqb x y = true <-> place3 x = place3 y).
Proof.
  intros NX NY. unfold SFeqb. unfold not_nan in *.
  destruct x as [s|s| |s m e], y as [s'|s'| |s' m' e']; try congruence; try (destruct s, s'; cbn; intuition (lia || congruence)); try (destruct s; cbn; intuition (lia || congruence)); try (destruct s'; cbn; intuition (lia || congruence)).
  rewrite fin_compare. destruct s, s'; cbn [place3]; try (intuition (lia || congruence)).
  - destruct (Z.compare_spec e e') as [E|E|E]; [|split; intros H; [discriminate|injection H; lia]..].
    destruct (Pos.compare_spec m m') as [F|F|F]; cbn [CompOpp]; split; intros H; try discriminate; try (injection H; lia); subst; reflexivity.
  - destruct (Z.compare_spec e e') as [E|E|E]; [|split; intros H; [discriminate|injection H; lia]..].
    destruct (Pos.compare_spec m m') as [F|F|F]; split; intros H; try discriminate; try (injection H; lia); subst; reflexivity.
Qed.
Lemma float_ordered ad su mu di md lg ex : ordered (f64_with ad su mu di md SFabs lg ex) not_nan.
Proof.
  constructor; cbn [n_lt n_eq n_abs f64_with num].
  - intros x X. apply not_true_iff_false. rewrite ltb_place by assumption. destruct (place3 x) as [[a b] c]. cbn. lia.
  - intros x y z X Y Z1. rewrite !ltb_place by assumption. destruct (place3 x) as [[a b] c], (place3 y) as [[a' b'] c'], (place3 z) as [[a'' b''] c'']. cbn. lia.
  - intros x y X Y L1 L2. apply eqb_place; [assumption..|]. apply not_true_iff_false in L1, L2. rewrite ltb_place in L1, L2 by assumption.
    destruct (place3 x) as [[a b] c], (place3 y) as [[a' b'] c']. cbn in *. assert (a = a') by lia. assert (b = b') by lia. assert (c = c') by lia. congruence.
  - intros x y X Y E. apply eqb_place in E; [|assumption..]. apply not_true_iff_false. rewrite ltb_place by assumption. rewrite E. destruct (place3 y) as [[a b] c]. cbn. lia.
  - intros x X. unfold not_nan in *. destruct x; cbn; congruence.
Qed.
Lemma abs_not_negative x m : not_nan x -> not_nan m -> SFltb m (of_Z 0) = true -> SFeqb (SFabs x) m = false.
Proof.
  intros X M L. apply not_true_iff_false. unfold not_nan in *. destruct m as [s|s| |s m e]; try congruence; try (destruct s); try discriminate L; destruct x; try congruence; cbn; try discriminate.
Qed.
