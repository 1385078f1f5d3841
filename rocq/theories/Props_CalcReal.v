(** Property C57 in exact real arithmetic. *)
From Verif Require Import Base Calc CalcReal.
From Coq Require Import List ZArith Reals Lra Lia.
Import ListNotations.
Open Scope R_scope.

Lemma lt_true (x y : R) : n_lt reals x y = true <-> x < y.
Proof. cbn. destruct (Rlt_dec x y); split; intros; auto; try lra; discriminate. Qed.
Lemma le_false (x y : R) : n_le reals x y = false <-> y < x.
Proof. cbn. destruct (Rle_dec x y); split; intros; auto; try lra; discriminate. Qed.
Lemma eq_true (x y : R) : n_eq reals x y = true <-> x = y.
Proof. cbn. destruct (Req_EM_T x y); split; intros; auto; try contradiction; discriminate. Qed.
Lemma lit_0 : lit reals 0 0 = 0.
Proof. unfold lit. cbn. lra. Qed.
Lemma lit_int m : lit reals m 0 = IZR m.
Proof. unfold lit. cbn. lra. Qed.

Lemma rmod_range x y : 0 < y -> 0 <= rmod x y < y.
Proof.
  intros Y. unfold rmod. destruct (base_Int_part (x / y)) as [H1 H2].
  assert (E : x = y * (x / y)) by (field; lra). set (q := IZR (Int_part (x / y))) in *. set (d := x / y) in *. rewrite E.
  assert (0 <= y * (d - q)) by (apply Rmult_le_pos; lra). assert (0 < y * (1 - (d - q))) by (apply Rmult_lt_0_compat; lra). lra.
Qed.
Lemma rmod_same x : same_angle (rmod x 360) x.
Proof. exists (- Int_part (x / 360))%Z. unfold rmod. rewrite opp_IZR. lra. Qed.
Lemma ratio p1 p2 v : 0 < p1 -> 0 < p2 -> (p1 < v < p2 \/ p2 < v < p1) -> 0 < ln (v / p1) / ln (p2 / p1) < 1.
Proof.
  intros H1 H2 [[A B]|[A B]].
  - assert (L1 : 0 < ln (v / p1)).
    { rewrite <- ln_1. apply ln_increasing; [lra|]. apply (Rmult_lt_reg_r p1); [lra|]. unfold Rdiv. rewrite Rmult_assoc, Rinv_l by lra. lra. }
    assert (L2 : ln (v / p1) < ln (p2 / p1)).
    { apply ln_increasing; [apply Rdiv_lt_0_compat; lra|]. apply Rmult_lt_compat_r; [apply Rinv_0_lt_compat; lra|lra]. }
    split; [apply Rdiv_lt_0_compat; lra|]. apply (Rmult_lt_reg_r (ln (p2 / p1))); [lra|]. unfold Rdiv at 1. rewrite Rmult_assoc, Rinv_l by lra. lra.
  - assert (L1 : ln (v / p1) < 0).
    { rewrite <- ln_1. apply ln_increasing; [apply Rdiv_lt_0_compat; lra|]. apply (Rmult_lt_reg_r p1); [lra|]. unfold Rdiv. rewrite Rmult_assoc, Rinv_l by lra. lra. }
    assert (L2 : ln (p2 / p1) < ln (v / p1)).
    { apply ln_increasing; [apply Rdiv_lt_0_compat; lra|]. apply Rmult_lt_compat_r; [apply Rinv_0_lt_compat; lra|lra]. }
    replace (ln (v / p1) / ln (p2 / p1)) with (- ln (v / p1) / - ln (p2 / p1)) by (field; lra).
    split; [apply Rdiv_lt_0_compat; lra|]. apply (Rmult_lt_reg_r (- ln (p2 / p1))); [lra|]. unfold Rdiv at 1. rewrite Rmult_assoc, Rinv_l by lra. lra.
Qed.
Lemma line_between a b r : 0 < r < 1 -> in_between a b (a + (b - a) * r).
Proof.
  intros [R0 R1]. unfold in_between, Rmin, Rmax. destruct (Rle_dec a b) as [L|L].
  - assert (0 <= (b - a) * r) by (apply Rmult_le_pos; lra). assert (0 <= (b - a) * (1 - r)) by (apply Rmult_le_pos; lra). lra.
  - assert (0 <= (a - b) * r) by (apply Rmult_le_pos; lra). assert (0 <= (a - b) * (1 - r)) by (apply Rmult_le_pos; lra). lra.
Qed.

Lemma interp_inv v (ad bd : key -> R) m out : interp_parameters reals v ad bd m = Ok out ->
  0 < ad PRES /\ 0 < bd PRES /\ (ad PRES < v < bd PRES \/ bd PRES < v < ad PRES) /\
  forall k, (ad k = m \/ bd k = m -> out k = m) /\ (ad k <> m -> bd k <> m -> out k =
     match k with DRCT => interp_angle reals (ad k) (bd k) (ln (v / ad PRES) / ln (bd PRES / ad PRES))
     | _ => ad k + (bd k - ad k) * (ln (v / ad PRES) / ln (bd PRES / ad PRES)) end).
Proof.
  intros H. unfold interp_parameters in H. cbv zeta in H. destruct (interp_between reals v (ad PRES) (bd PRES)) eqn:B; cbn [negb] in H; [|discriminate].
  destruct (n_le reals (ad PRES) (lit reals 0 0)) eqn:L1; [discriminate|]. destruct (n_le reals (bd PRES) (lit reals 0 0)) eqn:L2; [discriminate|]. cbn [orb] in H.
  apply le_false in L1, L2. rewrite lit_0 in L1, L2. split; [exact L1|]. split; [exact L2|]. split.
  - unfold interp_between in B. apply Bool.orb_true_iff in B as [B|B]; apply Bool.andb_true_iff in B as [B B3]; apply Bool.andb_true_iff in B as [B1 B2];
      apply lt_true in B1, B2, B3; [left|right]; lra.
  - intros k. match type of H with Ok ?f = Ok _ => assert (E : out = f) by congruence; rewrite E end. unfold isin. cbn [existsb].
    destruct (n_eq reals (ad k) m) eqn:E1; [apply eq_true in E1; split; [reflexivity|contradiction]|].
    destruct (n_eq reals (bd k) m) eqn:E2; [apply eq_true in E2; split; [reflexivity|contradiction]|]. cbn [orb]. split.
    + intros [D|D]; apply eq_true in D; congruence.
    + intros _ _. destruct k; reflexivity.
Qed.

(** In exact arithmetic (rounding is what is missing): every value other than the wind direction
    lies between the two levels' values, and is the value linear in the logarithm of pressure; it
    is the missing value exactly where one of the two is. *)
Theorem C57_between_partial : forall v (adata bdata : key -> R) m out k,
  interp_parameters reals v adata bdata m = Ok out -> k <> DRCT ->
  (adata k <> m -> bdata k <> m -> in_between (adata k) (bdata k) (out k) /\
     out k = adata k + (bdata k - adata k) * (ln (v / adata PRES) / ln (bdata PRES / adata PRES))) /\
  (adata k = m \/ bdata k = m -> out k = m).
Proof.
  intros v a b m out k H K. apply interp_inv in H as (H1 & H2 & B & O). destruct (O k) as [OM OP]. split; [|exact OM].
  intros N1 N2. pose proof (OP N1 N2) as E.
  assert (F : out k = a k + (b k - a k) * (ln (v / a PRES) / ln (b PRES / a PRES))) by (destruct k; congruence || exact E).
  split; [|exact F]. rewrite F. apply line_between, ratio; auto.
Qed.
Print Assumptions C57_between_partial.

(** The wind direction: the missing value where one of the two is, and otherwise in [0,360), on
    the shorter of the two arcs between the two directions. *)
Theorem C57_direction_partial : forall v (adata bdata : key -> R) m out,
  interp_parameters reals v adata bdata m = Ok out ->
  (adata DRCT <> m -> bdata DRCT <> m ->
     0 <= out DRCT < 360 /\
     exists a b x, same_angle a (adata DRCT) /\ same_angle b (bdata DRCT) /\ Rabs (a - b) <= 180 /\
       in_between a b x /\ same_angle (out DRCT) x) /\
  (adata DRCT = m \/ bdata DRCT = m -> out DRCT = m).
Proof.
  intros v a b m out H. apply interp_inv in H as (H1 & H2 & B & O). destruct (O DRCT) as [OM OP]. split; [|exact OM].
  intros N1 N2. specialize (OP N1 N2). clear O. rename OP into O. unfold interp_angle in O.
    set (r := ln (v / a PRES) / ln (b PRES / a PRES)) in *. assert (R01 : 0 < r < 1) by (apply ratio; auto). rewrite !lit_int in O.
    cbn [n_mod n_abs n_sub n_add n_mul reals] in O.
    pose proof (rmod_range (a DRCT) 360 ltac:(lra)) as RA. pose proof (rmod_range (b DRCT) 360 ltac:(lra)) as RB.
    pose proof (rmod_same (a DRCT)) as SA. pose proof (rmod_same (b DRCT)) as SB.
    set (x := rmod (a DRCT) 360) in *. set (y := rmod (b DRCT) 360) in *.
    assert (UP : forall z w, same_angle z w -> same_angle (z + 360) w).
    { intros z w (k & E). exists (k + 1)%Z. rewrite plus_IZR. lra. }
    assert (G : exists x' y', out DRCT = rmod (x' + (y' - x') * r) 360 /\ same_angle x' (a DRCT) /\ same_angle y' (b DRCT) /\ Rabs (x' - y') <= 180).
    { unfold n_gt in O. destruct (n_lt reals 180 (Rabs (x - y))) eqn:C.
      - apply lt_true in C. destruct (n_lt reals x y) eqn:D.
        + apply lt_true in D. exists (x + 360), y. split; [exact O|]. split; [auto|]. split; [auto|].
          rewrite Rabs_left in C by lra. rewrite Rabs_right by lra. lra.
        + assert (D' : y <= x). { destruct (Rle_dec y x); [assumption|]. assert (x < y) as E by lra. apply lt_true in E. congruence. }
          exists x, (y + 360). split; [exact O|]. split; [auto|]. split; [auto|].
          rewrite Rabs_right in C by lra. rewrite Rabs_left by lra. lra.
      - assert (C' : Rabs (x - y) <= 180). { destruct (Rle_dec (Rabs (x - y)) 180); [assumption|]. assert (180 < Rabs (x - y)) as E by lra. apply lt_true in E. congruence. }
        exists x, y. auto. }
    destruct G as (x' & y' & E & SX & SY & AB). split.
    + rewrite E. apply rmod_range. lra.
    + exists x', y', (x' + (y' - x') * r). split; [exact SX|]. split; [exact SY|]. split; [exact AB|]. split; [apply line_between; exact R01|].
      rewrite E. apply rmod_same.
Qed.
Print Assumptions C57_direction_partial.

(** 850 hPa between 1000 and 700 hPa, winds from 350 and 10 degrees: accepted. *)
Definition low (k : key) : R := match k with PRES => 1000 | HGHT => 100 | TEMP => 20 | DWPT => -9999 | DRCT => 350 | SPED => 10 end.
Definition high (k : key) : R := match k with PRES => 700 | HGHT => 3000 | TEMP => 5 | DWPT => 0 | DRCT => 10 | SPED => 20 end.
Example C57_ex : exists out, interp_parameters reals 850 low high (-9999) = Ok out /\ in_between 5 20 (out TEMP) /\ out DWPT = -9999 /\ 0 <= out DRCT < 360.
Proof.
  assert (E : exists out, interp_parameters reals 850 low high (-9999) = Ok out).
  { unfold interp_parameters. cbv zeta.
    assert (B : interp_between reals 850 (low PRES) (high PRES) = true).
    { unfold interp_between. apply Bool.orb_true_iff. right. rewrite !Bool.andb_true_iff, !lt_true. cbn. lra. }
    rewrite B. cbn [negb]. rewrite !(proj2 (le_false _ _)) by (rewrite lit_0; cbn; lra). cbn [orb]. eauto. }
  destruct E as (out & E). exists out. split; [exact E|].
  destruct (C57_between_partial 850 low high (-9999) out TEMP E ltac:(discriminate)) as [T _].
  destruct (C57_between_partial 850 low high (-9999) out DWPT E ltac:(discriminate)) as [_ D].
  destruct (C57_direction_partial 850 low high (-9999) out E) as [W _]. cbn [low high] in *.
  split; [|split; [apply D; auto|apply W; lra]]. destruct T as [T _]; [lra|lra|]. unfold in_between in *. rewrite Rmin_comm, Rmax_comm. exact T.
Qed.

(** The result's own pressure is not the pressure asked for: it too is interpolated linearly. *)
Theorem C57_result_pressure_refuted : exists v (adata bdata : key -> R) out,
  interp_parameters reals v adata bdata (-9999) = Ok out /\ out PRES <> v.
Proof.
  exists 2, (fun _ => 4), (fun _ => 1).
  assert (E : exists out, interp_parameters reals 2 (fun _ => 4) (fun _ => 1) (-9999) = Ok out).
  { unfold interp_parameters. cbv zeta.
    assert (B : interp_between reals 2 4 1 = true).
    { unfold interp_between. apply Bool.orb_true_iff. right. rewrite !Bool.andb_true_iff, !lt_true. lra. }
    rewrite B. cbn [negb]. rewrite !(proj2 (le_false _ _)) by (rewrite lit_0; lra). cbn [orb]. eauto. }
  destruct E as (out & E). exists out. split; [exact E|].
  destruct (C57_between_partial _ _ _ _ out PRES E ltac:(discriminate)) as [T _]. destruct T as [_ T]; [lra|lra|]. cbv beta in T.
  assert (HH : ln (2 / 4) / ln (1 / 4) = / 2).
  { assert (L : ln (1 / 4) = 2 * ln (2 / 4)).
    { replace (1 / 4) with ((2 / 4) * (2 / 4)) by lra. rewrite ln_mult by lra. lra. }
    assert (ln (2 / 4) < 0) by (rewrite <- ln_1; apply ln_increasing; lra). rewrite L. field. lra. }
  rewrite HH in T. lra.
Qed.
Print Assumptions C57_result_pressure_refuted.
