(** Lemmas about the quantization part of Grib.v. *)
From Coq Require Import Lia ZifyBool ZifyNat Lqa Qabs.
From Verif Require Import Base BaseFacts SpecGrib Grib GribFacts.
Open Scope Q_scope.

Lemma Qfloor_bounds q : inject_Z (Qfloor q) <= q /\ q < inject_Z (Qfloor q) + 1.
Proof.
  split; [apply Qfloor_le|]. pose proof (Qlt_floor q) as H.
  rewrite inject_Z_plus in H. exact H.
Qed.

Lemma rhe_spec q : inject_Z (round_half_even q) - (1#2) <= q /\ q <= inject_Z (round_half_even q) + (1#2).
Proof.
  unfold round_half_even. pose proof (Qfloor_bounds q) as [H1 H2].
  destruct (Qcompare_spec (q - inject_Z (Qfloor q)) (1#2)) as [H|H|H].
  - destruct (Z.even (Qfloor q)); rewrite ?inject_Z_plus; change (inject_Z 1) with 1; lra.
  - lra.
  - rewrite inject_Z_plus; change (inject_Z 1) with 1; lra.
Qed.

Lemma rhe_comp a b : a == b -> round_half_even a = round_half_even b.
Proof.
  intros H. unfold round_half_even. rewrite (Qfloor_comp a b H).
  rewrite (Qcompare_comp (a - inject_Z (Qfloor b)) (b - inject_Z (Qfloor b))) with (x := 1#2) (y := 1#2).
  - reflexivity.
  - rewrite H. reflexivity.
  - reflexivity.
Qed.

Lemma inject_lt a b : (a < b)%Z <-> inject_Z a + 1 <= inject_Z b.
Proof.
  change 1 with (inject_Z 1). rewrite <- inject_Z_plus. rewrite <- Zle_Qle. lia.
Qed.

Lemma rhe_mono a b : a <= b -> (round_half_even a <= round_half_even b)%Z.
Proof.
  intros H. destruct (Z_le_gt_dec (round_half_even a) (round_half_even b)) as [|G]; [assumption|].
  assert (G' : (round_half_even b < round_half_even a)%Z) by lia.
  apply inject_lt in G'. pose proof (rhe_spec a). pose proof (rhe_spec b).
  assert (E : a == b) by lra. rewrite (rhe_comp a b E). lia.
Qed.

Lemma rhe_inject z : round_half_even (inject_Z z) = z.
Proof.
  pose proof (rhe_spec (inject_Z z)) as [H1 H2].
  destruct (Z.lt_trichotomy (round_half_even (inject_Z z)) z) as [H|[H|H]]; [|assumption|];
    apply inject_lt in H; lra.
Qed.

Lemma rhe_ge z q : inject_Z z <= q -> (z <= round_half_even q)%Z.
Proof. intros H. rewrite <- (rhe_inject z). apply rhe_mono, H. Qed.
Lemma rhe_le z q : q <= inject_Z z -> (round_half_even q <= z)%Z.
Proof. intros H. rewrite <- (rhe_inject z). apply rhe_mono, H. Qed.

Lemma Qle_bool_false a b : Qle_bool a b = false -> b < a.
Proof.
  intros H. apply Qnot_le_lt. intros G. apply Qle_bool_iff in G. congruence.
Qed.
Lemma Qltb_true a b : Qltb a b = true <-> a < b.
Proof.
  unfold Qltb. rewrite negb_true_iff. split; intros H.
  - apply Qle_bool_false, H.
  - destruct (Qle_bool b a) eqn:E; [|reflexivity]. apply Qle_bool_iff in E. lra.
Qed.
Lemma Qltb_false a b : Qltb a b = false <-> b <= a.
Proof. unfold Qltb. rewrite negb_false_iff. apply Qle_bool_iff. Qed.

(** powers of two *)
Lemma pow2_pos n : 0 < pow2 n.
Proof. unfold pow2. apply Qpower_0_lt. reflexivity. Qed.
Lemma pow2_plus a b : pow2 (a + b) == pow2 a * pow2 b.
Proof. unfold pow2. apply Qpower_plus. discriminate. Qed.
Lemma pow2_succ n : pow2 (n + 1) == 2 * pow2 n.
Proof. rewrite pow2_plus. change (pow2 1) with (2#1). ring. Qed.
Lemma pow2_opp n : pow2 n * pow2 (- n) == 1.
Proof. rewrite <- pow2_plus. rewrite Z.add_opp_diag_r. reflexivity. Qed.
Lemma pow2_inv_0 : pow2 0 == 1.
Proof. reflexivity. Qed.
Lemma pow2_le a b : (a <= b)%Z -> pow2 a <= pow2 b.
Proof.
  intros H. replace b with (a + Z.of_nat (Z.to_nat (b - a)))%Z by lia.
  induction (Z.to_nat (b - a)) as [|m IH].
  - rewrite Z.add_0_r. apply Qle_refl.
  - replace (a + Z.of_nat (S m))%Z with (a + Z.of_nat m + 1)%Z by lia. rewrite pow2_succ.
    pose proof (pow2_pos (a + Z.of_nat m)). lra.
Qed.
Lemma pow2_lt_inv a b : pow2 a < pow2 b -> (a < b)%Z.
Proof.
  intros H. destruct (Z_lt_ge_dec a b); [assumption|].
  assert (pow2 b <= pow2 a) by (apply pow2_le; lia). lra.
Qed.

Lemma pow2_inj a b : pow2 a == pow2 b -> a = b.
Proof.
  intros H. destruct (Z.lt_trichotomy a b) as [L|[L|L]]; [|exact L|].
  - assert (G : pow2 (a + 1) <= pow2 b) by (apply pow2_le; lia).
    rewrite pow2_succ in G. pose proof (pow2_pos a). lra.
  - assert (G : pow2 (b + 1) <= pow2 a) by (apply pow2_le; lia).
    rewrite pow2_succ in G. pose proof (pow2_pos b). lra.
Qed.

Lemma scale_down_spec qdiff imax : 0 <= qdiff -> forall f idat n,
  qdiff * pow2 (n - Z.of_nat f) < imax -> (f = 0%nat -> idat < imax) ->
  exists r, scale_down (S f) qdiff imax idat n = Ok r /\
    ((r = n /\ idat < imax) \/
     ((r < n)%Z /\ imax <= idat /\ qdiff * pow2 r < imax /\
      ((r + 1 < n)%Z -> imax <= qdiff * pow2 (r + 1)))).
Proof.
  intros Hq. induction f as [|f IH]; intros idat n H1 H2.
  - exists n. cbn [scale_down]. specialize (H2 eq_refl).
    destruct (Qle_bool imax idat) eqn:E.
    + apply Qle_bool_iff in E. lra.
    + split; [reflexivity|left; auto].
  - remember (S f) as g. cbn [scale_down]. subst g.
    destruct (Qle_bool imax idat) eqn:E.
    + apply Qle_bool_iff in E.
      destruct (IH (qdiff * pow2 (n - 1)) (n - 1)%Z) as (r & Hr & HC).
      * replace (n - 1 - Z.of_nat f)%Z with (n - Z.of_nat (S f))%Z by lia. exact H1.
      * intros ->. exact H1.
      * exists r. split; [exact Hr|]. right.
        destruct HC as [[-> HC]|(Hlt & HC1 & HC2 & HC3)].
        -- repeat split; try lia; try assumption.
        -- repeat split; try lia; try assumption.
           intros Hrn. destruct (Z.eq_dec (r + 1) (n - 1)) as [Eq|Ne].
           ++ rewrite Eq. exact HC1.
           ++ apply HC3. lia.
    + apply Qle_bool_false in E. exists n. split; [reflexivity|left; auto].
Qed.

Lemma scale_up_spec qdiff imax : forall f n,
  (imax <= round_half_even (qdiff * pow2 (n + Z.of_nat f + 1)))%Z ->
  exists r, scale_up (S f) qdiff imax n = Ok r /\ (n <= r <= n + Z.of_nat f)%Z /\
    (imax <= round_half_even (qdiff * pow2 (r + 1)))%Z /\
    ((n < r)%Z -> (round_half_even (qdiff * pow2 r) < imax)%Z).
Proof.
  induction f as [|f IH]; intros n H.
  - exists n. cbn [scale_up]. rewrite Z.add_0_r in H.
    destruct (Z.ltb_spec (round_half_even (qdiff * pow2 (n + 1))) imax); [lia|].
    repeat split; try lia.
  - remember (S f) as g. cbn [scale_up]. subst g.
    destruct (Z.ltb_spec (round_half_even (qdiff * pow2 (n + 1))) imax) as [G|G].
    + destruct (IH (n + 1)%Z) as (r & Hr & H1 & H2 & H3).
      * replace (n + 1 + Z.of_nat f + 1)%Z with (n + Z.of_nat (S f) + 1)%Z by lia. exact H.
      * exists r. repeat split; try assumption; try lia.
        intros _. destruct (Z.eq_dec r (n + 1)) as [->|]; [exact G|apply H3; lia].
    + exists n. repeat split; lia.
Qed.

Definition imaxz (nbits : Z) : Z := (2 ^ nbits - 1)%Z.
Lemma imaxz_range nbits : (1 <= nbits <= 31)%Z -> (1 <= imaxz nbits <= 2147483647)%Z.
Proof.
  intros H. unfold imaxz. assert (2 ^ 1 <= 2 ^ nbits)%Z by (apply Z.pow_le_mono_r; lia).
  assert (2 ^ nbits <= 2 ^ 31)%Z by (apply Z.pow_le_mono_r; lia).
  change (2 ^ 1)%Z with 2%Z in *. change (2 ^ 31)%Z with 2147483648%Z in *. lia.
Qed.

Lemma find_scale_spec qdiff nbits : (1 <= nbits <= 31)%Z -> 0 <= qdiff ->
  (round_half_even qdiff <= 2147483647)%Z ->
  exists k, find_scale qdiff nbits = Ok k /\ (-32 <= k <= 126)%Z /\
    (round_half_even (qdiff * pow2 k) <= imaxz nbits)%Z /\
    qdiff * pow2 k < inject_Z (imaxz nbits) + (1#2) /\
    ((round_half_even qdiff < imaxz nbits)%Z -> (round_half_even (qdiff * pow2 k) < imaxz nbits)%Z) /\
    (qdiff <= pow2 (-126) * inject_Z (imaxz nbits) -> k = 0%Z) /\
    (pow2 (-126) * inject_Z (imaxz nbits) < qdiff ->
       (imaxz nbits <= round_half_even (qdiff * pow2 (k + 1)))%Z).
Proof.
  intros Hn Hq Hr. pose proof (imaxz_range nbits Hn) as HI. unfold find_scale. fold (imaxz nbits).
  set (im := imaxz nbits) in *.
  assert (HI1 : 1 <= inject_Z im) by (change 1 with (inject_Z 1); rewrite <- Zle_Qle; lia).
  assert (HI2 : inject_Z im <= inject_Z 2147483647) by (rewrite <- Zle_Qle; lia).
  assert (HIM : inject_Z 2147483647 == 2147483647) by reflexivity.
  assert (Hqr : qdiff <= inject_Z 2147483647 + (1#2)).
  { pose proof (rhe_spec qdiff) as [_ H]. assert (inject_Z (round_half_even qdiff) <= inject_Z 2147483647) by (rewrite <- Zle_Qle; exact Hr). lra. }
  rewrite (proj2 (Qle_bool_iff 0 qdiff) Hq).
  destruct (Qltb (pow2 (-126) * inject_Z im) qdiff) eqn:E.
  - apply Qltb_true in E.
    assert (Hq0 : 0 < qdiff).
    { assert (0 < pow2 (-126) * inject_Z im) by (apply Qmult_lt_0_compat; [apply pow2_pos|lra]). lra. }
    destruct (Z.geb_spec (round_half_even qdiff) im) as [G|G].
    + (* down *)
      assert (P31 : pow2 (-31) == 1 # 2147483648) by reflexivity.
      destruct (scale_down_spec qdiff (inject_Z im) Hq 199 (inject_Z (round_half_even qdiff)) 0) as (k & Hk & HC).
      * assert (H31 : qdiff * pow2 (0 - Z.of_nat 199) <= qdiff * pow2 (-31)).
        { rewrite !(Qmult_comm qdiff). apply Qmult_le_compat_r; [|lra]. apply pow2_le. lia. }
        rewrite P31 in H31. lra.
      * discriminate.
      * change scale_fuel with 200%nat. exists k. split; [exact Hk|].
        destruct HC as [[-> HC]|(Hlt & HC1 & HC2 & HC3)].
        { rewrite <- Zlt_Qlt in HC. lia. }
        assert (Hm : (im <= round_half_even (qdiff * pow2 (k + 1)))%Z).
        { destruct (Z.eq_dec (k + 1) 0) as [E0|E0].
          - rewrite E0. rewrite (rhe_comp _ qdiff) by (rewrite pow2_inv_0; ring). lia.
          - apply rhe_ge. apply HC3. lia. }
        assert (Hkl : (-32 <= k)%Z).
        { destruct (Z_le_gt_dec (-32) k) as [|Hk']; [assumption|]. exfalso.
          assert (HC3' := HC3 ltac:(lia)).
          assert (qdiff * pow2 (k + 1) <= qdiff * pow2 (-31)).
          { rewrite !(Qmult_comm qdiff). apply Qmult_le_compat_r; [|lra]. apply pow2_le. lia. }
          rewrite P31 in H. lra. }
        repeat split; try lia; try lra.
        all: first [apply rhe_le; lra | intros HT; lra].
    + (* up *)
      assert (P126 : pow2 (-126) * pow2 126 == 1) by reflexivity.
      assert (HB : inject_Z im <= qdiff * pow2 126).
      { apply Qle_trans with ((pow2 (-126) * inject_Z im) * pow2 126).
        - rewrite (Qmult_comm (pow2 (-126))), <- Qmult_assoc, P126. lra.
        - apply Qmult_le_compat_r; [lra|apply Qlt_le_weak, pow2_pos]. }
      destruct (scale_up_spec qdiff im 199 0) as (k & Hk & H1 & H2 & H3).
      * apply rhe_ge. eapply Qle_trans; [exact HB|]. rewrite !(Qmult_comm qdiff).
        apply Qmult_le_compat_r; [|lra]. apply pow2_le. lia.
      * change scale_fuel with 200%nat. exists k. split; [exact Hk|].
        assert (H4 : (round_half_even (qdiff * pow2 k) < im)%Z).
        { destruct (Z.eq_dec k 0) as [->|]; [|apply H3; lia].
          rewrite (rhe_comp _ qdiff) by (rewrite pow2_inv_0; ring). lia. }
        assert (Hk2 : (k <= 126)%Z).
        { destruct (Z_le_gt_dec k 126) as [|Hk']; [assumption|]. exfalso.
          assert (inject_Z im <= qdiff * pow2 k).
          { eapply Qle_trans; [exact HB|]. rewrite !(Qmult_comm qdiff).
            apply Qmult_le_compat_r; [|lra]. apply pow2_le. lia. }
          apply rhe_ge in H. lia. }
        repeat split; try lia.
        all: first [intros HT; lra
                   | pose proof (rhe_spec (qdiff * pow2 k)) as [_ HS]; apply inject_lt in H4; lra].
  - apply Qltb_false in E. exists 0%Z. split; [reflexivity|].
    assert (HS : qdiff * pow2 0 == qdiff) by (rewrite pow2_inv_0; ring).
    assert (Hsm : qdiff < 1#2).
    { assert (P : pow2 (-126) <= pow2 (-33)) by (apply pow2_le; lia).
      assert (P33 : pow2 (-33) == 1 # 8589934592) by reflexivity.
      assert (pow2 (-126) * inject_Z im <= pow2 (-33) * inject_Z im) by (apply Qmult_le_compat_r; lra).
      rewrite P33 in H. lra. }
    assert (HR0 : round_half_even qdiff = 0%Z).
    { pose proof (rhe_spec qdiff) as [S1 S2].
      destruct (Z.lt_trichotomy (round_half_even qdiff) 0) as [H|[H|H]]; [|assumption|];
        apply inject_lt in H; change (inject_Z 0) with 0 in H; lra. }
    rewrite (rhe_comp _ _ HS), HR0.
    repeat split; try lia; try (intros; lra).
Qed.

(** extremes of the grid *)
Lemma qmin2_le a b : qmin2 a b <= a /\ qmin2 a b <= b.
Proof. unfold qmin2. destruct (Qle_bool a b) eqn:E; [apply Qle_bool_iff in E|apply Qle_bool_false in E]; split; lra. Qed.
Lemma qmax2_ge a b : a <= qmax2 a b /\ b <= qmax2 a b.
Proof. unfold qmax2. destruct (Qle_bool a b) eqn:E; [apply Qle_bool_iff in E|apply Qle_bool_false in E]; split; lra. Qed.
Lemma list_qmin_le l : forall x, list_qmin x l <= x /\ Forall (fun y => list_qmin x l <= y) l.
Proof.
  induction l as [|y l IH]; intros x; cbn [list_qmin fold_left]; [split; [lra|constructor]|].
  destruct (IH (qmin2 x y)) as [H1 H2]. unfold list_qmin in *. pose proof (qmin2_le x y) as [H3 H4].
  split; [lra|]. constructor; [lra|exact H2].
Qed.
Lemma list_qmax_ge l : forall x, x <= list_qmax x l /\ Forall (fun y => y <= list_qmax x l) l.
Proof.
  induction l as [|y l IH]; intros x; cbn [list_qmax fold_left]; [split; [lra|constructor]|].
  destruct (IH (qmax2 x y)) as [H1 H2]. unfold list_qmax in *. pose proof (qmax2_ge x y) as [H3 H4].
  split; [lra|]. constructor; [lra|exact H2].
Qed.
Lemma list_qmin_in l : forall x, In (list_qmin x l) (x :: l).
Proof.
  induction l as [|y l IH]; intros x; cbn [list_qmin fold_left]; [left; reflexivity|].
  destruct (IH (qmin2 x y)) as [H|H]; unfold list_qmin in *.
  - rewrite <- H. unfold qmin2. destruct (Qle_bool x y); [left|right; left]; reflexivity.
  - right; right; exact H.
Qed.
Lemma list_qmax_in l : forall x, In (list_qmax x l) (x :: l).
Proof.
  induction l as [|y l IH]; intros x; cbn [list_qmax fold_left]; [left; reflexivity|].
  destruct (IH (qmax2 x y)) as [H|H]; unfold list_qmax in *.
  - rewrite <- H. unfold qmax2. destruct (Qle_bool x y); [right; left|left]; reflexivity.
  - right; right; exact H.
Qed.

(** [grid_min], [grid_max]: what the packer uses as extremes *)
Definition g_min (missing : Q) (grid : list Q) : Q :=
  match grid with [] => missing | x :: r => list_qmin x r end.
Definition g_max (missing : Q) (grid : list Q) : Q :=
  match grid with [] => missing | x :: r => list_qmax x r end.

Lemma g_min_le m grid x : In x grid -> g_min m grid <= x.
Proof.
  destruct grid as [|y r]; cbn [g_min]; [intros []|]. destruct (list_qmin_le r y) as [H1 H2].
  intros [<-|H]; [exact H1|]. rewrite Forall_forall in H2. auto.
Qed.
Lemma g_max_ge m grid x : In x grid -> x <= g_max m grid.
Proof.
  destruct grid as [|y r]; cbn [g_max]; [intros []|]. destruct (list_qmax_ge r y) as [H1 H2].
  intros [<-|H]; [exact H1|]. rewrite Forall_forall in H2. auto.
Qed.
Lemma g_min_max m grid : g_min m grid <= g_max m grid.
Proof.
  destruct grid as [|y r]; cbn [g_min g_max]; [lra|].
  destruct (list_qmin_le r y) as [H1 _]. destruct (list_qmax_ge r y) as [H2 _]. lra.
Qed.
Lemma g_min_in m grid : grid <> [] -> In (g_min m grid) grid.
Proof. destruct grid as [|y r]; [congruence|]. intros _. apply list_qmin_in. Qed.

(** The extremes computed when every cell is missing agree (as numbers). *)
Lemma all_missing_min m grid : forallb (fun x => Qeq_bool x m) grid = true ->
  m == g_min m grid /\ m == g_max m grid.
Proof.
  intros H. rewrite forallb_forall in H. destruct grid as [|y r]; [split; reflexivity|].
  split; symmetry; apply Qeq_bool_iff; apply H; [apply list_qmin_in|apply list_qmax_in].
Qed.

Definition code (m qmin : Q) (k nbits : Z) (x : Q) : Z :=
  if Qeq_bool x m then imaxz nbits else round_half_even ((x - qmin) * pow2 k).

(** Inversion of pack_grib. *)
Lemma pack_grib_inv grid m nbits r s ws : pack_grib grid m nbits = Ok (r, s, ws) ->
  (1 <= nbits <= 31)%Z /\ r == g_min m grid /\
  (round_half_even (g_max m grid - g_min m grid) <= 2147483647)%Z /\
  ((g_max m grid == g_min m grid /\ (forall x, In x grid -> ~ x == m) /\ s = 1 /\
    ws = repeat 0%Z (Z.to_nat (packed_length nbits (Zlen grid)))) \/
   exists k vals, s = pow2 (- k) /\
     find_scale (g_max m grid - g_min m grid) nbits = Ok k /\
     vals = map (code m (g_min m grid) k nbits) grid /\
     Forall (fits nbits) vals /\
     pack_words nbits vals = Ok ws).
Proof.
  unfold pack_grib. destruct (Z.ltb_spec nbits 1) as [?|Hn1]; [discriminate|].
  destruct (Z.gtb_spec nbits 31) as [?|Hn2]; [discriminate|]. cbn [orb].
  assert (Hn : (1 <= nbits <= 31)%Z) by lia.
  set (ex := if forallb (fun x => Qeq_bool x m) grid then (m, m) else _).
  assert (Hex : fst ex == g_min m grid /\ snd ex == g_max m grid).
  { unfold ex. destruct (forallb _ grid) eqn:E; cbn [fst snd].
    - apply all_missing_min, E.
    - destruct grid; split; reflexivity. }
  destruct ex as [qmin qmax]. cbn [fst snd] in Hex. destruct Hex as [Hmin Hmax].
  assert (Hd : qmax - qmin == g_max m grid - g_min m grid) by (rewrite Hmin, Hmax; reflexivity).
  pose proof (g_min_max m grid) as Hmm.
  destruct (Qltb (qmax - qmin) 0) eqn:E0; [discriminate|]. cbn [orb].
  destruct (Z.gtb_spec (round_half_even (qmax - qmin)) 2147483647) as [?|HR]; [discriminate|].
  rewrite (rhe_comp _ _ Hd) in HR.
  destruct (Qeq_bool (qmax - qmin) 0 && negb (existsb (fun x => Qeq_bool x m) grid)) eqn:EC; intros H.
  - injection H as <- <- <-. apply andb_true_iff in EC as [EC1 EC2].
    apply Qeq_bool_iff in EC1. rewrite Hd in EC1.
    split; [exact Hn|]. split; [exact Hmin|]. split; [lia|]. left.
    split; [lra|]. split; [|split; reflexivity].
    intros x Hx Hxm. apply negb_true_iff in EC2.
    assert (existsb (fun x => Qeq_bool x m) grid = true); [|congruence].
    apply existsb_exists. exists x. split; [exact Hx|]. apply Qeq_bool_iff, Hxm.
  - apply bind_ok in H as (x & H & H0). apply bind_ok in H0 as (out & H0 & H1).
    injection H1 as <- <- <-.
    assert (HF : find_scale (g_max m grid - g_min m grid) nbits = Ok x).
    { destruct (find_scale_spec (g_max m grid - g_min m grid) nbits Hn ltac:(lra) HR) as (k & Hk & _).
      (* find_scale respects == : both are determined *)
      rewrite <- H. clear - Hd. unfold find_scale.
      assert (EA : Qle_bool 0 (g_max m grid - g_min m grid) = Qle_bool 0 (qmax - qmin)).
      { rewrite Hd. reflexivity. }
      rewrite EA. rewrite (rhe_comp _ _ Hd).
      assert (EB : forall c, Qltb c (if Qle_bool 0 (qmax - qmin) then g_max m grid - g_min m grid else - (g_max m grid - g_min m grid))
                           = Qltb c (if Qle_bool 0 (qmax - qmin) then qmax - qmin else - (qmax - qmin))).
      { intros c. unfold Qltb. f_equal. destruct (Qle_bool 0 (qmax - qmin)); rewrite Hd; reflexivity. }
      rewrite EB. destruct (Qltb _ _); [|reflexivity]. destruct (_ >=? _)%Z.
      - assert (G : forall f a b idat n, a == b -> scale_down f a (inject_Z (2 ^ nbits - 1)) idat n = scale_down f b (inject_Z (2 ^ nbits - 1)) idat n).
        { clear. induction f as [|f IH]; intros a b idat n Hab; [reflexivity|]. cbn [scale_down].
          destruct (Qle_bool _ idat); [|reflexivity].
          rewrite (IH a b _ _ Hab).
          destruct f as [|f]; [reflexivity|]. cbn [scale_down].
          rewrite (Qleb_comp (inject_Z (2 ^ nbits - 1)) (inject_Z (2 ^ nbits - 1)) (Qeq_refl _) (a * pow2 (n - 1)) (b * pow2 (n - 1))) by (rewrite Hab; reflexivity).
          reflexivity. }
        apply G. symmetry. exact Hd.
      - assert (G : forall f a b n, a == b -> scale_up f a (2 ^ nbits - 1) n = scale_up f b (2 ^ nbits - 1) n).
        { clear. induction f as [|f IH]; intros a b n Hab; [reflexivity|]. cbn [scale_up].
          rewrite (rhe_comp (a * pow2 (n + 1)) (b * pow2 (n + 1))) by (rewrite Hab; reflexivity).
          rewrite (IH a b _ Hab). reflexivity. }
        apply G. symmetry. exact Hd. }
    split; [exact Hn|]. split; [exact Hmin|]. split; [lia|]. right.
    exists x, (map (code m (g_min m grid) x nbits) grid).
    split; [reflexivity|]. split; [exact HF|]. split; [reflexivity|].
    destruct (find_scale_spec (g_max m grid - g_min m grid) nbits Hn ltac:(lra) HR)
      as (k & Hk & _ & HK1 & _). rewrite HF in Hk. injection Hk as <-.
    pose proof (imaxz_range nbits Hn) as HI.
    assert (HQ : forall y, In y grid -> quantize m qmin (pow2 x) (2 ^ nbits - 1) y = code m (g_min m grid) x nbits y
                 /\ fits nbits (code m (g_min m grid) x nbits y)).
    { intros y Hy. unfold quantize, code. fold (imaxz nbits).
      assert (HIp : (imaxz nbits = 2 ^ nbits - 1)%Z) by reflexivity.
      destruct (Qeq_bool y m).
      - split; [reflexivity|]. unfold fits. lia.
      - pose proof (g_min_le m grid y Hy) as Hy1. pose proof (g_max_ge m grid y Hy) as Hy2.
        pose proof (pow2_pos x) as Hp.
        assert (E1 : qmax2 (y - qmin) 0 == y - g_min m grid).
        { unfold qmax2. destruct (Qle_bool (y - qmin) 0) eqn:EQ.
          - apply Qle_bool_iff in EQ. rewrite Hmin in EQ. lra.
          - rewrite Hmin. reflexivity. }
        assert (R0 : (0 <= round_half_even ((y - g_min m grid) * pow2 x))%Z).
        { apply rhe_ge. change (inject_Z 0) with 0. apply Qmult_le_0_compat; lra. }
        assert (R1 : (round_half_even ((y - g_min m grid) * pow2 x) <= imaxz nbits)%Z).
        { eapply Z.le_trans; [|exact HK1]. apply rhe_mono. apply Qmult_le_compat_r; lra. }
        rewrite (rhe_comp (qmax2 (y - qmin) 0 * pow2 x) ((y - g_min m grid) * pow2 x)) by (rewrite E1; reflexivity).
        split.
        + apply wrap32_id. unfold two31. lia.
        + unfold fits. lia. }
    split.
    + apply Forall_map. apply Forall_forall. intros y Hy. apply HQ, Hy.
    + rewrite (map_ext_in _ (code m (g_min m grid) x nbits)) in H0; [exact H0|].
      intros y Hy. apply HQ, Hy.
Qed.

(** The decoded values, cell by cell. *)
Lemma unpack_pack_grib grid m nbits r s ws mv r' :
  pack_grib grid m nbits = Ok (r, s, ws) ->
  exists k, (s = pow2 (- k) /\ (-32 <= k <= 126)%Z) /\
   exists codes, Forall2 (fun x c => (~ x == m -> c = round_half_even ((x - g_min m grid) * pow2 k)) /\
                                     (x == m -> c = imaxz nbits)) grid codes /\
   unpack_grib ws nbits (Zlen grid) r' s mv = Ok (map (reconstruct mv (imaxz nbits) r' s) codes).
Proof.
  intros H. pose proof H as H'. apply pack_grib_inv in H as (Hn & Hr & HR & [(HC & Hm & Hs & Hws)|(k & vals & Hs & HF & Hv & Hfit & Hp)]).
  - exists 0%Z. split; [split; [subst; reflexivity|lia]|]. exists (repeat 0%Z (length grid)). split.
    + assert (G : forall l, incl l grid -> Forall2 (fun x c => (~ x == m -> c = round_half_even ((x - g_min m grid) * pow2 0)) /\
                                     (x == m -> c = imaxz nbits)) l (repeat 0%Z (length l))).
      { induction l as [|y l IH]; intros Hl; cbn [length repeat]; constructor.
        - assert (Hy : In y grid) by (apply Hl; left; reflexivity).
          split; [|intros E; exfalso; exact (Hm y Hy E)]. intros _.
          pose proof (g_min_le m grid y Hy). pose proof (g_max_ge m grid y Hy).
          symmetry. rewrite (rhe_comp _ (inject_Z 0)); [apply rhe_inject|].
          rewrite pow2_inv_0. change (inject_Z 0) with 0. lra.
        - apply IH. intros z Hz. apply Hl. right. exact Hz. }
      apply G. intros z Hz. exact Hz.
    + unfold unpack_grib. rewrite unpack_words_spec.
      * cbn [bind]. f_equal. f_equal. subst ws.
        assert (HU : forall j, map (fun w : Z => (w mod two32)%Z) (repeat 0%Z j) = repeat 0%Z j).
        { induction j as [|j IH]; [reflexivity|]. cbn [repeat map]. rewrite IH. reflexivity. }
        assert (HB : forall j, concat_bits 32 (repeat 0%Z j) = 0%Z).
        { unfold concat_bits. induction j as [|j IH]; [reflexivity|]. cbn [repeat fold_left]. exact IH. }
        assert (HFld : forall i, field nbits (repeat 0%Z (Z.to_nat (packed_length nbits (Zlen grid)))) i = 0%Z).
        { intros i. unfold field. rewrite HU, HB, Z.shiftr_0_l. apply Z.mod_0_l. apply Z.pow_nonzero; lia. }
        unfold zrange. rewrite map_map, Zlen_length.
        assert (forall a j, map (fun x : nat => field nbits (repeat 0%Z (Z.to_nat (packed_length nbits (Zlen grid)))) (Z.of_nat x)) (seq a j) = repeat 0%Z j).
        { intros a j; revert a. induction j as [|j IH]; intros a; [reflexivity|]. cbn [seq map repeat].
          rewrite HFld, IH. reflexivity. }
        apply H.
      * exact Hn.
      * apply Zlen_nonneg.
      * subst ws. rewrite Zlen_repeat.
        pose proof (packed_length_clen nbits (Zlen grid)) as HPL. rewrite HPL by exact Hn.
        pose proof (Zlen_nonneg grid). assert (0 <= nbits * Zlen grid)%Z by nia.
        unfold clen. generalize dependent (nbits * Zlen grid)%Z. intros e He. lia.
  - exists k.
    assert (HR0 : 0 <= g_max m grid - g_min m grid) by (pose proof (g_min_max m grid); lra).
    destruct (find_scale_spec _ nbits Hn HR0 HR) as (k' & Hk' & Hkr & _). rewrite HF in Hk'. injection Hk' as <-.
    split; [split; [exact Hs|exact Hkr]|]. exists vals. split.
    + subst vals. clear. generalize (g_min m grid). intros q. induction grid as [|y l IH]; cbn [map]; constructor; [|exact IH].
      unfold code. destruct (Qeq_bool y m) eqn:E.
      * apply Qeq_bool_iff in E. split; [intros N; contradiction|reflexivity].
      * apply Qeq_bool_neq in E. split; [reflexivity|intros N; contradiction].
    + unfold unpack_grib. assert (HL : Zlen grid = Zlen vals) by (subst vals; symmetry; apply Zlen_map).
      rewrite HL, (pack_unpack nbits vals ws Hn Hfit Hp). reflexivity.
Qed.

(** ** consequences used by Props_Grib *)
Lemma Forall2_len {A B} (R : A -> B -> Prop) l l' : Forall2 R l l' -> length l = length l'.
Proof. induction 1; cbn; congruence. Qed.
Lemma Forall2_nth_error {A B} (R : A -> B -> Prop) l l' i x : Forall2 R l l' ->
  nth_error l i = Some x -> exists y, nth_error l' i = Some y /\ R x y.
Proof.
  intros H; revert i; induction H as [|a b l l' H1 H2 IH]; intros [|i] Hi; cbn in *; try discriminate.
  - injection Hi as <-. eauto.
  - apply IH, Hi.
Qed.

Lemma ref_is_min grid m nbits r s ws : grid <> [] ->
  pack_grib grid m nbits = Ok (r, s, ws) -> is_minimum r grid.
Proof.
  intros Hg H. apply pack_grib_inv in H as (_ & Hr & _). split.
  - exists (g_min m grid). split; [apply g_min_in, Hg|symmetry; exact Hr].
  - intros x Hx. rewrite Hr. apply g_min_le, Hx.
Qed.

Lemma nth_error_map' {A B} (f : A -> B) l i y : nth_error (map f l) i = Some y ->
  exists x, nth_error l i = Some x /\ y = f x.
Proof.
  revert i; induction l as [|a l IH]; intros [|i] H; cbn in *; try discriminate.
  - injection H as <-. eauto.
  - apply IH, H.
Qed.

Lemma grib_cells grid m nbits r s ws mv r' :
  pack_grib grid m nbits = Ok (r, s, ws) ->
  exists out, unpack_grib ws nbits (Zlen grid) r' s mv = Ok out /\ length out = length grid /\
  forall i x y, nth_error grid i = Some x -> nth_error out i = Some y ->
    exists c, y = reconstruct mv (imaxz nbits) r' s c /\
      (x == m -> c = imaxz nbits) /\
      (~ x == m -> Qabs (r + inject_Z c * s - x) <= s * (1#2) /\ (x == r -> c = 0%Z) /\
         (forall z, x - r < (inject_Z z - (1#2)) * s -> (c < z)%Z) /\
         (g_max m grid - g_min m grid < inject_Z (imaxz nbits) - (1#2) -> (c < imaxz nbits)%Z)).
Proof.
  intros H. pose proof (pack_grib_inv _ _ _ _ _ _ H) as (Hn & Hr & _).
  destruct (unpack_pack_grib _ _ _ _ _ _ mv r' H) as (k & (Hs & Hk) & codes & HF & HU).
  exists (map (reconstruct mv (imaxz nbits) r' s) codes). split; [exact HU|].
  split; [rewrite map_length; symmetry; eapply Forall2_len; exact HF|].
  intros i x y Hx Hy. destruct (Forall2_nth_error _ _ _ _ _ HF Hx) as (c & Hc & HC1 & HC2).
  apply nth_error_map' in Hy as (c' & Hc' & ->). rewrite Hc in Hc'. injection Hc' as <-.
  exists c. split; [reflexivity|]. split; [exact HC2|]. intros Hxm. specialize (HC1 Hxm).
  pose proof (pow2_pos k) as Hp. pose proof (pow2_pos (- k)) as Hp'. pose proof (pow2_opp k) as Hpp.
  rewrite Hs in *.
  set (q := (x - g_min m grid) * pow2 k) in *.
  assert (Eq : x - r == q * pow2 (- k)).
  { unfold q. rewrite <- Qmult_assoc, Hpp, Hr. ring. }
  pose proof (rhe_spec q) as [R1 R2]. rewrite <- HC1 in R1, R2.
  assert (A1 : inject_Z c * pow2 (- k) - q * pow2 (- k) <= pow2 (- k) * (1#2)).
  { assert ((inject_Z c - q) * pow2 (- k) <= (1#2) * pow2 (- k)) by (apply Qmult_le_compat_r; lra). lra. }
  assert (A2 : q * pow2 (- k) - inject_Z c * pow2 (- k) <= pow2 (- k) * (1#2)).
  { assert ((q - inject_Z c) * pow2 (- k) <= (1#2) * pow2 (- k)) by (apply Qmult_le_compat_r; lra). lra. }
  split; [|split; [|split]].
  4:{ intros HSM. pose proof (nth_error_In _ _ Hx) as Hin.
      pose proof (imaxz_range nbits Hn) as HI.
      assert (HI1 : 1 <= inject_Z (imaxz nbits)) by (change 1 with (inject_Z 1); rewrite <- Zle_Qle; lia).
      assert (HRS : (round_half_even (g_max m grid - g_min m grid) < imaxz nbits)%Z).
      { pose proof (rhe_spec (g_max m grid - g_min m grid)) as [R3 R4].
        destruct (Z_lt_ge_dec (round_half_even (g_max m grid - g_min m grid)) (imaxz nbits)) as [|G]; [assumption|].
        assert (inject_Z (imaxz nbits) <= inject_Z (round_half_even (g_max m grid - g_min m grid))) by (rewrite <- Zle_Qle; lia). lra. }
      assert (HK : (round_half_even ((g_max m grid - g_min m grid) * pow2 k) < imaxz nbits)%Z).
      { pose proof (pack_grib_inv _ _ _ _ _ _ H) as (_ & _ & HR & [(HC & _ & _ & _)|(k' & vals & Hs' & HFs & _)]).
        - rewrite (rhe_comp _ (inject_Z 0)); [rewrite rhe_inject; lia|]. rewrite HC. change (inject_Z 0) with 0. ring.
        - assert (HR0 : 0 <= g_max m grid - g_min m grid) by (pose proof (g_min_max m grid); lra).
          destruct (find_scale_spec _ nbits Hn HR0 HR) as (k2 & Hk2 & _ & _ & _ & HS & _).
          rewrite HFs in Hk2. injection Hk2 as <-.
          replace k with k'; [exact (HS HRS)|]. apply Z.opp_inj. apply pow2_inj. rewrite Hs'. reflexivity. }
      rewrite HC1. eapply Z.le_lt_trans; [|exact HK]. apply rhe_mono. apply Qmult_le_compat_r; [|lra].
      pose proof (g_max_ge m grid x Hin). lra. }
  - apply Qabs_Qle_condition. split; lra.
  - intros Hxr. rewrite HC1. rewrite (rhe_comp q (inject_Z 0)); [apply rhe_inject|].
    unfold q. rewrite Hxr, Hr. change (inject_Z 0) with 0. ring.
  - intros z Hz. rewrite Eq in Hz. apply Qmult_lt_r in Hz; [|exact Hp'].
    apply inject_lt.
    destruct (Z_lt_ge_dec c z) as [L|L]; [apply inject_lt; exact L|].
    assert (inject_Z z <= inject_Z c) by (rewrite <- Zle_Qle; lia). lra.
Qed.

Lemma pack_grib_total grid m nbits lo hi : (1 <= nbits <= 31)%Z -> (32 < nbits * Zlen grid)%Z ->
  is_minimum lo grid -> is_maximum hi grid -> hi - lo <= 2147483647 ->
  exists r s ws, pack_grib grid m nbits = Ok (r, s, ws).
Proof.
  intros Hn HL [(xl & Hxl & Exl) Hlo] [(xh & Hxh & Exh) Hhi] Hr.
  unfold pack_grib. destruct (Z.ltb_spec nbits 1); [lia|].
  destruct (Z.gtb_spec nbits 31); [lia|]. cbn [orb].
  set (ex := if forallb (fun x => Qeq_bool x m) grid then (m, m) else _).
  assert (Hex : fst ex == g_min m grid /\ snd ex == g_max m grid).
  { unfold ex. destruct (forallb _ grid) eqn:E; cbn [fst snd].
    - apply all_missing_min, E.
    - destruct grid; split; reflexivity. }
  destruct ex as [qmin qmax]. cbn [fst snd] in Hex. destruct Hex as [Hmin Hmax].
  pose proof (g_min_max m grid) as Hmm.
  assert (Hne : grid <> []) by (intros ->; destruct Hxl).
  assert (HM : g_max m grid <= hi).
  { destruct grid as [|g0 gr]; [congruence|]. apply Hhi. apply list_qmax_in. }
  assert (HMi : lo <= g_min m grid) by (apply Hlo, g_min_in, Hne).
  assert (Hq0 : 0 <= qmax - qmin) by (rewrite Hmin, Hmax; lra).
  assert (Hq1 : qmax - qmin <= 2147483647) by (rewrite Hmin, Hmax; lra).
  rewrite (proj2 (Qltb_false (qmax - qmin) 0)) by exact Hq0. cbn [orb].
  assert (HR : (round_half_even (qmax - qmin) <= 2147483647)%Z) by (apply rhe_le; exact Hq1).
  destruct (Z.gtb_spec (round_half_even (qmax - qmin)) 2147483647); [lia|].
  destruct (Qeq_bool (qmax - qmin) 0 && _); [eexists _, _, _; reflexivity|].
  destruct (find_scale_spec _ nbits Hn Hq0 HR) as (k & Hk & _). rewrite Hk. cbn [bind].
  match goal with |- context [pack_words nbits ?v] => set (vals := v) end.
  destruct (pack_words_ok nbits Hn vals) as [out Ho].
  { unfold vals. rewrite Zlen_map. unfold clen. generalize dependent (nbits * Zlen grid)%Z. intros. lia. }
  rewrite Ho. cbn [bind]. eexists _, _, _. reflexivity.
Qed.
