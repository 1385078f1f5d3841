(** Files that share the caller's arrays. *)
From Coq Require Import Lia.
From Verif Require Import Base Order Floats Tools Station Grid GridShare SpecShare.
From Coq Require Import List.
Import ListNotations.
Open Scope Z_scope.

Definition filled (a : ndarray) : ndarray := (fst a, map fill_nan (snd a)).
Lemma fill_fill x : fill_nan (fill_nan x) = fill_nan x.
Proof. unfold fill_nan. destruct (fnan x) eqn:E; [vm_compute; reflexivity|rewrite E; reflexivity]. Qed.
Lemma filled_filled a : filled (filled a) = filled a.
Proof. unfold filled. cbn [fst snd]. rewrite map_map. f_equal. apply map_ext. exact fill_fill. Qed.

Lemma check_same g q a b : fst a = fst b -> map fill_nan (snd a) = map fill_nan (snd b) -> check_grid g (with_array q a) = check_grid g (with_array q b).
Proof.
  intros H1 H2. unfold check_grid, with_array. cbn [q_grid q_parm q_vcoord q_level q_time q_level2 q_time2 bind]. rewrite H1, H2. reflexivity.
Qed.
Lemma check_cells g q a c cells : check_grid g (with_array q a) = Ok (c, cells) -> cells = map fill_nan (snd a).
Proof.
  unfold check_grid. cbn [with_array q_grid q_parm q_vcoord q_level q_time q_level2 q_time2 bind]. intros H.
  destruct (negb _); [discriminate H|].
  repeat match type of H with
         | bind ?m _ = _ => destruct m; cbn [bind] in H; [|discriminate H]
         | (let '(_, _) := ?x in _) = _ => destruct x
         end.
  congruence.
Qed.
Lemma dict_set_map {K V W} (cmp : K -> K -> comparison) (f : V -> W) k v l :
  map (fun '(c, x) => (c, f x)) (dict_set cmp k v l) = dict_set cmp k (f v) (map (fun '(c, x) => (c, f x)) l).
Proof.
  induction l as [|[k' v'] l IH]; cbn [dict_set map]; [reflexivity|]. destruct (is_eq (cmp k k')); cbn [map]; [reflexivity|]. rewrite IH. reflexivity.
Qed.
Lemma dict_set_in {K V} (cmp : K -> K -> comparison) k (v : V) l x : In x (map snd (dict_set cmp k v l)) -> x = v \/ In x (map snd l).
Proof.
  induction l as [|[k' v'] l IH]; cbn [dict_set map In snd]; [intuition|]. destruct (is_eq (cmp k k')); cbn [map In snd]; intuition.
Qed.
Lemma put_same h r a : put h r a r = a.
Proof. unfold put. rewrite Nat.eqb_refl. reflexivity. Qed.
Lemma put_other h r a x : x <> r -> put h r a x = h x.
Proof. intros H. unfold put. destruct (Nat.eqb_spec x r); [contradiction|reflexivity]. Qed.

(** The array in use is the caller's, perhaps with its NaN cells filled. *)
Definition close (h c : heap) : Prop := forall r, h r = c r \/ h r = filled (c r).
Lemma close_filled h c r : close h c -> filled (h r) = filled (c r).
Proof. intros H. destruct (H r) as [->| ->]; [reflexivity|apply filled_filled]. Qed.
Definition stored (h c : heap) (s : shared) (passed : list nat) : Prop :=
  forall r, In r (map snd (sh_refs s)) -> h r = filled (c r) /\ In r passed.

Lemma add_step h c s q r passed h1 s1 x : close h c -> stored h c s passed -> add_shared h s q r = (h1, s1, x) ->
  close h1 c /\ stored h1 c s1 (r :: passed) /\ add_grid (seen h s) (with_array q (c r)) = (seen h1 s1, x).
Proof.
  intros C S E. unfold add_shared in E. cbv zeta in E. unfold add_grid.
  assert (CS : check_grid (gd_geom (seen h s)) (with_array q (c r)) = check_grid (gd_geom (sh_file s)) (with_array q (h r))).
  { apply check_same; pose proof (close_filled h c r C) as F; unfold filled in F; congruence. }
  rewrite CS. destruct (check_grid (gd_geom (sh_file s)) (with_array q (h r))) as [[k cells]|e] eqn:CG.
  2:{ assert (h1 = h /\ s1 = s /\ x = Err e) as (-> & -> & ->) by (repeat split; congruence). split; [exact C|]. split; [|reflexivity].
      intros y I. destruct (S y I). split; [assumption|right; assumption]. }
  apply check_cells in CG. subst cells. change (fst (h r), map fill_nan (snd (h r))) with (filled (h r)) in E.
  rewrite (close_filled h c r C) in E. set (h2 := put h r (filled (c r))) in *.
  assert (C2 : close h2 c).
  { intros y. unfold h2. destruct (Nat.eq_dec y r) as [->|N]; [rewrite put_same; right; reflexivity|rewrite put_other by exact N; apply C]. }
  assert (S2 : forall o, stored h2 c (mk_shared o (dict_set gcol_cmp k r (sh_refs s))) (r :: passed)).
  { intros o y I. cbn [sh_refs] in I. apply dict_set_in in I. destruct (Nat.eq_dec y r) as [->|N].
    - unfold h2. rewrite put_same. split; [reflexivity|left; reflexivity].
    - destruct I as [I|I]; [contradiction|]. unfold h2. rewrite put_other by exact N. destruct (S y I). split; [assumption|right; assumption]. }
  assert (D : map (fun '(c0, y) => (c0, snd (h2 y))) (dict_set gcol_cmp k r (sh_refs s)) =
              dict_set gcol_cmp k (map fill_nan (snd (h r))) (gd_data (seen h s))).
  { rewrite (dict_set_map gcol_cmp (fun y => snd (h2 y))). cbn [seen with_data gd_data]. f_equal.
    - unfold h2. rewrite put_same. cbn [filled snd]. pose proof (close_filled h c r C) as F. unfold filled in F. congruence.
    - apply map_ext_in. intros [k' y] I. f_equal. unfold h2. destruct (Nat.eq_dec y r) as [->|N]; [|rewrite put_other by exact N; reflexivity].
      rewrite put_same. assert (I2 : In r (map snd (sh_refs s))) by (apply in_map_iff; exists (k', r); auto). destruct (S r I2) as (F & _). rewrite F. reflexivity. }
  cbv zeta. rewrite <- D. clear D. change (gd_col_set (seen h s)) with (gd_col_set (sh_file s)).
  change (gd_geom (seen h s)) with (gd_geom (sh_file s)). change (gd_precision (seen h s)) with (gd_precision (sh_file s)).
  change (gd_packing (seen h s)) with (gd_packing (sh_file s)). change (gd_col_headers (seen h s)) with (gd_col_headers (sh_file s)). change (gd_ptrs (seen h s)) with (gd_ptrs (sh_file s)).
  destruct (1 + Zlen (set_add gcol_cmp k (gd_col_set (sh_file s))) >? MMHDRS).
  - assert (h1 = h2) as -> by congruence. match type of E with (_, ?z, _) = _ => assert (s1 = z) as -> by congruence end.
    assert (x = Err ValueError) as -> by congruence. split; [exact C2|]. split; [apply S2|]. reflexivity.
  - destruct (sort_headers _) as [hs|e].
    + assert (h1 = h2) as -> by congruence. match type of E with (_, ?z, _) = _ => assert (s1 = z) as -> by congruence end.
      assert (x = Ok tt) as -> by congruence. split; [exact C2|]. split; [apply S2|]. reflexivity.
    + assert (h1 = h2) as -> by congruence. match type of E with (_, ?z, _) = _ => assert (s1 = z) as -> by congruence end.
      assert (x = Err e) as -> by congruence. split; [exact C2|]. split; [apply S2|]. reflexivity.
Qed.

Lemma shared_run l : forall h c s passed h' s', close h c -> stored h c s passed -> left_alone passed l -> run_shared h s l = (h', s') ->
  close h' (own_arrays c l) /\ seen h' s' = fold_left (fun o q => fst (add_grid o q)) (calls_of c l) (seen h s).
Proof.
  induction l as [|[q r|r cells] l IH]; intros h c s passed h' s' C S LA R; cbn [run_shared own_arrays calls_of left_alone fold_left] in *.
  - assert (h' = h /\ s' = s) as (-> & ->) by (split; congruence). auto.
  - destruct (add_shared h s q r) as [[h1 s1] x] eqn:E. destruct (add_step _ _ _ _ _ _ _ _ _ C S E) as (C1 & S1 & A).
    destruct (IH _ _ _ _ _ _ C1 S1 LA R) as (C2 & G). split; [exact C2|]. rewrite A. exact G.
  - destruct LA as (N & LA). assert (NR : ~ In r (map snd (sh_refs s))) by (intros I; destruct (S r I); contradiction).
    set (h1 := put h r (fst (h r), cells)) in *. set (c1 := put c r (fst (c r), cells)) in *.
    assert (C1 : close h1 c1).
    { intros y. unfold h1, c1. destruct (Nat.eq_dec y r) as [->|NE]; [|rewrite !put_other by exact NE; apply C].
      rewrite !put_same. left. destruct (C r) as [->| ->]; reflexivity. }
    assert (S1 : stored h1 c1 s passed).
    { intros y I. assert (y <> r) by (intros ->; contradiction). unfold h1, c1. rewrite !put_other by assumption. apply S, I. }
    destruct (IH _ _ _ _ _ _ C1 S1 LA R) as (C2 & G). split; [exact C2|]. rewrite G. f_equal. unfold seen. f_equal. apply map_ext_in. intros [k y] I.
    assert (y <> r) by (intros ->; apply NR, in_map_iff; exists (k, r); auto). unfold h1. rewrite put_other by assumption. reflexivity.
Qed.

(** Whatever the program does, the file changes nothing but NaN cells of arrays passed to it. *)
Lemma only_nan l : forall h c s h' s', close h c -> run_shared h s l = (h', s') -> close h' (own_arrays c l).
Proof.
  induction l as [|[q r|r cells] l IH]; intros h c s h' s' C R; cbn [run_shared own_arrays] in *.
  - assert (h' = h) as -> by congruence. exact C.
  - destruct (add_shared h s q r) as [[h1 s1] x] eqn:E. eapply IH; [|exact R]. unfold add_shared in E. cbv zeta in E.
    destruct (check_grid _ _) as [[k cl]|e] eqn:CG; [|assert (h1 = h) as -> by congruence; exact C].
    apply check_cells in CG. subst cl. assert (H1 : h1 = put h r (filled (h r))).
    { destruct (_ >? _); [unfold filled; congruence|]. destruct (sort_headers _); unfold filled; congruence. }
    subst h1. intros y. destruct (Nat.eq_dec y r) as [->|N]; [rewrite put_same, (close_filled _ _ _ C); right; reflexivity|rewrite put_other by exact N; apply C].
  - eapply IH; [|exact R]. intros y. destruct (Nat.eq_dec y r) as [->|NE]; [|rewrite !put_other by exact NE; apply C].
    rewrite !put_same. left. destruct (C r) as [->| ->]; reflexivity.
Qed.
