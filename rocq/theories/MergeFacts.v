(** Facts about merging. *)
From Coq Require Import Lia ZifyBool ZifyNat String.
From Verif Require Import Base Calc SpecCalc CalcFacts Merge SpecMerge.
From Coq Require Import List ZArith Bool.
Import ListNotations.
Open Scope string_scope.
Open Scope list_scope.
Open Scope Z_scope.

Lemma assoc_in {B} k (l : list (string * B)) b : assoc k l = Some b -> In k (map fst l).
Proof.
  unfold assoc. destruct (find _ l) as [e|] eqn:F; [|discriminate]. intros _. apply find_some in F as [I E]. apply String.eqb_eq in E. subst k. apply in_map. exact I.
Qed.
Lemma key_of_name k : key_of (key_name k) = Some k.
Proof. destruct k; reflexivity. Qed.
Lemma key_of_some n k : key_of n = Some k -> n = key_name k.
Proof. unfold key_of. intros H. apply find_some in H as [_ E]. apply String.eqb_eq in E. auto. Qed.
Lemma insert_length {N} (l : list N) loc x : length (insert_ l loc x) = S (length l).
Proof.
  unfold insert_. rewrite app_length. cbn [length]. rewrite firstn_length, skipn_length.
  set (i := Z.to_nat _). assert (i <= length l)%nat by (unfold i, Zlen; destruct (Z.ltb_spec loc 0); lia). lia.
Qed.

Section M.
Context {A : arith}.
Notation N := (num A).
Lemma aligned_put (s : sounding N) n k l : aligned s n -> length l = n -> aligned (put s k l) n.
Proof. intros AL L k'. destruct (key_dec k' k) as [->|NE]; [rewrite get_put; exact L|rewrite get_put_other by exact NE; apply AL]. Qed.
Lemma aligned_set (s : sounding N) n k i x s' : aligned s n -> set_key A s k i x = Ok s' -> aligned s' n.
Proof.
  intros AL H. unfold set_key in H. apply bind_inv in H as (l & L & H). assert (s' = put s k l) as -> by congruence.
  apply set_ok in L as (_ & L & _). apply aligned_put; [exact AL|rewrite L; apply AL].
Qed.
Lemma aligned_insert (s : sounding N) n loc f : aligned s n -> aligned (insert_level A s loc f) (S n).
Proof. intros AL k. destruct k; cbn [get insert_level s_pres s_hght s_temp s_dwpt s_drct s_sped]; rewrite insert_length; f_equal; [apply (AL PRES)|apply (AL HGHT)|apply (AL TEMP)|apply (AL DWPT)|apply (AL DRCT)|apply (AL SPED)]. Qed.

(** Appending a level of a part *)
Lemma append_length : forall (p : part A) i (s s' : sounding N), NoDup (map fst p) -> append_level A p i s = Ok s' ->
  forall k, length (get s' k) = (length (get s k) + if in_dec string_dec (key_name k) (map fst p) then 1 else 0)%nat.
Proof.
  unfold append_level. induction p as [|[name l] p IH]; intros i s s' ND H k.
  - cbn in H. assert (s' = s) as -> by congruence. cbn. lia.
  - cbn [foldM fst snd] in H. apply bind_inv in H as (s1 & S1 & H). cbn [map fst] in ND. inversion ND as [|? ? NI ND']; subst.
    destruct (key_of name) as [k1|] eqn:K; [|discriminate]. apply bind_inv in S1 as (x & _ & S1).
    assert (s1 = put s k1 (get s k1 ++ [x])) as -> by congruence. apply key_of_some in K. subst name.
    rewrite (IH i _ _ ND' H k). clear IH H.
    destruct (in_dec string_dec (key_name k) (map fst p)) as [I|I]; destruct (in_dec string_dec (key_name k) (map fst ((key_name k1, l) :: p))) as [J|J].
    + rewrite get_put_other; [reflexivity|]. intros ->. contradiction.
    + exfalso. apply J. right. exact I.
    + destruct J as [J|J]; [|contradiction]. cbn [fst] in J. assert (k1 = k) as -> by (destruct k1, k; try reflexivity; discriminate J).
      rewrite get_put, app_length. cbn. lia.
    + rewrite get_put_other; [lia|]. intros ->. apply J. left. reflexivity.
Qed.
Lemma append_aligned (p : part A) i (s s' : sounding N) n : NoDup (map fst p) -> (forall k, In (key_name k) (map fst p)) -> aligned s n ->
  append_level A p i s = Ok s' -> aligned s' (S n).
Proof.
  intros ND C AL H k. rewrite (append_length p i s s' ND H k), AL. destruct (in_dec _ _ _) as [|NI]; [lia|]. destruct (NI (C k)).
Qed.
Definition EL (s : sounding N) : Prop := equally_long s.
Lemma EL_set s k i x s' : EL s -> set_key A s k i x = Ok s' -> EL s'.
Proof. intros (n & AL) H. exists n. eapply aligned_set; eauto. Qed.
Lemma EL_insert s loc f : EL s -> EL (insert_level A s loc f).
Proof. intros (n & AL). exists (S n). apply aligned_insert, AL. Qed.
Variable m : N.
Lemma man_step_EL (p : part A) count st i st' : NoDup (map fst p) -> (forall k, In (key_name k) (map fst p)) ->
  EL (fst (fst st)) -> man_step A m p count st i = Ok st' -> EL (fst (fst st')).
Proof.
  intros ND C E H. destruct st as [[s plast] bgl]. unfold man_step in H. cbn [fst] in *.
  apply bind_inv in H as (pl & _ & H). apply bind_inv in H as (pr & _ & H). apply bind_inv in H as (ok & _ & H). destruct ok.
  - apply bind_inv in H as (s' & S1 & H). apply bind_inv in H as (last & _ & H). assert (st' = (s', last, bgl)) as -> by congruence. cbn [fst].
    destruct E as (n & AL). exists (S n). eapply append_aligned; eauto.
  - destruct count.
    + apply bind_inv in H as (p0 & _ & H). match type of H with Ok ?x = _ => assert (st' = x) as -> by congruence end. exact E.
    + assert (st' = (s, plast, bgl)) as -> by congruence. exact E.
Qed.
End M.

(** Take a computation apart *)
Ltac step H :=
  match type of H with
  | bind _ _ = Ok _ => let x := fresh "x" in let E := fresh "E" in apply bind_inv in H as (x & E & H); step E; step H
  | (let '(_, _) := ?p in _) = Ok _ => destruct p; step H
  | (if ?c then _ else _) = Ok _ => destruct c; step H
  | (match ?o with Some _ => _ | None => _ end) = Ok _ => destruct o; step H
  | (match ?o with O => _ | S _ => _ end) = Ok _ => destruct o; step H
  | Err _ = Ok _ => discriminate H
  | Ok ?a = Ok ?b => first [ is_var b; assert (b = a) by congruence; subst b; try clear H | idtac ]
  | set_key _ _ _ _ _ = Ok _ => idtac
  | _ => idtac
  end.
Ltac els := repeat match goal with
  | E : EL ?s, H : set_key _ ?s _ _ _ = Ok ?s' |- _ => pose proof (EL_set _ _ _ _ _ E H); clear H
  end.
Section M2.
Context {A : arith}.
Notation N := (num A).
Variable m : N.
Lemma EL_one (a b c d e f : N) : EL (mk_sounding [a] [b] [c] [d] [e] [f]).
Proof. exists 1%nat. intros []; reflexivity. Qed.
Lemma surface_EL ps selv n (s : sounding N) : surface A m ps selv n = Ok s -> EL s.
Proof.
  intros H. unfold surface in H. apply bind_inv in H as (s0 & S0 & H).
  assert (E0 : EL s0) by (step S0; apply EL_one). apply bind_inv in H as (s1 & S1 & H).
  pose proof (EL_set _ _ _ _ _ E0 S1) as E1. apply bind_inv in H as (f & _ & H). apply bind_inv in H as (p & _ & H). cbv zeta in H.
  destruct (_ || _) in H; match type of H with Ok ?x = _ => assert (s = x) as -> by congruence end; [apply EL_one|exact E1].
Qed.
Lemma sigt_EL ps n (s s' : sounding N) : EL s -> surface_sigt A m ps n s = Ok s' -> EL s'.
Proof. intros E H. unfold surface_sigt in H. step H; els; assumption. Qed.
Lemma sigw_EL ps n z (s s' : sounding N) : EL s -> surface_sigw A m ps n z s = Ok s' -> EL s'.
Proof. intros E H. unfold surface_sigw in H. step H; els; assumption. Qed.
Lemma fill_temp_EL ps name loc i (s s' : sounding N) : EL s -> fill_temp A m ps name s loc i = Ok s' -> EL s'.
Proof. intros E H. unfold fill_temp in H. step H; els; assumption. Qed.
Lemma fill_dir_EL ps name loc i (s s' : sounding N) : EL s -> fill_dir A m ps name s loc i = Ok s' -> EL s'.
Proof. intros E H. unfold fill_dir in H. step H; els; assumption. Qed.
Lemma fill_wind_EL ps name loc i (s s' : sounding N) : EL s -> fill_wind A m ps name s loc i = Ok s' -> EL s'.
Proof. intros E H. unfold fill_wind in H. step H; els; assumption. Qed.
Lemma man_wind_EL ps name n n' (s s' : sounding N) : EL s -> man_wind A m ps name n n' s = Ok s' -> EL s'.
Proof.
  intros E H. unfold man_wind in H. destruct (_ && _) in H; [|assert (s' = s) as -> by congruence; exact E]. apply bind_inv in H as (pl & _ & H).
  apply (foldM_plain _ EL) in H; [exact H|exact E|]. intros s1 i s2 _ E1 H1. step H1; els; assumption.
Qed.
Lemma insert_step_EL pl u f g st i st' : (forall s a b s', EL s -> f s a b = Ok s' -> EL s') ->
  EL (in_s A st) -> insert_step A m pl u f g st i = Ok st' -> EL (in_s A st').
Proof.
  intros F E H. unfold insert_step in H. apply bind_inv in H as (raw & _ & H). cbv zeta in H. apply bind_inv in H as (ok & _ & H).
  destruct ok; [|match type of H with Ok ?x = _ => assert (st' = x) as -> by congruence end; exact E].
  destruct (n_lt A (in_pbot A st) _); [assert (st' = st) as -> by congruence; exact E|]. destruct (existsb _ _).
  - apply bind_inv in H as (pl' & _ & H). apply bind_inv in H as (s' & S' & H). match type of H with Ok ?x = _ => assert (st' = x) as -> by congruence end.
    eapply F; eauto.
  - apply bind_inv in H as (fr & _ & H). match type of H with Ok ?x = _ => assert (st' = x) as -> by congruence end. apply EL_insert, E.
Qed.
Lemma insert_part_EL ps name n u f g st st' : (forall s a b s', EL s -> f s a b = Ok s' -> EL s') ->
  EL (in_s A st) -> insert_part A m ps name n u f g st = Ok st' -> EL (in_s A st').
Proof.
  intros F E H. unfold insert_part in H. destruct n; [assert (st' = st) as -> by congruence; exact E|]. apply bind_inv in H as (pl & _ & H).
  apply (foldM_plain _ (fun st => EL (in_s A st))) in H; [exact H|exact E|]. intros s1 i s2 _ E1 H1. eapply insert_step_EL; eauto.
Qed.
Lemma trop_EL ps name n st st' : EL (in_s A st) -> trop_part A m ps name n st = Ok st' -> EL (in_s A st').
Proof.
  intros E H. eapply insert_part_EL; [|exact E|exact H]. intros s a b s' ES HS. cbv beta in HS.
  apply bind_inv in HS as (s1 & S1 & HS). apply bind_inv in HS as (s2 & S2 & HS).
  apply (EL_set s2 HGHT a m); [|exact HS]. eapply fill_dir_EL; [|exact S2]. eapply fill_temp_EL; [|exact S1]. exact ES.
Qed.
Lemma sigt_part_EL ps name n st st' : EL (in_s A st) -> sigt_part A m ps name n st = Ok st' -> EL (in_s A st').
Proof. intros E H. eapply insert_part_EL; [|exact E|exact H]. intros s a b s' ES HS. eapply fill_temp_EL; eauto. Qed.
Lemma wind_part_EL ps name n st st' : EL (in_s A st) -> wind_part A m ps name n st = Ok st' -> EL (in_s A st').
Proof. intros E H. eapply insert_part_EL; [|exact E|exact H]. intros s a b s' ES HS. eapply fill_wind_EL; eauto. Qed.
Lemma zw_climb_s : forall fuel h st st', zw_climb A m fuel h st = Ok st' -> zw_s A st' = zw_s A st.
Proof.
  induction fuel as [|f IH]; intros h st st' H; [discriminate|]. cbn [zw_climb] in H. destruct (_ && _) in H; [|assert (st' = st) as -> by congruence; reflexivity].
  cbv zeta in H. destruct (_ <=? _)%nat in H; [apply IH in H; exact H|]. apply bind_inv in H as (z & _ & H). apply IH in H. exact H.
Qed.
Lemma zw_skip_EL h d v st b st' : EL (zw_s A st) -> zw_skip A m h d v st = Ok (b, st') -> EL (zw_s A st').
Proof.
  intros E H. unfold zw_skip in H. destruct (_ || _) in H; [assert (st' = st) as -> by congruence; exact E|].
  destruct (n_lt A _ _) in H.
  - apply bind_inv in H as (d0 & _ & H). apply bind_inv in H as (fu & _ & H). destruct fu; [assert (st' = st) as -> by congruence; exact E|].
    apply bind_inv in H as (s1 & S1 & H). apply bind_inv in H as (s2 & S2 & H). els. match type of H with Ok (_, ?x) = _ => assert (st' = x) as -> by congruence end. assumption.
  - destruct (n_le A _ _) in H; [|assert (st' = st) as -> by congruence; exact E]. apply bind_inv in H as (st1 & C & H).
    assert (st' = st1) as -> by congruence. apply zw_climb_s in C. rewrite C. exact E.
Qed.
Lemma zw_place_EL h d v st st' : EL (zw_s A st) -> zw_place A m h d v st = Ok st' -> EL (zw_s A st').
Proof.
  intros E H. unfold zw_place in H. destruct (n_lt A _ _) in H.
  - apply bind_inv in H as (d0 & _ & H). apply bind_inv in H as (fu & _ & H). destruct fu; [assert (st' = st) as -> by congruence; exact E|].
    apply bind_inv in H as (s1 & S1 & H). apply bind_inv in H as (s2 & S2 & H). els. match type of H with Ok ?x = _ => assert (st' = x) as -> by congruence end. assumption.
  - cbv zeta in H. match type of H with Ok ?x = _ => assert (st' = x) as -> by congruence end. apply EL_insert, E.
Qed.
Lemma zw_loop_EL ps a b : forall fuel ab i e st st', EL (zw_s A st) -> zw_loop A m ps a b fuel ab i e st = Ok st' -> EL (zw_s A st').
Proof.
  induction fuel as [|f IH]; intros ab i e st st' E H; [discriminate|]. cbn [zw_loop] in H.
  destruct (_ && (i <? e)%nat) in H; [|assert (st' = st) as -> by congruence; exact E]. cbv zeta in H.
  apply bind_inv in H as (h & _ & H). apply bind_inv in H as (d & _ & H). apply bind_inv in H as (v & _ & H).
  apply bind_inv in H as ([sk st1] & S1 & H). apply zw_skip_EL in S1; [|exact E]. apply bind_inv in H as (st2 & S2 & H).
  assert (E2 : EL (zw_s A st2)).
  { destruct (_ && _) in S2; [eapply zw_place_EL; eauto|assert (st2 = st1) as -> by congruence; exact S1]. }
  destruct (_ && _) in H; eapply IH; eauto.
Qed.
Lemma height_winds_EL ps z1 z2 n1 n2 (s s' : sounding N) size : EL s -> height_winds A m ps z1 z2 n1 n2 s = Ok (s', size) -> EL s'.
Proof.
  intros E H. unfold height_winds in H. cbv zeta in H. apply bind_inv in H as (ist & _ & H). apply bind_inv in H as (psfc & _ & H).
  apply bind_inv in H as (zsfc & _ & H). apply bind_inv in H as ([[zo zn] il] & _ & H).
  match type of H with (let '(_, _) := ?c in _) = _ => destruct c as [ab ie] end.
  apply bind_inv in H as (st & L & H). apply zw_loop_EL in L; [|exact E]. assert (s' = zw_s A st) as -> by congruence. exact L.
Qed.
Lemma below_EL ps b n size (s s' : sounding N) : EL s -> below_ground A m ps b n size s = Ok s' -> EL s'.
Proof.
  intros E H. unfold below_ground in H. apply bind_inv in H as (p0 & _ & H). destruct (_ && _) in H; [|assert (s' = s) as -> by congruence; exact E].
  apply bind_inv in H as ([s1 sz] & F & H). assert (s' = s1) as -> by congruence. clear H.
  apply (foldM_plain _ (fun st => EL (fst st))) in F; [exact F|exact E|]. intros [s2 z2] i st' _ E2 H. cbn [fst] in E2. unfold below_step in H.
  apply bind_inv in H as (pr & _ & H). apply bind_inv in H as (p1 & _ & H). destruct (n_lt A p1 pr); [|assert (st' = (s2, z2)) as -> by congruence; exact E2].
  apply bind_inv in H as (nn & _ & H). cbv zeta in H. do 5 (apply bind_inv in H as (? & _ & H)).
  match type of H with Ok ?x = _ => assert (st' = x) as -> by congruence end. cbn [fst]. apply EL_insert, E2.
Qed.
Lemma moist_EL (s s' : sounding N) : EL s -> interp_moist_height A s m = Ok s' -> EL s'.
Proof.
  intros (n & AL) H. exists n. apply moist_height_spec in H as (_ & K & L & _). intros k. destruct (key_dec k HGHT) as [->|NE].
  - change (length (s_hght s') = n). rewrite L. apply (AL HGHT).
  - rewrite K by exact NE. apply AL.
Qed.
Lemma logp_EL fuel (s s' : sounding N) : EL s -> interp_logp_height A fuel s m = Ok s' -> EL s'.
Proof.
  intros (n & AL) H. exists n. apply logp_height_filled in H as [[L _] K]. intros k. destruct (key_dec k HGHT) as [->|NE].
  - cbn [get] in *. rewrite L. apply (AL HGHT).
  - rewrite K by exact NE. apply AL.
Qed.
Lemma logpp_EL (s s' : sounding N) : EL s -> interp_logp_pressure A s m = Ok s' -> EL s'.
Proof.
  intros (n & AL) H. exists n. apply logp_pressure_filled in H as [[L _] K]. intros k. destruct (key_dec k PRES) as [->|NE].
  - cbn [get] in *. rewrite L. apply (AL PRES).
  - rewrite K by exact NE. apply AL.
Qed.
Lemma miss_EL (s s' : sounding N) : EL s -> interp_missing_data A s m = Ok s' -> EL s'.
Proof. intros (n & AL) H. exists n. apply missing_data_spec in H as [L _]. intros k. rewrite L. apply AL. Qed.

(** The mandatory parts *)
Lemma arr_in (ps : parts_t A) name k l : arr A ps name k = Ok l -> exists p, assoc name ps = Some p /\ In (key_name k) (map fst p).
Proof.
  unfold arr, arr_of. destruct (assoc name ps) as [p|] eqn:E; [|discriminate]. intros H. exists p. split; [reflexivity|].
  destruct (assoc (key_name k) p) eqn:F; [|discriminate]. eapply assoc_in, F.
Qed.
Lemma surface_complete (ps : parts_t A) selv n s : surface A m ps selv (S n) = Ok s ->
  exists p, assoc "TTAA" ps = Some p /\ forall k, In (key_name k) (map fst p).
Proof.
  intros H. unfold surface in H. apply bind_inv in H as (s0 & S0 & _). unfold val in S0.
  do 6 (let X := fresh in apply bind_inv in S0 as (? & X & S0); apply bind_inv in X as (? & X & _); apply arr_in in X as (? & ? & ?)).
  match goal with H : assoc "TTAA" ps = Some ?p |- _ => exists p; split; [exact H|] end.
  intros []; cbn [key_name] in *; congruence.
Qed.
Lemma mandatory_EL ps n n' (s s' : sounding N) bgl : dictionary ps "TTAA" -> dictionary ps "TTCC" ->
  (n = 0%nat \/ exists p, assoc "TTAA" ps = Some p /\ forall k, In (key_name k) (map fst p)) ->
  (n' = 0%nat \/ exists p, assoc "TTCC" ps = Some p /\ forall k, In (key_name k) (map fst p)) ->
  EL s -> mandatory A m ps n n' s = Ok (s', bgl) -> EL s'.
Proof.
  intros D1 D2 C1 C2 E H. unfold mandatory in H. apply bind_inv in H as (p0 & _ & H). cbv zeta in H.
  apply bind_inv in H as ([[s1 pl] b1] & F1 & H). apply bind_inv in H as ([[s2 pl2] b2] & F2 & H). assert (s' = s2) as -> by congruence. clear H.
  assert (E1 : EL s1).
  { destruct C1 as [->|(p & P & C)]; [cbn in F1; congruence|]. unfold part_of in F1. rewrite P in F1.
    apply (foldM_plain _ (fun st => EL (fst (fst st)))) in F1; [exact F1|exact E|]. intros st i st' _ ES HS. eapply man_step_EL; eauto. }
  destruct C2 as [->|(p & P & C)]; [cbn in F2; congruence|]. unfold part_of in F2. rewrite P in F2.
  apply (foldM_plain _ (fun st => EL (fst (fst st)))) in F2; [exact F2|exact E1|]. intros st i st' _ ES HS. eapply man_step_EL; eauto.
Qed.
(** The vertical coordinate test changes only the wind parts *)
Lemma wind_coord_other (ps ps' : parts_t A) name n b other : wind_coord A m ps name n = Ok (b, ps') -> other <> name -> assoc other ps' = assoc other ps.
Proof.
  intros H NE. unfold wind_coord in H. destruct n; [congruence|]. destruct (assoc name ps) as [p|]; [|discriminate]. destruct (assoc "PRES" p); [congruence|].
  apply bind_inv in H as (h & _ & H). destruct (existsb _ h) in H; [|congruence].
  match type of H with Ok (_, ?x) = _ => assert (ps' = x) as -> by congruence end. clear H. unfold assoc.
  induction ps as [|[nm q] ps IH]; [reflexivity|]. cbn [map find fst snd]. destruct (String.eqb_spec nm name) as [->|NN]; cbn [fst].
  - destruct (String.eqb_spec name other) as [->|]; [congruence|exact IH].
  - destruct (String.eqb_spec nm other) as [->|]; [reflexivity|exact IH].
Qed.
Lemma levels_zero (ps : parts_t A) name k n : levels A ps name k = Ok n -> n = 0%nat \/ exists p, assoc name ps = Some p.
Proof. unfold levels. destruct (assoc name ps) as [p|]; [eauto|]. left. congruence. Qed.
Theorem merge_EL fuel (ps : parts_t A) selv (s : sounding N) : dictionary ps "TTAA" -> dictionary ps "TTCC" -> complete ps "TTCC" ->
  merge_sounding A m fuel ps selv = Ok (Some s) -> EL s.
Proof.
  intros D1 D2 C2 H. unfold merge_sounding in H.
  apply bind_inv in H as (n_man & LM & H). do 5 (apply bind_inv in H as (? & _ & H)). apply bind_inv in H as (n_above & LA & H). do 5 (apply bind_inv in H as (? & _ & H)).
  destruct (_ =? 0)%nat in H; [discriminate|].
  apply bind_inv in H as ([bbz ps1] & W1 & H). apply bind_inv in H as ([ddz ps2] & W2 & H).
  assert (SA : forall o, o <> "PPBB" -> o <> "PPDD" -> assoc o ps2 = assoc o ps).
  { intros o O1 O2. rewrite (wind_coord_other _ _ _ _ _ o W2 O2). apply (wind_coord_other _ _ _ _ _ o W1 O1). }
  assert (T1 := SA "TTAA" ltac:(discriminate) ltac:(discriminate)). assert (T2 := SA "TTCC" ltac:(discriminate) ltac:(discriminate)).
  apply bind_inv in H as (s1 & S1 & H). pose proof (surface_EL _ _ _ _ S1) as E1.
  apply bind_inv in H as (s2 & S2 & H). pose proof (sigt_EL _ _ _ _ E1 S2) as E2.
  apply bind_inv in H as (s3 & S3 & H). pose proof (sigw_EL _ _ _ _ _ E2 S3) as E3.
  apply bind_inv in H as ([s4 bgl] & S4 & H).
  assert (E4 : EL s4).
  { eapply mandatory_EL; [| | | |exact E3|exact S4].
    - intros p P. apply D1. congruence.
    - intros p P. apply D2. congruence.
    - destruct n_man; [left; reflexivity|right]. eapply surface_complete, S1.
    - apply levels_zero in LA as [->|(p & P)]; [left; reflexivity|right]. exists p. split; [congruence|]. intros k. apply (C2 p k P). }
  apply bind_inv in H as (s5 & S5 & H). pose proof (man_wind_EL _ _ _ _ _ _ E4 S5) as E5.
  apply bind_inv in H as (s6 & S6 & H). pose proof (man_wind_EL _ _ _ _ _ _ E5 S6) as E6.
  apply bind_inv in H as (st7 & S7 & H).
  assert (E7 : EL (in_s A st7)).
  { destruct (_ <=? _)%nat in S7; [|assert (st7 = mk_ins A s6 m None) as -> by congruence; exact E6].
    apply bind_inv in S7 as (pb & _ & S7). apply bind_inv in S7 as (st & S & S7). eapply trop_EL; [|exact S7]. eapply trop_EL; [|exact S]. exact E6. }
  apply bind_inv in H as (st8 & S8 & H).
  assert (E8 : EL (in_s A st8)).
  { destruct (_ <=? _)%nat in S8; [|assert (st8 = st7) as -> by congruence; exact E7].
    apply bind_inv in S8 as (pb & _ & S8). apply bind_inv in S8 as (st & S & S8). eapply sigt_part_EL; [|exact S8]. eapply sigt_part_EL; [|exact S]. exact E7. }
  apply bind_inv in H as (s9 & S9 & H). pose proof (moist_EL _ _ E8 S9) as E9. cbv zeta in H. cbn [in_s in_size in_pbot] in H.
  apply bind_inv in H as (st10 & S10 & H).
  assert (E10 : EL (in_s A st10)).
  { destruct (_ && _) in S10; [|match type of S10 with Ok ?x = _ => assert (st10 = x) as -> by congruence end; exact E9].
    apply bind_inv in S10 as (pb & _ & S10). apply bind_inv in S10 as (st & S & S10). eapply wind_part_EL; [|exact S10]. eapply wind_part_EL; [|exact S]. exact E9. }
  apply bind_inv in H as (st11 & S11 & H).
  assert (E11 : EL (in_s A st11)).
  { destruct (_ <=? _)%nat in S11; [|assert (st11 = st10) as -> by congruence; exact E10].
    apply bind_inv in S11 as (pb & _ & S11). apply bind_inv in S11 as (st & S & S11). eapply wind_part_EL; [|exact S11]. eapply wind_part_EL; [|exact S]. exact E10. }
  apply bind_inv in H as (s12 & S12 & H). pose proof (logp_EL _ _ _ E11 S12) as E12.
  apply bind_inv in H as ([s13 size] & S13 & H).
  assert (E13 : EL s13).
  { destruct (_ || _) in S13; [|assert (s13 = s12) as -> by congruence; exact E12].
    apply bind_inv in S13 as ([sa za] & SA1 & S13). apply height_winds_EL in SA1; [|exact E12]. apply bind_inv in S13 as (sb & SB & S13).
    assert (s13 = sb) as -> by congruence. exact (logpp_EL _ _ SA1 SB). }
  apply bind_inv in H as (s14 & S14 & H). pose proof (miss_EL _ _ E13 S14) as E14.
  apply bind_inv in H as (s15 & S15 & H). assert (s = s15) as -> by congruence. exact (below_EL _ _ _ _ _ _ E14 S15).
Qed.
End M2.
