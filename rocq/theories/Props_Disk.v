(** Property C88: files on disk after writing, failed writing and interrupted writing. *)
From Coq Require Import ZArith Lia String.
From Verif Require Import Base Words Floats Structs VgfBase Station Grid Vgf VgfRead SpecVgfLoop SpecVgfTrip VgfTripFacts Disk SpecDisk Props_Vgf Props_VgfTrip.
From Verif Require Props_Station.
From Coq Require Import List.
Import ListNotations.
Open Scope string_scope.
Open Scope list_scope.
Open Scope Z_scope.

Lemma after_app d l l' : after d (l ++ l') = after (after d l) l'.
Proof. apply fold_left_app. Qed.
Lemma same q : String.eqb q q = true.
Proof. apply String.eqb_refl. Qed.
Lemma other (p q : string) : q <> p -> String.eqb q p = false.
Proof. apply String.eqb_neq. Qed.
(** Writing records one after the other appends them all *)
Lemma after_writes p bs : forall d c, d p = Some c -> forall q, after d (map (Written p) bs) q = if String.eqb q p then Some (c ++ concat bs) else d q.
Proof.
  induction bs as [|b bs IH]; intros d c E q; cbn [map after fold_left concat].
  - rewrite app_nil_r. destruct (String.eqb_spec q p) as [->|]; auto.
  - change (fold_left step (map (Written p) bs) (step d (Written p b))) with (after (step d (Written p b)) (map (Written p) bs)).
    rewrite (IH _ (c ++ b)); [|cbn; rewrite same, E; reflexivity]. cbn [step]. rewrite <- app_assoc.
    destruct (String.eqb q p); reflexivity.
Qed.
Lemma element_ops_spec p l : exists bs x, element_ops p l = (map (Written p) bs, x) /\
  ((x = Returned /\ Forall2 (fun o b => encode o = Ok b) l bs /\ write_all l = (concat bs, None)) \/
   exists l1 o l2 e, x = Raised e /\ l = l1 ++ o :: l2 /\ Forall2 (fun o b => encode o = Ok b) l1 bs /\ encode o = Err e /\ write_all l = (concat bs, Some e) /\ write_all l1 = (concat bs, None)).
Proof.
  induction l as [|o l IH]; cbn [element_ops write_all].
  - exists [], Returned. split; [reflexivity|]. left. auto.
  - destruct (encode o) as [b|e] eqn:E.
    + destruct IH as (bs & x & -> & H). exists (b :: bs), x. split; [reflexivity|]. destruct H as [(-> & F & W)|(l1 & o' & l2 & e & -> & -> & F & E' & W & W1)].
      * left. rewrite W. auto.
      * right. exists (o :: l1), o', l2, e. cbn [write_all concat]. rewrite E, W, W1. repeat split; auto.
    + exists [], (Raised e). split; [reflexivity|]. right. exists [], o, l, e. repeat split; auto.
Qed.

(* Stated with the call on the right, so that checking them does not run the writer. *)
Lemma station_ops can e p o : gempak_ops can p (snd (save e o)) = ops_of can (WStation e p o).
Proof. exact (eq_refl (gempak_ops can p (snd (save e o)))). Qed.
Lemma grid_ops can e p o : gempak_ops can p (snd (save_grid e o)) = ops_of can (WGrid e p o).
Proof. exact (eq_refl (gempak_ops can p (snd (save_grid e o)))). Qed.
Lemma vgf_ops_of can p l : vgf_ops can p l = ops_of can (WVgf p l).
Proof. exact (eq_refl (vgf_ops can p l)). Qed.

(** ** Complete calls *)
(** A call that returns has written the whole file and nothing else. *)
Theorem C88_returned : forall can_open c ops d, ops_of can_open c = (ops, Returned) ->
  exists b, complete_file c b /\ after d ops (path_of c) = Some b /\ forall q, q <> path_of c -> after d ops q = d q.
Proof.
  intros can c ops d H. assert (G : forall path r, gempak_ops can path r = (ops, Returned) -> exists b, r = Ok b /\ after d ops path = Some b /\ forall q, q <> path -> after d ops q = d q).
  { intros path r E. unfold gempak_ops in E. destruct r as [b|]; [|discriminate]. destruct (can path); [|discriminate]. assert (ops = [Opened path; Written path b]) as -> by congruence.
    exists b. split; [reflexivity|]. cbn. rewrite !same. split; [reflexivity|]. intros q N. rewrite !(other _ _ N). reflexivity. }
  destruct c as [e p o|e p o|p l]; [rewrite <- station_ops in H; exact (G _ _ H)|rewrite <- grid_ops in H; exact (G _ _ H)|rewrite <- vgf_ops_of in H]. cbn [path_of complete_file].
  unfold vgf_ops in H. destruct (can p); [|discriminate]. destruct (element_ops_spec p (vgfile l)) as (bs & x & E & S). rewrite E in H.
  assert (ops = Opened p :: map (Written p) bs /\ x = Returned) as [-> ->] by (split; congruence). destruct S as [(_ & _ & W)|(? & ? & ? & ? & D & _)]; [|discriminate].
  exists (concat bs). split; [exact W|]. cbn [after fold_left]. change (fold_left step (map (Written p) bs) ?x) with (after x (map (Written p) bs)).
  split; [|intros q N]; rewrite (after_writes p bs _ []) by (cbn; rewrite same; reflexivity); [rewrite same; reflexivity|]. rewrite (other _ _ N). cbn. rewrite (other _ _ N). reflexivity.
Qed.
Print Assumptions C88_returned.

(** ** Calls that raise *)
(** to_gempak: the disk is as before, at every moment of the call. *)
Theorem C88_failed_partial : forall can_open c ops x d d', is_gempak c -> ops_of can_open c = (ops, x) -> x <> Returned ->
  interrupted d ops d' -> d' = d.
Proof.
  intros can c ops x d d' G H N I. assert (ops = []) as ->.
  { assert (Z : forall p r, gempak_ops can p r = (ops, x) -> ops = []) by (intros p r E; unfold gempak_ops in E; destruct r; [destruct (can p)|]; congruence).
    destruct c as [e p o|e p o|p l]; [rewrite <- station_ops in H; exact (Z _ _ H)|rewrite <- grid_ops in H; exact (Z _ _ H)|destruct G]. }
  inversion I; reflexivity.
Qed.
Print Assumptions C88_failed_partial.
(** to_vgf: when an element cannot be encoded, the file holds the elements before it. *)
Theorem C88_vgf_partial : forall can_open path l ops x d, ops_of can_open (WVgf path l) = (ops, Raised x) ->
  exists l1 o l2 b, l = l1 ++ o :: l2 /\ encode o = Err x /\ to_vgf l1 = (b, None) /\
    after d ops path = Some b /\ forall q, q <> path -> after d ops q = d q.
Proof.
  intros can p l ops x d H. rewrite <- vgf_ops_of in H. unfold vgf_ops in H. destruct (can p); [|discriminate]. destruct (element_ops_spec p (vgfile l)) as (bs & y & E & S). rewrite E in H.
  assert (ops = Opened p :: map (Written p) bs /\ y = Raised x) as [-> ->] by (split; congruence). destruct S as [(D & _)|(l1 & o & l2 & e & EX & EL & F & EO & _ & W)]; [discriminate|].
  assert (e = x) as -> by congruence. destruct l1 as [|h l1].
  { cbn in EL. assert (o = file_header) as -> by (unfold vgfile in EL; congruence). exfalso. revert EO. clear. intros EO. vm_compute in EO. discriminate EO. }
  assert (h = file_header /\ l = l1 ++ o :: l2) as [-> ->] by (unfold vgfile in EL; cbn in EL; split; congruence).
  exists l1, o, l2, (concat bs). split; [reflexivity|]. split; [exact EO|]. split; [exact W|].
  cbn [after fold_left]. change (fold_left step (map (Written p) bs) ?x) with (after x (map (Written p) bs)).
  split; [|intros q N]; rewrite (after_writes p bs _ []) by (cbn; rewrite same; reflexivity); [rewrite same; reflexivity|]. rewrite (other _ _ N). cbn. rewrite (other _ _ N). reflexivity.
Qed.
Print Assumptions C88_vgf_partial.
(** That file opens without an error and shows just these elements. *)
Theorem C88_vgf_opens_partial : forall tca can_open path l ops x d, Forall built l -> Forall readable l -> ops_of can_open (WVgf path l) = (ops, Raised x) ->
  exists l1 l2 b st, l = l1 ++ l2 /\ l2 <> [] /\ after d ops path = Some b /\ opens tca b (Ok st) /\ Forall2 same_element l1 (vs_elements st).
Proof.
  intros tca can p l ops x d B R H. destruct (C88_vgf_partial can p l ops x d H) as (l1 & o & l2 & b & -> & _ & W & A & _).
  apply Forall_app in B as [B _]. apply Forall_app in R as [R _]. destruct (C47_round_trip_partial tca l1 b B R W) as (st & h & OP & F & _).
  exists l1, (o :: l2), b, st. split; [reflexivity|]. split; [discriminate|]. auto.
Qed.
Print Assumptions C88_vgf_opens_partial.

(** ** Interrupted calls *)
(** Other files are not touched; the file is as before or holds a beginning of what the call writes. *)
Lemma interrupted_writes p bs : forall d d' c, d p = Some c -> interrupted d (map (Written p) bs) d' ->
  (forall q, q <> p -> d' q = d q) /\ exists n, d' p = Some (c ++ firstn n (concat bs)).
Proof.
  induction bs as [|b bs IH]; intros d d' c E I; cbn [map] in I.
  - inversion I; subst. split; [auto|]. exists 0%nat. cbn. rewrite app_nil_r. exact E.
  - inversion I; subst.
    + split; [auto|]. exists 0%nat. cbn. rewrite app_nil_r. exact E.
    + cbn [step]. rewrite same, E. split; [intros q N; rewrite (other _ _ N); reflexivity|]. exists (Nat.min n (length b)). cbn [concat]. rewrite firstn_app.
      replace (Nat.min n (length b) - length b)%nat with 0%nat by lia. cbn [firstn]. rewrite app_nil_r. do 2 f_equal. destruct (Nat.le_gt_cases n (length b)).
      * rewrite Nat.min_l by assumption. reflexivity.
      * rewrite Nat.min_r by lia. rewrite !firstn_all2 by lia. reflexivity.
    + assert (E2 : step d (Written p b) p = Some (c ++ b)) by (cbn; rewrite same, E; reflexivity). match goal with X : interrupted (step _ _) _ _ |- _ => destruct (IH _ _ _ E2 X) as [O (n & P)] end.
      split; [intros q N; rewrite (O q N); cbn; rewrite (other _ _ N); reflexivity|]. exists (length b + n)%nat. rewrite P, <- app_assoc. cbn [concat]. rewrite firstn_app_2. reflexivity.
Qed.
Lemma interrupted_file p bs d d' : interrupted d (Opened p :: map (Written p) bs) d' ->
  (forall q, q <> p -> d' q = d q) /\ (d' p = d p \/ exists n, d' p = Some (firstn n (concat bs))).
Proof.
  intros I. inversion I; subst; [auto|]. assert (E2 : step d (Opened p) p = Some []) by (cbn; rewrite same; reflexivity). match goal with X : interrupted (step _ _) _ _ |- _ => destruct (interrupted_writes p bs _ _ _ E2 X) as [O (n & P)] end. cbn [app] in P.
  split; [|right; exists n; exact P]. intros q N. rewrite (O q N). cbn. rewrite (other _ _ N). reflexivity.
Qed.
Theorem C88_interrupted_partial : forall can_open c d d', interrupted d (fst (ops_of can_open c)) d' ->
  (forall q, q <> path_of c -> d' q = d q) /\
  (d' (path_of c) = d (path_of c) \/ exists b n, leaves can_open c b /\ d' (path_of c) = Some (firstn n b)).
Proof.
  intros can c d d' I. assert (G : forall path r, interrupted d (fst (gempak_ops can path r)) d' -> (forall q, q <> path -> d' q = d q) /\ (d' path = d path \/ exists b n, can path = true /\ r = Ok b /\ d' path = Some (firstn n b))).
  { intros p r J. unfold gempak_ops in J. destruct r as [b|]; [destruct (can p) eqn:C|]; cbn [fst] in J; [|inversion J; subst; auto|inversion J; subst; auto].
    destruct (interrupted_file p [b] d d' J) as [O [P|(n & P)]]; (split; [exact O|]); [left; exact P|right]. exists b, n. cbn in P. rewrite app_nil_r in P. auto. }
  destruct c as [e p o|e p o|p l]; cbn [path_of]; [rewrite <- station_ops in I|rewrite <- grid_ops in I|rewrite <- vgf_ops_of in I].
  - destruct (G _ _ I) as [O [P|(b & n & C & R & P)]]; (split; [exact O|]); [left; exact P|right]. exists b, n. split; [|exact P]. split; [exact C|]. left. exact R.
  - destruct (G _ _ I) as [O [P|(b & n & C & R & P)]]; (split; [exact O|]); [left; exact P|right]. exists b, n. split; [|exact P]. split; [exact C|]. left. exact R.
  - unfold vgf_ops in I. destruct (can p) eqn:C; [|inversion I; subst; auto]. destruct (element_ops_spec p (vgfile l)) as (bs & y & E & S). rewrite E in I. cbn [fst] in I.
    destruct (interrupted_file p bs d d' I) as [O [P|(n & P)]]; (split; [exact O|]); [left; exact P|right]. exists (concat bs), n. split; [|exact P]. split; [exact C|].
    destruct S as [(_ & _ & W)|(? & ? & ? & e & _ & _ & _ & _ & W & _)]; [left; exact W|right]. exists p, l, e. auto.
Qed.
Print Assumptions C88_interrupted_partial.

(** ** Any number of calls *)
Lemma call_after can c d : (forall q, q <> path_of c -> after d (fst (ops_of can c)) q = d q) /\
  ((exists b, leaves can c b /\ after d (fst (ops_of can c)) (path_of c) = Some b) \/ leaves_nothing can c /\ after d (fst (ops_of can c)) = d).
Proof.
  assert (G : forall path r, (forall q, q <> path -> after d (fst (gempak_ops can path r)) q = d q) /\
    ((exists b, can path = true /\ r = Ok b /\ after d (fst (gempak_ops can path r)) path = Some b) \/ (can path = false \/ forall b, r <> Ok b) /\ after d (fst (gempak_ops can path r)) = d)).
  { intros p r. unfold gempak_ops. destruct r as [b|x]; [destruct (can p) eqn:C|]; cbn.
    - rewrite !same. split; [intros q N; rewrite !(other _ _ N); reflexivity|]. left. exists b. auto.
    - split; [auto|]. right. auto.
    - split; [auto|]. right. split; [right; congruence|reflexivity]. }
  destruct c as [e p o|e p o|p l]; cbn [path_of]; [rewrite <- station_ops|rewrite <- grid_ops|rewrite <- vgf_ops_of].
  - destruct (G p (snd (save e o))) as [O [(b & C & R & A)|(N & A)]]; (split; [exact O|]); [left; exists b; split; [split; [exact C|left; exact R]|exact A]|right; split; [|exact A]].
    intros b [C [R|(? & ? & ? & R & _)]]; [|discriminate]. cbn [path_of complete_file] in C, R. destruct N as [N|N]; [congruence|exact (N b R)].
  - destruct (G p (snd (save_grid e o))) as [O [(b & C & R & A)|(N & A)]]; (split; [exact O|]); [left; exists b; split; [split; [exact C|left; exact R]|exact A]|right; split; [|exact A]].
    intros b [C [R|(? & ? & ? & R & _)]]; [|discriminate]. cbn [path_of complete_file] in C, R. destruct N as [N|N]; [congruence|exact (N b R)].
  - unfold vgf_ops. destruct (can p) eqn:C.
    + destruct (element_ops_spec p (vgfile l)) as (bs & y & E & S). rewrite E. cbn [fst after fold_left]. change (fold_left step (map (Written p) bs) ?x) with (after x (map (Written p) bs)).
      split; [intros q N|left; exists (concat bs); split]; try (rewrite (after_writes p bs _ []) by (cbn; rewrite same; reflexivity)); [rewrite (other _ _ N); cbn; rewrite (other _ _ N); reflexivity| |rewrite same; reflexivity].
      split; [exact C|]. destruct S as [(_ & _ & W)|(? & ? & ? & e & _ & _ & _ & _ & W & _)]; [left; exact W|right]. exists p, l, e. auto.
    + cbn. split; [auto|]. right. split; [|reflexivity]. intros b [C' _]. cbn in C'. congruence.
Qed.
(** After any calls, failed or not, a file holds what the last call left there that left anything;
    without such a call it is as before. *)
Theorem C88_history : forall can_open d q before c later b, leaves can_open c b -> path_of c = q ->
  Forall (fun c' => path_of c' <> q \/ leaves_nothing can_open c') later -> run can_open d (before ++ c :: later) q = Some b.
Proof.
  intros can d q before c later b L P F. unfold run. rewrite fold_left_app. cbn [fold_left]. set (d0 := fold_left _ before d). clearbody d0. clear d before.
  assert (E : after d0 (fst (ops_of can c)) q = Some b).
  { subst q. destruct (call_after can c d0) as [_ [(b' & L' & A)|(N & _)]]; [|exfalso; exact (N b L)]. rewrite A. f_equal. destruct L as [_ [L|(p & l & x & L & W)]], L' as [_ [L'|(p' & l' & x' & L' & W')]].
    - destruct c; cbn [complete_file] in *; congruence.
    - subst c. cbn [complete_file] in L. congruence.
    - subst c. cbn [complete_file] in L'. congruence.
    - congruence. }
  revert E. generalize (after d0 (fst (ops_of can c))). clear d0. induction later as [|c' later IH]; intros d E; [exact E|]. cbn [fold_left]. inversion F; subst. apply IH; [assumption|].
  destruct (call_after can c' d) as [O S]. destruct (string_dec (path_of c) (path_of c')) as [Q|Q]; [|rewrite O; assumption].
  match goal with X : _ \/ leaves_nothing can c' |- _ => destruct X as [X'|X']; [exfalso; congruence|] end. destruct S as [(b' & L' & _)|(_ & A)]; [exfalso; exact (X' b' L')|]. rewrite A. exact E.
Qed.
Print Assumptions C88_history.
Theorem C88_untouched : forall can_open d q calls, Forall (fun c => path_of c <> q \/ leaves_nothing can_open c) calls -> run can_open d calls q = d q.
Proof.
  intros can d q calls F. unfold run. revert d. induction calls as [|c calls IH]; intros d; [reflexivity|]. cbn [fold_left]. inversion F; subst. rewrite IH by assumption.
  destruct (call_after can c d) as [O S]. match goal with X : path_of c <> q \/ _ |- _ => destruct X as [X'|X']; [apply O; congruence|] end. destruct S as [(b' & L' & _)|(_ & A)]; [exfalso; exact (X' b' L')|]. rewrite A. reflexivity.
Qed.
Print Assumptions C88_untouched.

(** ** The claim as stated is false *)
(** to_vgf raises, the old file is lost, and the new one is not complete: a line with a group type
    that does not fit into its byte, after another line. *)
Definition bad_line : obj := act ex_line (AAssign PGroupType (VInt 300)).
Lemma bad_line_built : built bad_line.
Proof. apply b_act; [apply ex_line_built|reflexivity]. Qed.
Definition ex_bad : wcall := WVgf "a.vgf" [ex_line; bad_line; ex_front].
Definition old_disk : disk := fun q => if String.eqb q "a.vgf" then Some (fst (to_vgf [ex_front])) else None.
Theorem C88_vgf_refuted : ~ forall can_open c ops x d, (forall p l, c = WVgf p l -> Forall built l) -> ops_of can_open c = (ops, Raised x) ->
  after d ops (path_of c) = d (path_of c) \/ exists b, complete_file c b /\ after d ops (path_of c) = Some b.
Proof.
  intros H. pose (r := ops_of (fun _ => true) ex_bad). assert (E : r = (fst r, Raised StructError)) by (vm_compute; reflexivity).
  destruct (H (fun _ => true) ex_bad (fst r) StructError old_disk) as [C|(b & C & _)].
  - intros p l [= _ <-]. repeat (apply Forall_cons); [apply ex_line_built|apply bad_line_built|apply ex_front_built|apply Forall_nil].
  - exact E.
  - vm_compute in C. discriminate C.
  - assert (N : snd (to_vgf [ex_line; bad_line; ex_front]) = Some StructError) by (vm_compute; reflexivity). unfold ex_bad in C. cbn [complete_file] in C. rewrite C in N. discriminate N.
Qed.
Print Assumptions C88_vgf_refuted.
(** An interrupted call, of whichever kind, loses the old file: any call that would have written a
    file that is not empty. *)
Theorem C88_interrupted_refuted : forall can_open c ops d, ops_of can_open c = (ops, Returned) -> d (path_of c) <> Some [] -> ~ complete_file c [] ->
  exists d', interrupted d ops d' /\ d' (path_of c) <> d (path_of c) /\ ~ exists b, complete_file c b /\ d' (path_of c) = Some b.
Proof.
  intros can c ops d H N E. assert (exists r, ops = Opened (path_of c) :: r) as (r & ->).
  { assert (G : forall p x, gempak_ops can p x = (ops, Returned) -> exists r, ops = Opened p :: r) by (intros p x J; unfold gempak_ops in J; destruct x; [destruct (can p)|]; try discriminate; eexists; symmetry; apply (f_equal fst) in J; exact J).
    destruct c as [e p o|e p o|p l]; cbn [path_of]; [rewrite <- station_ops in H; exact (G _ _ H)|rewrite <- grid_ops in H; exact (G _ _ H)|rewrite <- vgf_ops_of in H].
    unfold vgf_ops in H. destruct (can p); [|discriminate]. destruct (element_ops_spec p (vgfile l)) as (bs & y & EL & _). rewrite EL in H. eexists. symmetry. apply (f_equal fst) in H. exact H. }
  exists (step d (Opened (path_of c))). split; [apply later; apply at_once|]. cbn [step]. rewrite same. split; [congruence|]. intros (b & C & [= <-]). exact (E C).
Qed.
Print Assumptions C88_interrupted_refuted.

(** ** The hypotheses are met *)
Definition ex_sounding : wcall := WStation LE "a.snd" (Props_Station.ex_file KSounding Props_Station.ex_calls).

(** A sounding file, a VGF file, one that cannot be written, and a second sounding file whose path
    cannot be opened *)
Example C88_satisfiable :
  map (fun c => snd (ops_of (fun p => negb (String.eqb p "no.snd")) c))
    [ex_sounding; WVgf "b.vgf" [ex_line; ex_front]; ex_bad; WStation LE "no.snd" (Props_Station.ex_file KSounding Props_Station.ex_calls)] =
  [Returned; Returned; Raised StructError; CannotOpen].
Proof. vm_compute. reflexivity. Qed.
Example C88_history_satisfiable : exists b, run (fun p => negb (String.eqb p "no.snd")) old_disk [WVgf "b.vgf" [ex_line]; WVgf "a.vgf" [ex_line; ex_front]; ex_sounding] "a.vgf" = Some b /\ to_vgf [ex_line; ex_front] = (b, None) /\ Zlen b = 424 + 76 + 92.
Proof.
  exists (fst (to_vgf [ex_line; ex_front])). assert (W : to_vgf [ex_line; ex_front] = (fst (to_vgf [ex_line; ex_front]), None)) by (vm_compute; reflexivity).
  split; [|split; [exact W|vm_compute; reflexivity]]. apply (C88_history _ _ _ [WVgf "b.vgf" [ex_line]]).
  - split; [reflexivity|]. left. exact W.
  - reflexivity.
  - apply Forall_cons; [left; discriminate|apply Forall_nil].
Qed.
Example C88_interrupted_satisfiable : exists ops, ops_of (fun _ => true) ex_sounding = (ops, Returned) /\ old_disk (path_of ex_sounding) <> Some [] /\ ~ complete_file ex_sounding [].
Proof.
  pose (r := ops_of (fun _ => true) ex_sounding). assert (E : r = (fst r, Returned)) by (vm_compute; reflexivity). exists (fst r). split; [exact E|]. split; [vm_compute; discriminate|].
  unfold ex_sounding. cbn [complete_file]. intros C. assert (B : is_ok (snd (save LE (Props_Station.ex_file KSounding Props_Station.ex_calls))) = true /\ Zlen (Props_Station.bytes_of_result (snd (save LE (Props_Station.ex_file KSounding Props_Station.ex_calls)))) > 0) by (vm_compute; auto).
  rewrite C in B. destruct B as [_ B]. vm_compute in B. discriminate B.
Qed.
