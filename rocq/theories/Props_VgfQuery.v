(** Properties C54-C56: selections, groups and bounds of an opened vector graphics file. *)
From Coq Require Import Lia ZifyBool ZifyNat Sorted String.
From Verif Require Import Base BaseFacts Floats VgfRead SpecVgf VgfRangeFacts SpecVgfQuery.
From Coq Require Import List.
Import ListNotations.
Open Scope Z_scope.

(** ** C54: selectors *)
Lemma picked_filter P (p : velem -> bool) l : (forall e, P e <-> p e = true) -> picked P l (filter p l).
Proof.
  intros H. induction l as [|e l IH]; cbn [filter]; [constructor|].
  destruct (p e) eqn:E; [apply picked_yes|apply picked_no]; auto; rewrite H; congruence.
Qed.
Lemma picked_ext P R l f : (forall e, P e <-> R e) -> picked P l f -> picked R l f.
Proof. intros H. induction 1; [constructor|apply picked_yes|apply picked_no]; auto; rewrite <- H; assumption. Qed.
Lemma picked_unique P l f g : picked P l f -> picked P l g -> f = g.
Proof. intros H. revert g. induction H; intros g G; inversion G; subst; try contradiction; try reflexivity; [f_equal|]; auto. Qed.

Theorem C54_filter_elements : forall l c t op,
  (op <> OpOther -> exists r, filter_elements l c t op = Ok r /\ selection (passes c t op) l r) /\
  (op = OpOther -> filter_elements l c t op = Err ValueError).
Proof.
  intros l c t op. split; [|intros ->; reflexivity]. intros O.
  assert (G : forall (p : velem -> bool), (forall e, passes c t op e <-> p e = true) ->
     selection (passes c t op) l (match filter p l with [] => None | _ => Some (filter p l) end)).
  { intros p H. pose proof (picked_filter _ p l H) as PF. destruct (filter p l) eqn:E; cbn [selection]; [exact PF|].
    split; [discriminate|exact PF]. }
  assert (F : picked (fun _ => False) l []) by (clear; induction l; [constructor|apply picked_no; auto]).
  unfold filter_elements. destruct op; [| |contradiction]; eexists; (split; [reflexivity|]);
    destruct c as [c|], t as [t|]; try exact F; apply G; intros e; cbn [passes]; unfold element_class, element_type; lia.
Qed.
Print Assumptions C54_filter_elements.

Lemma picked_in P l f : picked P l f -> forall e, In e f <-> In e l /\ P e.
Proof.
  induction 1 as [|e l f Pe _ IH|e l f Pe _ IH]; intros x; cbn [In]; [tauto| |]; rewrite IH; intuition (subst; auto); contradiction.
Qed.
Lemma has_spec l c t : has l c t = true <-> exists e, In e l /\ passes (Some c) t OpAnd e.
Proof.
  unfold has. destruct (C54_filter_elements l (Some c) t OpAnd) as [H _]. destruct H as (r & -> & S); [discriminate|].
  destruct r as [f|]; cbn [selection] in S.
  - split; [intros _|reflexivity]. destruct S as [N P]. destruct f as [|e f]; [contradiction|].
    exists e. apply (picked_in _ _ _ P). left. reflexivity.
  - split; [discriminate|]. intros (e & He). apply (picked_in _ _ _ S) in He. contradiction.
Qed.
Lemma get_spec l c t : selection (passes (Some c) t OpAnd) l (get_if (has l c t) l c t).
Proof.
  unfold get_if. pose proof (has_spec l c t) as H. unfold has in *.
  destruct (C54_filter_elements l (Some c) t OpAnd) as [F _]. destruct F as (r & E & S); [discriminate|]. rewrite E in *.
  destruct r; exact S.
Qed.

(** The selectors that do what they say, each with what it selects; for text and met only the
    predicates are right (refuted below). *)
Definition selectors : list ((list velem -> bool) * (list velem -> option (list velem)) * (velem -> Prop)) :=
  [(has_fronts, get_fronts, of_class 1); (has_watch_box, get_watch_box, of_class 2);
   (has_lines, get_lines, of_class_type 3 1); (has_special_lines, get_special_lines, of_class_type 3 20);
   (has_symbols, get_symbols, of_class 4); (has_special_symbols, get_special_symbols, of_class_type 4 15);
   (has_markers, get_markers, of_class_type 4 19); (has_special_text, get_special_text, of_class_type 5 21);
   (has_winds, get_winds, of_class 6); (has_tracks, get_tracks, of_class 10); (has_sigmet, get_sigmet, of_class 11)].
Theorem C54_selectors_partial : forall has get P l, In (has, get, P) selectors ->
  (has l = true <-> exists e, In e l /\ P e) /\ selection P l (get l).
Proof.
  intros h g P l H.
  assert (X : exists c t, h l = has l c t /\ g l = get_if (has l c t) l c t /\ P = passes (Some c) t OpAnd).
  { cbn [selectors In] in H. repeat (destruct H as [H|H]; [injection H as <- <- <-; do 2 eexists; split; [reflexivity|]; split; reflexivity|]). contradiction. }
  destruct X as (c & t & -> & -> & ->). split; [apply has_spec|apply get_spec].
Qed.
Print Assumptions C54_selectors_partial.
Theorem C54_predicates : forall l,
  (has_text l = true <-> exists e, In e l /\ of_class_type 5 17 e) /\
  (has_met l = true <-> exists e, In e l /\ of_class 15 e).
Proof. intros l. split; apply has_spec. Qed.
Print Assumptions C54_predicates.

Definition ex_hdr (c t gt gn : Z) (a b x y : flt) : vhdr := mk_vhdr 0 t c 0 0 0 0 gt gn 1 1 0 a b x y.
Definition ex_elem (c t gt gn : Z) : velem :=
  mk_velem "LineElement"%string (ex_hdr c t gt gn (of_Z 30) (of_Z (-100)) (of_Z 40) (of_Z (-90))) [] [] [] CoNone CoNone.
Example C54_example :
  get_markers [ex_elem 4 19 0 0; ex_elem 1 2 0 0; ex_elem 4 15 0 0; ex_elem 4 19 3 1]
  = Some [ex_elem 4 19 0 0; ex_elem 4 19 3 1] /\
  filter_elements [ex_elem 4 19 0 0; ex_elem 1 2 0 0; ex_elem 4 15 0 0] (Some 1) (Some 15) OpOr
  = Ok (Some [ex_elem 1 2 0 0; ex_elem 4 15 0 0]).
Proof. split; reflexivity. Qed.
(** get_text also returns special text once there is plain text. *)
Theorem C54_text_refuted : exists l f e,
  get_text l = Some f /\ In e f /\ ~ of_class_type 5 17 e /\ get_special_text l = Some [e].
Proof.
  exists [ex_elem 5 17 0 0; ex_elem 5 21 0 0], [ex_elem 5 17 0 0; ex_elem 5 21 0 0], (ex_elem 5 21 0 0).
  split; [reflexivity|]. split; [right; left; reflexivity|]. split; [|reflexivity]. intros [_ H]. discriminate H.
Qed.
Print Assumptions C54_text_refuted.
(** get_met returns nothing unless there is a sigmet. *)
Theorem C54_met_refuted : exists l, has_met l = true /\ get_met l = None.
Proof. exists [ex_elem 15 38 0 0]. split; reflexivity. Qed.
Print Assumptions C54_met_refuted.

(** ** C55: groups *)
Lemma insert_in x y l : In y (insert_z x l) <-> y = x \/ In y l.
Proof.
  induction l as [|z l IH]; cbn [insert_z]; [cbn; intuition|]. destruct (x <=? z); cbn [In]; [intuition|]. rewrite IH. intuition.
Qed.
Lemma insert_sorted x l : ~ In x l -> StronglySorted Z.lt l -> StronglySorted Z.lt (insert_z x l).
Proof.
  intros N H. induction H as [|y l S IH F]; cbn [insert_z]; [repeat constructor|]. cbn [In] in N.
  destruct (x <=? y) eqn:E.
  - constructor; [constructor; assumption|]. constructor; [lia|]. eapply Forall_impl; [|exact F]. cbn. lia.
  - constructor; [apply IH; tauto|]. apply Forall_forall. intros z Hz. apply insert_in in Hz as [->|Hz]; [lia|].
    rewrite Forall_forall in F. auto.
Qed.
Lemma sort_in y l : In y (sort_z l) <-> In y l.
Proof. induction l as [|x l IH]; cbn [sort_z fold_right In]; [tauto|]. rewrite insert_in. unfold sort_z in IH. rewrite IH. intuition. Qed.
Lemma sort_sorted l : NoDup l -> StronglySorted Z.lt (sort_z l).
Proof.
  induction 1 as [|x l N D IH]; cbn [sort_z fold_right]; [constructor|]. apply insert_sorted; [|exact IH].
  intros H. apply N, sort_in, H.
Qed.
Lemma NoDup_snoc {A} (l : list A) x : NoDup l -> ~ In x l -> NoDup (l ++ [x]).
Proof.
  intros H N. induction H as [|y l Y _ IH]; cbn [app]; [repeat constructor; auto|]. constructor.
  - rewrite in_app_iff. cbn. intros [H|[->|[]]]; [auto|apply N; left; reflexivity].
  - apply IH. intros H. apply N. right. exact H.
Qed.
Definition add_number (ns : list Z) (e : velem) : list Z :=
  let n := vh_group_number (ve_hdr e) in if existsb (Z.eqb n) ns then ns else ns ++ [n].
Lemma numbers_spec l : forall ns, NoDup ns ->
  NoDup (fold_left add_number l ns) /\
  forall n, In n (fold_left add_number l ns) <-> In n ns \/ exists e, In e l /\ vh_group_number (ve_hdr e) = n.
Proof.
  induction l as [|e l IH]; intros ns N; cbn [fold_left].
  - split; [exact N|]. intros n. split; [auto|]. intros [H|(? & [] & _)]. exact H.
  - assert (A : NoDup (add_number ns e) /\ forall n, In n (add_number ns e) <-> In n ns \/ n = vh_group_number (ve_hdr e)).
    { unfold add_number. cbv zeta. destruct (existsb _ ns) eqn:E.
      - split; [exact N|]. intros n. split; [auto|]. intros [H| ->]; [exact H|]. apply existsb_exists in E as (x & X & Y).
        apply Z.eqb_eq in Y. subst. exact X.
      - split.
        + apply NoDup_snoc; [exact N|]. intros H. rewrite (proj2 (existsb_exists _ _)) in E; [discriminate|].
          eexists. split; [exact H|apply Z.eqb_refl].
        + intros n. rewrite in_app_iff. cbn. intuition. }
    destruct A as [A1 A2]. destruct (IH _ A1) as [B1 B2]. split; [exact B1|]. intros n. rewrite B2, A2. split.
    + intros [[H| ->]|(x & X & Y)]; [auto|right; exists e; split; [left|]; reflexivity|right; exists x; split; [right; exact X|exact Y]].
    + intros [H|(x & [->|X] & Y)]; [auto|left; right; congruence|right; exists x; auto].
Qed.

Definition group_step (gn : Z) (g : group) (e : velem) : res group :=
  if vh_group_number (ve_hdr e) =? gn then group_add g e else Ok g.
(** A group being filled *)
Definition filling (gt gn : Z) (g : group) : Prop :=
  gr_size g = Zlen (gr_elements g) /\
  (gr_elements g = [] /\ gr_type g = None /\ gr_number g = None \/
   gr_elements g <> [] /\ gr_type g = Some gt /\ gr_number g = Some gn).
Lemma fill gt gn l : (forall e, In e l -> vh_group_type (ve_hdr e) = gt) -> forall g, filling gt gn g ->
  exists g', foldM (group_step gn) l g = Ok g' /\ filling gt gn g' /\
    gr_elements g' = gr_elements g ++ filter (fun e => vh_group_number (ve_hdr e) =? gn) l.
Proof.
  induction l as [|e l IH]; intros H g F; cbn [foldM filter].
  - exists g. rewrite app_nil_r. auto.
  - unfold group_step at 1. destruct (Z.eqb_spec (vh_group_number (ve_hdr e)) gn) as [E|E].
    + assert (A : exists g1, group_add g e = Ok g1 /\ filling gt gn g1 /\ gr_elements g1 = gr_elements g ++ [e]).
      { unfold group_add. rewrite E, (H e) by (left; reflexivity). destruct F as [S F].
        destruct F as [(F1 & -> & ->)|(F1 & -> & ->)]; rewrite ?Z.eqb_refl; cbn [bind]; eexists; (split; [reflexivity|]);
          (split; [|reflexivity]); (split; cbn [gr_size gr_elements gr_type gr_number];
            [rewrite Zlen_app, S; cbn; lia|]); right; (split; [|auto]); intros C; apply app_eq_nil in C as [_ C]; discriminate. }
      destruct A as (g1 & -> & F1 & E1). cbn [bind]. destruct (IH (fun x X => H x (or_intror X)) g1 F1) as (g' & -> & F' & E').
      exists g'. split; [reflexivity|]. split; [exact F'|]. rewrite E', E1, <- app_assoc. reflexivity.
    + cbn [bind]. apply IH; [|exact F]. intros x X. apply H. right. exact X.
Qed.
Lemma picked_filter2 gt gn l : picked (in_group gt gn) l
  (filter (fun e => vh_group_number (ve_hdr e) =? gn) (filter (fun e => vh_group_type (ve_hdr e) =? gt) l)).
Proof.
  induction l as [|e l IH]; cbn [filter]; [constructor|].
  destruct (vh_group_type (ve_hdr e) =? gt) eqn:E1; cbn [filter].
  - destruct (vh_group_number (ve_hdr e) =? gn) eqn:E2; [apply picked_yes|apply picked_no]; auto; unfold in_group; lia.
  - apply picked_no; auto. unfold in_group. lia.
Qed.

(** The groups of a type: never an exception; nothing when no element has the type; otherwise one
    group for each distinct number, in increasing order, with exactly its elements in file order. *)
Theorem C55_groups : forall l gt, exists r, get_group l gt = Ok r /\
  match r with
  | None => forall e, In e l -> vh_group_type (ve_hdr e) <> gt
  | Some gs => exists numbers, gs <> [] /\ StronglySorted Z.lt numbers /\
      (forall n, In n numbers <-> exists e, In e l /\ in_group gt n e) /\
      Forall2 (is_group gt l) numbers gs
  end.
Proof.
  intros l gt. unfold get_group. set (of_type := filter (fun e => vh_group_type (ve_hdr e) =? gt) l).
  change (fold_left _ of_type []) with (fold_left add_number of_type []).
  destruct (numbers_spec of_type [] (NoDup_nil _)) as [ND NI].
  assert (T : forall e, In e of_type <-> In e l /\ vh_group_type (ve_hdr e) = gt).
  { intros e. unfold of_type. rewrite filter_In, Z.eqb_eq. tauto. }
  set (ns := sort_z (fold_left add_number of_type [])).
  assert (S : StronglySorted Z.lt ns) by (apply sort_sorted; exact ND).
  assert (M : forall n, In n ns <-> exists e, In e l /\ in_group gt n e).
  { intros n. unfold ns. rewrite sort_in, NI. split.
    - intros [[]|(e & He & En)]. apply T in He as [H1 H2]. exists e. split; [exact H1|]. split; assumption.
    - intros (e & He & Eg & En). right. exists e. split; [apply T; auto|exact En]. }
  assert (G : forall n, In n ns -> exists g, foldM (group_step n) of_type new_group = Ok g /\ is_group gt l n g).
  { intros n Hn. destruct (fill gt n of_type (fun e He => proj2 (proj1 (T e) He)) new_group) as (g & Eg & F & EE).
    - split; [reflexivity|]. left. auto.
    - exists g. split; [exact Eg|]. cbn [new_group gr_elements app] in EE. pose proof (picked_filter2 gt n l) as P.
      fold of_type in P. rewrite <- EE in P. destruct F as [Sz [(F & _)|(F1 & F2 & F3)]].
      + exfalso. apply M in Hn as (e & He & Ge). rewrite F in P. assert (X : In e []) by (apply (picked_in _ _ _ P); auto). exact X.
      + unfold is_group. auto 6. }
  clearbody ns. clear ND NI.
  assert (MM : exists gs, mapM (fun gn => foldM (group_step gn) of_type new_group) ns = Ok gs /\ Forall2 (is_group gt l) ns gs).
  { clear S M. induction ns as [|n ns IH]; cbn [mapM]; [exists []; split; [reflexivity|constructor]|].
    destruct (G n (or_introl eq_refl)) as (g & -> & Ig). destruct IH as (gs & -> & F); [intros m Hm; apply G; right; exact Hm|].
    exists (g :: gs). split; [reflexivity|constructor; assumption]. }
  destruct MM as (gs & E & F). change (mapM _ ns) with (mapM (fun gn => foldM (group_step gn) of_type new_group) ns).
  rewrite E. cbn [bind].
  assert (FI : filter (fun g => negb (gr_size g =? 0)) gs = gs).
  { clear - F. induction F as [|n g ns gs (_ & _ & N & Sz & _) F IH]; cbn [filter]; [reflexivity|].
    replace (gr_size g =? 0) with false; [cbn [negb]; f_equal; exact IH|].
    rewrite Sz. destruct (gr_elements g); [contradiction|]. rewrite Zlen_cons. pose proof (Zlen_nonneg l0). lia. }
  rewrite FI. eexists. split; [reflexivity|]. destruct gs as [|g gs].
  - inversion F; subst. intros e He Ge. assert (X : In (vh_group_number (ve_hdr e)) []) by (apply M; exists e; split; [exact He|split; auto]). exact X.
  - exists ns. split; [discriminate|]. auto.
Qed.
Print Assumptions C55_groups.
Example C55_example :
  get_group [ex_elem 1 2 4 9; ex_elem 3 1 4 2; ex_elem 3 20 5 2; ex_elem 4 19 4 9] 4 =
  Ok (Some [mk_group [ex_elem 3 1 4 2] (Some 4) (Some 2) 1;
            mk_group [ex_elem 1 2 4 9; ex_elem 4 19 4 9] (Some 4) (Some 9) 2]).
Proof. reflexivity. Qed.

(** ** C56: bounds *)
Lemma leb_refl x : x <> S754_nan -> SFleb x x = true.
Proof.
  intros N. unfold SFleb. destruct x as [s|s| |s m e]; cbn; [reflexivity|destruct s; reflexivity|contradiction|].
  destruct s; rewrite Z.compare_refl, Pos.compare_cont_refl; reflexivity.
Qed.
Lemma leb_trans x y z : SFleb x y = true -> SFleb y z = true -> SFleb x z = true.
Proof.
  unfold SFleb. destruct x as [s|s| |s m e], y as [s'|s'| |s' m' e'], z as [s''|s''| |s'' m'' e'']; cbn [SFcompare];
    try discriminate; try (destruct s); try (destruct s'); try (destruct s''); try discriminate; auto.
  all: repeat match goal with |- context [Z.compare ?a ?b] => destruct (Z.compare_spec a b); subst end;
    try discriminate; auto; try lia.
  all: fold (Pos.compare m m') (Pos.compare m' m'') (Pos.compare m m'');
    destruct (Pos.compare_spec m m'), (Pos.compare_spec m' m''), (Pos.compare_spec m m''); cbn; try discriminate; auto; subst; lia.
Qed.
Lemma ltb_leb x y : SFltb x y = true -> SFleb x y = true.
Proof. unfold SFltb, SFleb. destruct (SFcompare x y) as [[]|]; auto; discriminate. Qed.

Definition usable (h : vhdr) : Prop := forall c, In c (corners h) -> c <> S754_nan /\ is_zero c = false.
Definition no_nan4 (b : flt * flt * flt * flt) : Prop :=
  let '(a, x, y, z) := b in a <> S754_nan /\ x <> S754_nan /\ y <> S754_nan /\ z <> S754_nan.
(** [c] is inside [b] on every side *)
Definition inside (c b : flt * flt * flt * flt) : Prop :=
  let '(a, x, y, z) := b in let '(a', x', y', z') := c in
  SFleb a a' = true /\ SFleb x x' = true /\ SFleb y' y = true /\ SFleb z' z = true.
Lemma low_step m x : m <> S754_nan -> let r := if SFltb x m then x else m in
  r <> S754_nan /\ SFleb r m = true /\ (x <> S754_nan -> SFleb r x = true).
Proof.
  intros N. cbv zeta. destruct (SFltb x m) eqn:E.
  - split; [intros ->; unfold SFltb in E; destruct m; discriminate E|]. split; [apply ltb_leb; exact E|]. apply leb_refl.
  - split; [exact N|]. split; [apply leb_refl; exact N|]. intros X. apply not_lt_le; auto.
Qed.
Lemma high_step m x : m <> S754_nan -> let r := if SFltb m x then x else m in
  r <> S754_nan /\ SFleb m r = true /\ (x <> S754_nan -> SFleb x r = true).
Proof.
  intros N. cbv zeta. destruct (SFltb m x) eqn:E.
  - split; [intros ->; unfold SFltb in E; destruct m; discriminate E|]. split; [apply ltb_leb; exact E|]. apply leb_refl.
  - split; [exact N|]. split; [apply leb_refl; exact N|]. intros X. apply not_lt_le; auto.
Qed.
Lemma bounds_step_spec b h : no_nan4 b -> no_nan4 (bounds_step b h) /\ inside b (bounds_step b h) /\
  (usable h -> encloses (bounds_step b h) h).
Proof.
  destruct b as [[[a x] y] z]. intros (NA & NX & NY & NZ). unfold bounds_step. destruct (_ || _) eqn:E.
  - split; [cbn; auto|]. split; [cbn; rewrite !leb_refl by assumption; auto|]. intros U. exfalso.
    unfold usable, corners in U. cbn [In] in U.
    rewrite (proj2 (U _ (or_intror (or_intror (or_introl eq_refl))))) in E.
    rewrite (proj2 (U _ (or_intror (or_intror (or_intror (or_introl eq_refl)))))) in E.
    rewrite (proj2 (U _ (or_introl eq_refl))), (proj2 (U _ (or_intror (or_introl eq_refl)))) in E. discriminate E.
  - destruct (low_step a (vh_min_lat h) NA) as (A1 & A2 & A3). destruct (low_step x (vh_min_lon h) NX) as (B1 & B2 & B3).
    destruct (high_step y (vh_max_lat h) NY) as (C1 & C2 & C3). destruct (high_step z (vh_max_lon h) NZ) as (D1 & D2 & D3).
    cbn [no_nan4 inside encloses]. split; [auto|]. split; [auto|]. intros U. unfold usable, corners in U. cbn [In] in U.
    pose proof (U _ (or_introl eq_refl)) as [U1 _]. pose proof (U _ (or_intror (or_introl eq_refl))) as [U2 _].
    pose proof (U _ (or_intror (or_intror (or_introl eq_refl)))) as [U3 _].
    pose proof (U _ (or_intror (or_intror (or_intror (or_introl eq_refl))))) as [U4 _]. auto.
Qed.
Lemma inside_trans c b a : inside c b -> inside b a -> inside c a.
Proof.
  destruct a as [[[? ?] ?] ?], b as [[[? ?] ?] ?], c as [[[? ?] ?] ?]. cbn. intros (A & B & C & D) (E & F & G & H).
  repeat split; eapply leb_trans; eassumption.
Qed.
Lemma inside_encloses b c h : inside b c -> encloses b h -> encloses c h.
Proof.
  destruct b as [[[? ?] ?] ?], c as [[[? ?] ?] ?]. cbn. intros (A & B & C & D) (E & F & G & H).
  repeat split; eapply leb_trans; eassumption.
Qed.
Lemma bounds_fold l : forall b, no_nan4 b ->
  let r := fold_left (fun b e => bounds_step b (ve_hdr e)) l b in
  inside b r /\ forall e, In e l -> usable (ve_hdr e) -> encloses r (ve_hdr e).
Proof.
  induction l as [|e l IH]; intros b N; cbn [fold_left].
  - split; [|intros ? []]. destruct b as [[[? ?] ?] ?]. destruct N as (? & ? & ? & ?). cbn. rewrite !leb_refl by assumption. auto.
  - destruct (bounds_step_spec b (ve_hdr e) N) as (N' & I & U). destruct (IH _ N') as [I' H']. split.
    + eapply inside_trans; eassumption.
    + intros x [->|X] Ux; [|apply H'; assumption]. eapply inside_encloses; [exact I'|]. apply U. exact Ux.
Qed.
(** Missing from the property as stated: elements with a coordinate that is zero (refuted below)
    or not a number. *)
Theorem C56_bounds_enclose_partial : forall l e,
  In e l -> (forall c, In c (corners (ve_hdr e)) -> c <> S754_nan /\ is_zero c = false) -> encloses (bounds l) (ve_hdr e).
Proof.
  intros l e He U. unfold bounds. apply bounds_fold; [|exact He|exact U].
  repeat split; vm_compute; discriminate.
Qed.
Print Assumptions C56_bounds_enclose_partial.
(** Each side is the extent of some element, or still the start value. *)
Theorem C56_bounds_attained : forall l,
  let '(ymin, xmin, ymax, xmax) := bounds l in
  (ymin = of_Z 9999 \/ exists e, In e l /\ ymin = vh_min_lat (ve_hdr e)) /\
  (xmin = of_Z 9999 \/ exists e, In e l /\ xmin = vh_min_lon (ve_hdr e)) /\
  (ymax = of_Z (-9999) \/ exists e, In e l /\ ymax = vh_max_lat (ve_hdr e)) /\
  (xmax = of_Z (-9999) \/ exists e, In e l /\ xmax = vh_max_lon (ve_hdr e)).
Proof.
  intros l. unfold bounds. remember (of_Z 9999) as lo. remember (of_Z (-9999)) as hi. clear.
  assert (G : forall l a x y z,
    let '(a', x', y', z') := fold_left (fun b e => bounds_step b (ve_hdr e)) l (a, x, y, z) in
    (a' = a \/ exists e, In e l /\ a' = vh_min_lat (ve_hdr e)) /\ (x' = x \/ exists e, In e l /\ x' = vh_min_lon (ve_hdr e)) /\
    (y' = y \/ exists e, In e l /\ y' = vh_max_lat (ve_hdr e)) /\ (z' = z \/ exists e, In e l /\ z' = vh_max_lon (ve_hdr e))).
  { clear. induction l as [|e l IH]; intros a x y z; cbn [fold_left]; [auto|].
    destruct (bounds_step (a, x, y, z) (ve_hdr e)) as [[[a1 x1] y1] z1] eqn:E. specialize (IH a1 x1 y1 z1).
    destruct (fold_left _ l _) as [[[a2 x2] y2] z2]. unfold bounds_step in E.
    assert (W : forall p q, (exists e0, In e0 l /\ p = q e0) -> exists e0, In e0 (e :: l) /\ p = q e0 :> flt)
      by (intros p q (u & U & V); exists u; split; [right; exact U|exact V]).
    assert (V : forall (q : velem -> flt), exists e0, In e0 (e :: l) /\ q e = q e0) by (intros q; exists e; split; [left|]; reflexivity).
    destruct IH as (A & B & C & D).
    assert (S1 : a1 = a \/ a1 = vh_min_lat (ve_hdr e)) by (destruct (_ || _) in E; injection E as <- <- <- <-; repeat destruct (SFltb _ _); auto).
    assert (S2 : x1 = x \/ x1 = vh_min_lon (ve_hdr e)) by (destruct (_ || _) in E; injection E as <- <- <- <-; repeat destruct (SFltb _ _); auto).
    assert (S3 : y1 = y \/ y1 = vh_max_lat (ve_hdr e)) by (destruct (_ || _) in E; injection E as <- <- <- <-; repeat destruct (SFltb _ _); auto).
    assert (S4 : z1 = z \/ z1 = vh_max_lon (ve_hdr e)) by (destruct (_ || _) in E; injection E as <- <- <- <-; repeat destruct (SFltb _ _); auto).
    clear E. repeat split.
    - destruct A as [->|A]; [destruct S1 as [->| ->]; [auto|right; apply (V (fun e => vh_min_lat (ve_hdr e)))]|right; apply (W _ (fun e => vh_min_lat (ve_hdr e))), A].
    - destruct B as [->|A']; [destruct S2 as [->| ->]; [auto|right; apply (V (fun e => vh_min_lon (ve_hdr e)))]|right; apply (W _ (fun e => vh_min_lon (ve_hdr e))), A'].
    - destruct C as [->|A']; [destruct S3 as [->| ->]; [auto|right; apply (V (fun e => vh_max_lat (ve_hdr e)))]|right; apply (W _ (fun e => vh_max_lat (ve_hdr e))), A'].
    - destruct D as [->|A']; [destruct S4 as [->| ->]; [auto|right; apply (V (fun e => vh_max_lon (ve_hdr e)))]|right; apply (W _ (fun e => vh_max_lon (ve_hdr e))), A']. }
  apply (G l lo lo hi hi).
Qed.
Print Assumptions C56_bounds_attained.
Example C56_example :
  bounds [ex_elem 1 2 0 0; mk_velem "LineElement"%string (ex_hdr 3 1 0 0 (of_Z 35) (of_Z (-105)) (of_Z 38) (of_Z (-80))) [] [] [] CoNone CoNone]
  = (of_Z 30, of_Z (-105), of_Z 40, of_Z (-80)).
Proof. vm_compute. reflexivity. Qed.
(** A line that starts on the equator is not enclosed. *)
Theorem C56_zero_refuted : exists l e, In e l /\ (forall c, In c (corners (ve_hdr e)) -> c <> S754_nan) /\
  ~ encloses (bounds l) (ve_hdr e).
Proof.
  set (e := mk_velem "LineElement"%string (ex_hdr 3 1 0 0 (of_Z 0) (of_Z (-105)) (of_Z 20) (of_Z (-80))) [] [] [] CoNone CoNone).
  exists [ex_elem 1 2 0 0; e], e. split; [right; left; reflexivity|]. split.
  - intros c Hc. cbn in Hc. intuition (subst; discriminate).
  - vm_compute. intros (H & _). discriminate H.
Qed.
Print Assumptions C56_zero_refuted.
