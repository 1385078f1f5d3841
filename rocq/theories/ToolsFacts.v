(** Lemmas about Tools.v. *)
From Coq Require Import Lia ZifyBool ZifyNat Sorting.Sorted.
From Verif Require Import Base BaseFacts Floats FloatsFacts Structs StructsFacts Tools SpecTools.
Ltac Zify.zify_post_hook ::= Z.div_mod_to_equations.

(** ** reads *)
Lemma io_get_next_spec n b : 0 <= io_offset b ->
  match n with Some k => 0 <= k | None => True end ->
  io_get_next n b =
    firstn (Z.to_nat (request n (remaining (io_data b) (io_offset b))))
           (skipn (Z.to_nat (io_offset b)) (io_data b)).
Proof.
  destruct b as [d o m]; cbn [io_offset io_data io_get_next]. intros Ho Hn.
  unfold remaining, request, io_get_next, py_from, py_slice, py_bound; cbn [io_data io_offset].
  pose proof (Zlen_nonneg d) as Hd.
  destruct n as [k|].
  - destruct (Z.ltb_spec o 0); [lia|]. destruct (Z.ltb_spec (o + k) 0); [lia|].
    destruct (Z_le_gt_dec o (Zlen d)).
    + rewrite (Z.min_l o) by lia. f_equal. lia.
    + rewrite (Z.min_r o), (Z.min_r (o + k)) by lia.
      replace (Z.to_nat (Zlen d - Zlen d)) with O by lia.
      replace (Z.to_nat (Z.min k (Z.max 0 (Zlen d - o)))) with O by lia. reflexivity.
  - destruct (Z.ltb_spec o 0); [lia|]. destruct (Z.ltb_spec (Zlen d) 0); [lia|].
    rewrite Z.min_id.
    destruct (Z_le_gt_dec o (Zlen d)).
    + rewrite (Z.min_l o) by lia. f_equal. lia.
    + rewrite Z.min_r by lia.
      replace (Z.to_nat (Zlen d - Zlen d)) with O by lia.
      replace (Z.to_nat (Z.max 0 (Zlen d - o))) with O by lia. reflexivity.
Qed.

Lemma request_range n l : match n with Some k => 0 <= k | None => True end -> 0 <= l ->
  0 <= request n l <= l.
Proof. unfold request; destruct n; lia. Qed.

Lemma remaining_nonneg d o : 0 <= remaining d o.
Proof. unfold remaining; lia. Qed.

Lemma io_get_next_len n b : 0 <= io_offset b ->
  match n with Some k => 0 <= k | None => True end ->
  Zlen (io_get_next n b) = request n (remaining (io_data b) (io_offset b)).
Proof.
  intros Ho Hn. rewrite io_get_next_spec by assumption.
  pose proof (request_range n _ Hn (remaining_nonneg (io_data b) (io_offset b))).
  autorewrite with zlen. unfold remaining in *. lia.
Qed.

Lemma firstn_add_app {A} n m (l : list A) : firstn (n + m) l = firstn n l ++ firstn m (skipn n l).
Proof.
  revert l; induction n as [|n IH]; intros l; [reflexivity|].
  destruct l; cbn; [rewrite firstn_nil; reflexivity|]. rewrite IH. reflexivity.
Qed.

Lemma skipn_add {A} n m (l : list A) : skipn (n + m) l = skipn m (skipn n l).
Proof.
  revert l; induction n as [|n IH]; intros l; [reflexivity|].
  destruct l; cbn; [rewrite skipn_nil; reflexivity|apply IH].
Qed.

Lemma io_reads_spec ns : forall b cs b', 0 <= io_offset b ->
  Forall (fun n => match n with Some k => 0 <= k | None => True end) ns ->
  io_reads ns b = (cs, b') ->
  io_data b' = io_data b /\ io_marks b' = io_marks b /\
  io_offset b' = io_offset b + Zlen (concat cs) /\
  map Zlen cs = chunk_sizes ns (remaining (io_data b) (io_offset b)) /\
  Zlen (concat cs) <= remaining (io_data b) (io_offset b) /\
  concat cs = firstn (Z.to_nat (Zlen (concat cs))) (skipn (Z.to_nat (io_offset b)) (io_data b)).
Proof.
  induction ns as [|n ns IH]; intros b cs b' Ho Hn H; cbn [io_reads] in H.
  - injection H as <- <-. cbn. pose proof (remaining_nonneg (io_data b) (io_offset b)).
    change (Zlen []) with 0. repeat split; try lia.
  - inversion Hn as [|? ? Hn1 Hn2]; subst.
    unfold io_read in H.
    pose proof (io_get_next_len n b Ho Hn1) as HL.
    pose proof (io_get_next_spec n b Ho Hn1) as HS.
    set (c := io_get_next n b) in *.
    set (b1 := io_skip (Some (Zlen c)) b) in *.
    destruct (io_reads ns b1) as [cs2 b2] eqn:E. injection H as <- <-.
    pose proof (request_range n _ Hn1 (remaining_nonneg (io_data b) (io_offset b))) as HR.
    assert (Ho1 : 0 <= io_offset b1) by (unfold b1, io_skip; cbn [io_offset]; lia).
    destruct (IH b1 cs2 b2 Ho1 Hn2 E) as (I1 & I2 & I3 & I4 & I5 & I6).
    unfold b1, io_skip in I1, I2, I3, I4, I5, I6; cbn [io_data io_offset io_marks] in *.
    assert (Hrem : remaining (io_data b) (io_offset b + Zlen c) =
                   remaining (io_data b) (io_offset b) - request n (remaining (io_data b) (io_offset b))).
    { unfold remaining in *. lia. }
    rewrite Hrem in *.
    cbn [concat map chunk_sizes]. autorewrite with zlen.
    repeat split; try assumption; try lia.
    + f_equal; assumption.
    + pose proof (Zlen_nonneg (concat cs2)).
      replace (Z.to_nat (Zlen c + Zlen (concat cs2)))
        with (Z.to_nat (Zlen c) + Z.to_nat (Zlen (concat cs2)))%nat by lia.
      rewrite firstn_add_app. f_equal.
      * rewrite HL. exact HS.
      * rewrite I6 at 1. f_equal. rewrite Z2Nat.inj_add by lia. apply skipn_add.
Qed.

(** ** marks *)
Lemma io_step_marks b o : exists tl, io_marks (io_step b o) = io_marks b ++ tl.
Proof.
  destruct o; cbn [io_step].
  - exists []. cbn. rewrite app_nil_r; reflexivity.
  - exists []. cbn. rewrite app_nil_r; reflexivity.
  - unfold io_jump_to. destruct (py_index _ _); cbn; exists []; rewrite app_nil_r; reflexivity.
  - cbn. eauto.
  - unfold io_read_int, io_read. cbn. exists []. rewrite app_nil_r; reflexivity.
  - unfold io_read_struct. destruct (struct_unpack_from _ _ _ _); cbn; exists []; rewrite app_nil_r; reflexivity.
  - unfold io_read_ascii, io_read. cbn. exists []. rewrite app_nil_r; reflexivity.
  - exists []. cbn. rewrite app_nil_r; reflexivity.
  - unfold io_splice, io_jump_to. destruct (py_index _ _); cbn; exists []; rewrite app_nil_r; reflexivity.
Qed.

Lemma io_run_marks ops b : exists tl, io_marks (io_run ops b) = io_marks b ++ tl.
Proof.
  revert b; induction ops as [|o ops IH]; intros b; cbn [io_run fold_left].
  - exists []. rewrite app_nil_r; reflexivity.
  - destruct (IH (io_step b o)) as [t2 H2]. destruct (io_step_marks b o) as [t1 H1].
    exists (t1 ++ t2). unfold io_run in H2. rewrite H2, H1, app_assoc. reflexivity.
Qed.

Lemma py_index_mid {A} (l : list A) x tl : py_index ((l ++ [x]) ++ tl) (Zlen l) = Ok x.
Proof.
  unfold py_index. pose proof (Zlen_nonneg l).
  destruct (Z.ltb_spec (Zlen l) 0); [lia|].
  destruct (Z.ltb_spec (Zlen l) 0); [lia|].
  rewrite Zlen_length. rewrite <- app_assoc. rewrite nth_error_app2 by lia.
  rewrite Nat.sub_diag. reflexivity.
Qed.

Lemma mark_jump b ops k m b1 : io_set_mark b = (m, b1) ->
  io_jump_to m k (io_run ops b1) =
    Ok (mk_iobuf (io_data (io_run ops b1)) (io_offset b + k) (io_marks (io_run ops b1))) /\
  io_offset_from m (io_run ops b1) = Ok (io_offset (io_run ops b1) - io_offset b).
Proof.
  intros H. unfold io_set_mark in H. injection H as <- <-.
  destruct (io_run_marks ops (mk_iobuf (io_data b) (io_offset b) (io_marks b ++ [io_offset b]))) as [tl Ht].
  cbn [io_marks] in Ht. unfold io_jump_to, io_offset_from. rewrite Ht, py_index_mid. split; reflexivity.
Qed.

(** ** truncate *)
Lemma truncate_ok n b : 1 <= n <= Zlen (io_data b) ->
  exists cut, io_data b = io_data (io_truncate n b) ++ cut /\ Zlen cut = n.
Proof.
  intros H. destruct b as [d o m]; cbn [io_truncate io_data] in *.
  unfold py_upto, py_slice, py_bound.
  destruct (Z.ltb_spec 0 0); [lia|]. destruct (Z.ltb_spec (-n) 0); [|lia].
  rewrite Z.min_l by lia. rewrite Z.max_r by lia. cbn [skipn Z.to_nat].
  exists (skipn (Z.to_nat (Zlen d - n)) d). split.
  - replace (-n + Zlen d - 0) with (Zlen d - n) by lia. symmetry. apply firstn_skipn.
  - autorewrite with zlen. lia.
Qed.

(** ** OrderedSet *)
Section OS.
Context {A : Type} (eqb : A -> A -> bool) (eqb_spec : forall x y, eqb x y = true <-> x = y).

Lemma eqb_refl x : eqb x x = true.
Proof. apply eqb_spec; reflexivity. Qed.
Lemma eqb_neq x y : x <> y -> eqb x y = false.
Proof. intros H. destruct (eqb x y) eqn:E; [apply eqb_spec in E; contradiction|reflexivity]. Qed.

Lemma os_mem_In x s : os_mem eqb x s = true <-> In x s.
Proof.
  unfold os_mem. rewrite existsb_exists. split.
  - intros (y & Hy & E). apply eqb_spec in E. subst. exact Hy.
  - intros H. exists x. split; [exact H|apply eqb_refl].
Qed.

Lemma os_discard_In x y s : In y (os_discard eqb x s) <-> In y s /\ y <> x.
Proof.
  unfold os_discard. rewrite filter_In. split.
  - intros [H E]. split; [exact H|]. intros ->. rewrite eqb_refl in E. discriminate.
  - intros [H E]. split; [exact H|]. rewrite eqb_neq; [reflexivity|congruence].
Qed.

Lemma birth_fst x ops st : fst (fold_left (birth_step eqb x) ops st) = (fst st + length ops)%nat.
Proof.
  revert st; induction ops as [|o ops IH]; intros [i b]; cbn [fold_left length]; [cbn; lia|].
  rewrite IH. cbn. lia.
Qed.

Lemma birth_app x ops o :
  birth eqb x (ops ++ [o]) =
  match o with
  | OsAdd y => if eqb x y then match birth eqb x ops with None => Some (length ops) | Some j => Some j end
               else birth eqb x ops
  | OsDiscard y => if eqb x y then None else birth eqb x ops
  end.
Proof.
  unfold birth. rewrite fold_left_app. cbn [fold_left].
  pose proof (birth_fst x ops (O, None)) as HF. cbn [fst] in HF.
  destruct (fold_left (birth_step eqb x) ops (O, None)) as [i b]. cbn [fst] in HF. subst i.
  cbn [birth_step snd]. reflexivity.
Qed.

Lemma Sorted_ext (R R' : A -> A -> Prop) s :
  (forall x y, In x s -> In y s -> R x y -> R' x y) -> StronglySorted R s -> StronglySorted R' s.
Proof.
  intros H S. induction S as [|a s S IH F]; constructor.
  - apply IH. intros; apply H; try right; assumption.
  - rewrite Forall_forall in *. intros y Hy. apply H; [left; reflexivity|right; exact Hy|auto].
Qed.

Lemma Sorted_app_last (R : A -> A -> Prop) s x :
  StronglySorted R s -> Forall (fun y => R y x) s -> StronglySorted R (s ++ [x]).
Proof.
  induction 1 as [|a s S IH F]; intros G; cbn [app]; [repeat constructor|].
  inversion G; subst. constructor; [apply IH; assumption|].
  apply Forall_app; split; [exact F|]. constructor; [assumption|constructor].
Qed.

Lemma Sorted_filter (R : A -> A -> Prop) f s : StronglySorted R s -> StronglySorted R (filter f s).
Proof.
  induction 1 as [|a s S IH F]; cbn [filter]; [constructor|].
  destruct (f a); [constructor; [exact IH|]|exact IH].
  rewrite Forall_forall in *. intros y Hy. apply filter_In in Hy. apply F, Hy.
Qed.

Lemma NoDup_app_last (s : list A) x : NoDup s -> ~ In x s -> NoDup (s ++ [x]).
Proof.
  induction 1 as [|a s Ha Hn IH]; intros Hx; cbn [app]; [repeat constructor; auto|].
  constructor.
  - rewrite in_app_iff. intros [H|[H|[]]]; [contradiction|]. subst. apply Hx. left; reflexivity.
  - apply IH. intros H; apply Hx; right; exact H.
Qed.

Lemma os_run_inv ops :
  let s := os_run eqb ops [] in
  NoDup s /\
  (forall x, In x s <-> birth eqb x ops <> None) /\
  (forall x i, birth eqb x ops = Some i -> (i < length ops)%nat) /\
  StronglySorted (born_before eqb ops) s.
Proof.
  cbn zeta. induction ops as [|o ops IH] using rev_ind.
  - cbn. split; [constructor|]. split; [|split; [|constructor]].
    + intros x. split; [intros []|intros H; apply H; reflexivity].
    + intros x i H. discriminate.
  - destruct IH as (ND & MEM & LT & SRT).
    unfold os_run in *. rewrite fold_left_app. cbn [fold_left].
    set (s := fold_left (os_step eqb) ops []) in *.
    assert (LT' : forall x i, birth eqb x (ops ++ [o]) = Some i -> (i < length (ops ++ [o]))%nat).
    { intros x i. rewrite birth_app, app_length. cbn [length].
      intros H.
      assert (HB : birth eqb x ops = Some i \/ i = length ops).
      { destruct o as [y|y]; destruct (eqb x y); try discriminate; auto.
        destruct (birth eqb x ops) eqn:E; injection H as <-; auto. }
      destruct HB as [HB| ->]; [apply LT in HB|]; lia. }
    destruct o as [y|y]; cbn [os_step].
    + unfold os_add. destruct (os_mem eqb y s) eqn:EM.
      * apply os_mem_In in EM. split; [exact ND|]. split; [|split; [exact LT'|]].
        -- intros x. rewrite MEM, birth_app. destruct (eqb x y) eqn:E; [|reflexivity].
           apply eqb_spec in E. subst x. apply MEM in EM.
           destruct (birth eqb y ops); split; intros; congruence.
        -- eapply Sorted_ext; [|exact SRT]. intros x z _ _ (i & j & Hi & Hj & L).
           exists i, j. rewrite !birth_app, Hi, Hj.
           destruct (eqb x y), (eqb z y); auto.
      * assert (NI : ~ In y s) by (intros H; apply os_mem_In in H; congruence).
        assert (BN : birth eqb y ops = None).
        { destruct (birth eqb y ops) eqn:E; [|reflexivity].
          exfalso. apply NI, MEM. rewrite E. discriminate. }
        split; [apply NoDup_app_last; assumption|]. split; [|split; [exact LT'|]].
        -- intros x. rewrite in_app_iff, MEM, birth_app. cbn [In].
           destruct (eqb x y) eqn:E.
           ++ apply eqb_spec in E. subst x. rewrite BN. split; [discriminate|auto].
           ++ split; [intros [H|[H|[]]]; [exact H|subst; rewrite eqb_refl in E; discriminate]|auto].
        -- apply Sorted_app_last.
           ++ eapply Sorted_ext; [|exact SRT]. intros x z Hx Hz (i & j & Hi & Hj & L).
              exists i, j. rewrite !birth_app, Hi, Hj.
              destruct (eqb x y), (eqb z y); auto.
           ++ apply Forall_forall. intros x Hx. apply MEM in Hx.
              destruct (birth eqb x ops) as [i|] eqn:E; [|congruence].
              exists i, (length ops). rewrite !birth_app, E, eqb_refl, BN.
              split; [destruct (eqb x y); reflexivity|]. split; [reflexivity|]. eauto.
    + split; [apply NoDup_filter; exact ND|]. split; [|split; [exact LT'|]].
      * intros x. rewrite os_discard_In, MEM, birth_app. destruct (eqb x y) eqn:E.
        -- apply eqb_spec in E. subst. split; [tauto|congruence].
        -- split; [tauto|]. intros H; split; [exact H|]. intros ->. rewrite eqb_refl in E. discriminate.
      * eapply Sorted_ext; [|apply Sorted_filter; exact SRT].
        intros x z Hx Hz (i & j & Hi & Hj & L).
        apply os_discard_In in Hx as [_ Hx]. apply os_discard_In in Hz as [_ Hz].
        exists i, j. rewrite !birth_app, Hi, Hj. rewrite !eqb_neq by assumption. auto.
Qed.

Lemma os_eq_ordered_spec s t : os_eq_ordered eqb s t = true <-> s = t.
Proof.
  unfold os_eq_ordered. revert t; induction s as [|x s IH]; intros [|y t]; cbn [list_eqb];
    try (split; [discriminate|discriminate]); [tauto|].
  rewrite andb_true_iff, eqb_spec, IH. split; [intros [-> ->]; reflexivity|].
  intros H; injection H as -> ->; auto.
Qed.
Lemma os_eq_set_spec s t : os_eq_set eqb s t = true <-> (forall x, In x s <-> In x t).
Proof.
  unfold os_eq_set. rewrite andb_true_iff, !forallb_forall. split.
  - intros [H1 H2] x. split; intros H; apply os_mem_In; [apply H1|apply H2]; exact H.
  - intros H; split; intros x Hx; apply os_mem_In; apply H; exact Hx.
Qed.
End OS.

(** ** NamedStruct *)
Lemma name_eqb_spec a b : name_eqb a b = true <-> a = b.
Proof.
  revert b; induction a as [|x a IH]; intros [|y b]; cbn [name_eqb];
    try (split; [discriminate|discriminate]); [tauto|].
  rewrite andb_true_iff, Z.eqb_eq, IH. split; [intros [-> ->]; reflexivity|].
  intros H; injection H as -> ->; auto.
Qed.

Lemma values_in_nvals fmt : values_in fmt = nvals fmt.
Proof.
  unfold values_in. induction fmt as [|c fmt IH]; [reflexivity|].
  destruct c; cbn [filter is_value nvals length]; rewrite IH; reflexivity.
Qed.

(** per-entry application of converters *)
Fixpoint apply_convs (info : list ns_entry) (items : list pyval) : res (list pyval) :=
  match info with
  | [] => Ok items
  | i :: r =>
      match ne_name i with
      | None => apply_convs r items
      | Some _ => match items with
                  | [] => Err IndexError
                  | v :: vs => y <- match ne_conv i with None => Ok v | Some c => c v end ;;
                               ys <- apply_convs r vs ;; Ok (y :: ys)
                  end
      end
  end.

Definition conv_step (its : list pyval) (ic : Z * (pyval -> res pyval)) : res (list pyval) :=
  x <- py_index its (fst ic) ;; y <- snd ic x ;; Ok (list_set its (Z.to_nat (fst ic)) y).

Lemma py_index_app_mid {A} (l : list A) x r : py_index (l ++ x :: r) (Zlen l) = Ok x.
Proof.
  pose proof (py_index_mid l x r) as H. rewrite <- app_assoc in H. exact H.
Qed.

Lemma list_set_app_mid {A} (l : list A) x r y : list_set (l ++ x :: r) (length l) y = l ++ y :: r.
Proof. induction l as [|a l IH]; cbn; [reflexivity|]. rewrite IH. reflexivity. Qed.

Lemma conv_loop_spec info : forall pre rest ind off,
  forallb plain_entry info = true ->
  ind - off = Zlen pre ->
  length rest = length (names_of info) ->
  foldM conv_step (ns_conv_loop info ind off) (pre ++ rest) =
    (r <- apply_convs info rest ;; Ok (pre ++ r)).
Proof.
  induction info as [|i info IH]; intros pre rest ind off HP HI HL; [reflexivity|].
  cbn [forallb] in HP. apply andb_true_iff in HP as [HP1 HP2].
  unfold plain_entry in HP1. destruct i as [nm fm cv]; cbn [ne_name ne_fmt ne_conv] in *.
  cbn [ns_conv_loop names_of apply_convs ne_conv ne_name] in *.
  destruct nm as [n|].
  - cbn [length] in HL. destruct rest as [|v rest]; [discriminate|]. cbn [length] in HL.
    destruct cv as [c|].
    + cbn [foldM]. unfold conv_step at 1. cbn [fst snd]. rewrite HI, py_index_app_mid. cbn [bind].
      destruct (c v) as [y|x]; cbn [bind]; [|reflexivity].
      rewrite Zlen_length, list_set_app_mid.
      replace (pre ++ y :: rest) with ((pre ++ [y]) ++ rest) by (rewrite <- app_assoc; reflexivity).
      rewrite IH; try assumption; [|autorewrite with zlen; lia|lia].
      destruct (apply_convs info rest); cbn [bind]; [|reflexivity].
      rewrite <- app_assoc. reflexivity.
    + cbn [bind].
      replace (pre ++ v :: rest) with ((pre ++ [v]) ++ rest) by (rewrite <- app_assoc; reflexivity).
      rewrite IH; try assumption; [|autorewrite with zlen; lia|lia].
      destruct (apply_convs info rest); cbn [bind]; [|reflexivity].
      rewrite <- app_assoc. reflexivity.
  - destruct cv as [c|]; [rewrite andb_false_r in HP1; discriminate|].
    apply IH; [assumption|lia|assumption].
Qed.

Lemma apply_convs_length info items r :
  length items = length (names_of info) -> apply_convs info items = Ok r -> length r = length items.
Proof.
  revert items r; induction info as [|i info IH]; intros items r HL H; cbn [apply_convs names_of] in *.
  - inv_ok; reflexivity.
  - destruct (ne_name i).
    + destruct items as [|v vs]; [discriminate|]. cbn [length] in *. inv_ok. cbn [length].
      f_equal. apply (IH vs); [lia|assumption].
    + apply IH; assumption.
Qed.

(** no converters: apply_convs is the identity *)
Lemma apply_convs_id info items ind off :
  ns_conv_loop info ind off = [] -> length items = length (names_of info) ->
  apply_convs info items = Ok items.
Proof.
  revert items ind off; induction info as [|i info IH]; intros items ind off H HL;
    cbn [ns_conv_loop apply_convs names_of] in *; [reflexivity|].
  destruct (ne_conv i); [discriminate|].
  destruct (ne_name i).
  - destruct items as [|v vs]; [discriminate|]. cbn [length] in HL. cbn [bind].
    rewrite (IH vs _ _ H) by lia. reflexivity.
  - eapply IH; eassumption.
Qed.

Lemma ns_create_spec info s items :
  forallb plain_entry info = true -> ns_make info = Ok s -> length items = length (names_of info) ->
  ns_create s items = (r <- apply_convs info items ;; Ok (combine (names_of info) r)).
Proof.
  unfold ns_make. intros HP HM HL. destruct (nodup_names (names_of info)); [|discriminate].
  injection HM as <-. unfold ns_create, ns_tuple. cbn [ns_convs ns_fields].
  destruct (ns_conv_loop info 0 0) eqn:E.
  - rewrite (apply_convs_id _ _ _ _ E HL). cbn [bind]. rewrite HL, Nat.eqb_refl. reflexivity.
  - rewrite <- E.
    pose proof (conv_loop_spec info [] items 0 0 HP eq_refl HL) as HC. cbn [app] in HC.
    unfold conv_step in HC. rewrite HC.
    destruct (apply_convs info items) as [r|x] eqn:EA; cbn [bind]; [|reflexivity].
    pose proof (apply_convs_length _ _ _ HL EA) as HR.
    rewrite app_length, repeat_length. rewrite HR, HL, Nat.sub_diag. cbn [repeat].
    rewrite app_nil_r, Nat.add_0_r, Nat.eqb_refl. reflexivity.
Qed.

(** stored values entry by entry *)
Lemma stored_vals_app f g vals : length vals = (nvals f + nvals g)%nat ->
  stored_vals (f ++ g) vals = stored_vals f (firstn (nvals f) vals) ++ stored_vals g (skipn (nvals f) vals).
Proof.
  revert vals; induction f as [|c f IH]; intros vals H; [reflexivity|].
  destruct c; cbn [app stored_vals nvals] in *; try (apply IH; exact H);
  (destruct vals as [|v vs]; cbn [length] in H; [discriminate|]; cbn [firstn skipn app];
   rewrite IH by lia; reflexivity).
Qed.

Lemma stored_by_one fmt v : nvals fmt = 1%nat -> stored_vals fmt [v] = [stored_by fmt v].
Proof.
  induction fmt as [|c fmt IH]; intros H; [discriminate|].
  assert (Z0 : forall f, nvals f = O -> stored_vals f [] = []).
  { clear. induction f as [|c f IH]; intros H; [reflexivity|].
    destruct c; cbn [nvals stored_vals] in *; try discriminate. apply IH; exact H. }
  destruct c; cbn [nvals stored_vals stored_by] in *; try (rewrite Z0 by lia);
    try (destruct v; reflexivity); apply IH; exact H.
Qed.
Lemma stored_vals_none fmt : nvals fmt = O -> stored_vals fmt [] = [].
Proof.
  induction fmt as [|c f IH]; intros H; [reflexivity|].
  destruct c; cbn [nvals stored_vals] in *; try discriminate. apply IH; exact H.
Qed.

Lemma nvals_app f g : nvals (f ++ g) = (nvals f + nvals g)%nat.
Proof.
  induction f as [|c f IH]; [reflexivity|]. destruct c; cbn [app nvals]; rewrite IH; reflexivity.
Qed.

Lemma nvals_info info : forallb plain_entry info = true ->
  nvals (flat_map ne_fmt info) = length (names_of info).
Proof.
  induction info as [|i info IH]; intros H; [reflexivity|].
  cbn [forallb flat_map names_of] in *. apply andb_true_iff in H as [H1 H2].
  rewrite nvals_app, (IH H2). unfold plain_entry in H1.
  rewrite values_in_nvals in H1.
  destruct (ne_name i); cbn [length].
  - apply Nat.eqb_eq in H1. lia.
  - apply andb_true_iff in H1 as [H1 _]. apply Nat.eqb_eq in H1. lia.
Qed.

Lemma expected_spec info kw t : forallb plain_entry info = true ->
  mapM (fun n => kw_get n kw) (names_of info) = Ok t ->
  (r <- apply_convs info (stored_vals (flat_map ne_fmt info) t) ;; Ok (combine (names_of info) r)) =
  expected_fields info kw.
Proof.
  revert t; induction info as [|i info IH]; intros t HP HT.
  - cbn in *. reflexivity.
  - cbn [forallb] in HP. apply andb_true_iff in HP as [H1 H2]. pose proof H1 as H1'.
    unfold plain_entry in H1. rewrite values_in_nvals in H1.
    cbn [flat_map names_of apply_convs expected_fields] in *.
    pose proof (nvals_info info H2) as HN.
    destruct (ne_name i) as [n|] eqn:En.
    + apply Nat.eqb_eq in H1. cbn [mapM] in HT. inv_ok.
      pose proof (mapM_ok_length _ _ _ H0) as HL.
      rewrite stored_vals_app by (cbn [length]; lia). rewrite H1. cbn [firstn skipn].
      rewrite stored_by_one by exact H1. cbn [app]. rewrite H. cbn [bind].
      destruct (ne_conv i) as [c|]; [destruct (c _); cbn [bind]|cbn [bind]]; try reflexivity;
      rewrite <- (IH _ H2 H0);
      destruct (apply_convs info (stored_vals (flat_map ne_fmt info) x0)); reflexivity.
    + apply andb_true_iff in H1 as [H1 Hc]. apply Nat.eqb_eq in H1.
      pose proof (mapM_ok_length _ _ _ HT) as HL.
      rewrite stored_vals_app by lia. rewrite H1. cbn [firstn skipn].
      rewrite stored_vals_none by exact H1. cbn [app]. apply IH; assumption.
Qed.

Lemma ns_roundtrip e info s kw bs :
  forallb plain_entry info = true -> ns_make info = Ok s -> ns_pack e s kw = Ok bs ->
  Zlen bs = ns_size s /\ ns_unpack e s bs = expected_fields info kw.
Proof.
  intros HP HM H. unfold ns_pack in H.
  destruct (forallb _ kw); [|discriminate]. inv_ok.
  unfold ns_size, ns_unpack.
  rewrite (struct_unpack_pack _ _ _ _ H0). cbn [bind].
  assert (HF : ns_fmt s = flat_map ne_fmt info /\ ns_fields s = names_of info).
  { unfold ns_make in HM. destruct (nodup_names _); [|discriminate]. injection HM as <-. auto. }
  destruct HF as [HF1 HF2]. rewrite HF2 in H.
  pose proof (mapM_ok_length _ _ _ H) as HL. pose proof (nvals_info info HP) as HN.
  split.
  - apply struct_pack_length in H0. unfold Zlen. lia.
  - rewrite (ns_create_spec info s) by (try assumption; rewrite HF1;
      rewrite stored_vals_length; lia).
    rewrite HF1. apply expected_spec; assumption.
Qed.
