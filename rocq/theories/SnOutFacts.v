(** Facts about the objects made of records: names in lower case, order of levels. *)
From Coq Require Import Lia ZifyBool ZifyNat QArith Sorted Permutation.
From Verif Require Import Base BaseFacts Floats Strings StringsFacts Dates Headers Order OrderFacts DmFile DmHookFacts
  Station Text StationRead StationFacts HistoryFacts Query SpecQuery QueryFacts FloatOrder SnOut SpecSnOut.
From Coq Require Import List.
Open Scope Z_scope.

(** ** Records have each name once *)
Definition keys_ok {V} (r : list (str * V)) : Prop := distinct str_cmp (map fst r).
Lemma set_keys {V} k (v : V) r : keys_ok r -> keys_ok (dict_set str_cmp k v r).
Proof. unfold keys_ok. intros H. rewrite dict_set_keys. apply (set_add_distinct _ good_str), H. Qed.
Lemma put_keys k v r : keys_ok r -> keys_ok (put k v r).
Proof. apply set_keys. Qed.
Lemma keys_nil {V} : keys_ok (@nil (str * V)).
Proof. constructor. Qed.
Lemma filter_keys {V} p (r : list (str * V)) : keys_ok r -> keys_ok (filter p r).
Proof. apply distinct_filter_map. Qed.
Lemma foldM_keys {A} (g : record -> A -> res record) l : (forall r a r', keys_ok r -> g r a = Ok r' -> keys_ok r') ->
  forall r r', keys_ok r -> foldM g l r = Ok r' -> keys_ok r'.
Proof.
  intros H. induction l as [|x l IH]; intros r r' K E; [apply ok_inj in E; subst; exact K|]. cbn [foldM] in E.
  destruct (g r x) as [r1|] eqn:E1; cbn [bind] in E; [|discriminate E]. exact (IH _ _ (H _ _ _ K E1) E).
Qed.
Lemma update_keys vals : forall r, keys_ok r -> keys_ok (update r vals).
Proof. induction vals as [|[k v] vals IH]; intros r K; [exact K|]. apply IH, put_keys, K. Qed.
Lemma head_keys_ok f i j r : head_record f i j = Ok r -> keys_ok r.
Proof.
  unfold head_record. intros H. destruct (time_head f i j) as [th|]; cbn [bind] in H; [|discriminate H].
  destruct (station_head f i j) as [sh|]; cbn [bind] in H; [|discriminate H].
  match type of H with (r <- ?e ;; _) = _ => destruct e as [r0|] eqn:E0; cbn [bind] in H; [|discriminate H] end.
  revert H. apply foldM_keys.
  - intros r1 a r' K E. destruct (attr th a); cbn [bind] in E; [|discriminate E]. apply ok_inj in E. subst. apply put_keys, K.
  - revert E0. apply foldM_keys; [|apply keys_nil].
    intros r1 a r' K E. destruct (attr sh a); cbn [bind] in E; [|discriminate E]. apply ok_inj in E. subst. apply put_keys, K.
Qed.
Lemma add_parts_keys f i j r r' : keys_ok r -> add_parts f i j r = Ok r' -> keys_ok r'.
Proof.
  intros K. unfold add_parts. apply foldM_keys; [|exact K]. clear. intros r (k & p & q) r' K E. cbn [add_part] in E.
  destruct (_ =? 0); [apply ok_inj in E; subst; exact K|].
  destruct (read_block _ _ _ _) as [b|]; cbn [bind] in E; [|discriminate E]. revert E. unfold add_values. apply foldM_keys; [|exact K].
  clear. intros r [i nm] r' K E. destruct (match rf_type f with Sounding => _ | _ => _ end) as [v|]; cbn [bind] in E; [|discriminate E].
  apply ok_inj in E. subst. apply put_keys, K.
Qed.
Lemma process_keys report values rs : keys_ok report -> process_report_text report values = Ok rs -> Forall keys_ok rs.
Proof.
  intros K H. unfold process_report_text in H. destruct (get k_DATE report) as [[[]| | | | |]|]; try discriminate H.
  destruct (get k_TIME report) as [[[]| | | | |]|]; try discriminate H.
  destruct (text_of (get k_TEXT values)) as [text|]; cbn [bind] in H; [|discriminate H].
  match type of H with (r1 <- ?e ;; _) = _ => destruct e as [r1|] eqn:E1; cbn [bind] in H; [|discriminate H] end.
  destruct (text_of (get k_SPCL values)) as [spcl|]; cbn [bind] in H; [|discriminate H].
  match type of H with (r2 <- ?e ;; _) = _ => destruct e as [r2|] eqn:E2; cbn [bind] in H; [|discriminate H] end.
  apply ok_inj in H. subst rs. apply Forall_app. split.
  - destruct (str_eqb text []); [apply ok_inj in E1; subst; constructor|]. apply mapM_ok_Forall2 in E1.
    apply Forall_forall. intros r Hr. apply (Forall2_in_r _ _ _ _ E1) in Hr as (x & _ & Hx). apply ok_inj in Hx. subst r. apply put_keys, update_keys, K.
  - destruct (str_eqb spcl []); [apply ok_inj in E2; subst; constructor|]. apply mapM_ok_Forall2 in E2.
    apply Forall_forall. intros r Hr. apply (Forall2_in_r _ _ _ _ E2) in Hr as (x & _ & Hx).
    destruct (special_time _ _ x) as [dt|]; cbn [bind] in Hx; [|discriminate Hx]. apply ok_inj in Hx. subst r. apply put_keys.
    destruct (str_eqb text []); [apply update_keys|]; apply put_keys, put_keys, K.
Qed.
Lemma unpack_keys f cs rs : unpack f cs = Ok rs -> Forall keys_ok rs.
Proof.
  unfold unpack. destruct (mapM _ cs) as [l|] eqn:E; cbn [bind]; [|discriminate]. intros H. apply ok_inj in H. subst rs.
  apply mapM_ok_Forall2 in E. apply Forall_forall. intros r Hr. apply in_concat in Hr as (x & Hx & Hr).
  apply (Forall2_in_r _ _ _ _ E) in Hx as ([i j] & _ & Hx). unfold unpack_cell in Hx.
  destruct (head_record f i j) as [report|] eqn:EH; cbn [bind] in Hx; [|discriminate Hx]. apply head_keys_ok in EH.
  assert (P : forall x, (r <- add_parts f i j report ;; Ok [r]) = Ok x -> In r x -> keys_ok r).
  { intros y H Hy. destruct (add_parts f i j report) as [r1|] eqn:E1; cbn [bind] in H; [|discriminate H]. apply ok_inj in H. subst y.
    destruct Hy as [<-|[]]. exact (add_parts_keys _ _ _ _ _ EH E1). }
  destruct (rf_type f); [exact (P _ Hx Hr)| |exact (P _ Hx Hr)|exact (P _ Hx Hr)].
  destruct (add_parts f i j []) as [values|] eqn:E1; cbn [bind] in Hx; [|discriminate Hx].
  assert (Q : process_report_text report values = Ok x -> keys_ok r).
  { intros H. apply (process_keys _ _ _ EH) in H. rewrite Forall_forall in H. exact (H r Hr). }
  destruct (get k_TEXT values); [exact (Q Hx)|]. destruct (get k_SPCL values); [exact (Q Hx)|].
  apply ok_inj in Hx. subst x. destruct Hr as [<-|[]]. apply update_keys, EH.
Qed.

(** ** Entries *)
Lemma get_entry k r v : get k r = Some v -> entry r k v.
Proof.
  intros H. apply (dict_get_in _ k) in H as (k' & E & H). apply str_cmp_eq in E. subst k'. exact H.
Qed.
Lemma entry_get k r v : keys_ok r -> entry r k v -> get k r = Some v.
Proof. intros K H. exact (dict_in_get _ good_str k v r K H). Qed.
Lemma need_entry k r v : need_key k r = Ok v -> entry r k v.
Proof. unfold need_key. destruct (get k r) eqn:E; [|discriminate]. intros H. apply ok_inj in H. subst. exact (get_entry _ _ _ E). Qed.
Lemma in_names l k : existsb (str_eqb k) l = true <-> In k l.
Proof. apply existsb_in. intros x y. apply str_eqb_spec. Qed.
Lemma not_in_names l k : existsb (str_eqb k) l = false <-> ~ In k l.
Proof. rewrite <- in_names. destruct (existsb _ _); intuition congruence. Qed.

(** ** Entries under their names in lower case *)
Definition lowered {V} (l : list (str * V)) (d : list (str * V)) : list (str * V) :=
  fold_left (fun acc kv => dict_set str_cmp (lower (fst kv)) (snd kv) acc) l d.
Lemma lowered_keys {V} (l : list (str * V)) : forall d, keys_ok d -> keys_ok (lowered l d).
Proof. induction l as [|x l IH]; intros d K; [exact K|]. apply IH, set_keys, K. Qed.
Lemma set_in {V} k (v : V) d k' v' : In (k', v') (dict_set str_cmp k v d) -> (k' = k /\ v' = v) \/ In (k', v') d.
Proof.
  induction d as [|[a w] d IH]; cbn [dict_set].
  - intros [[= <- <-]|[]]. auto.
  - destruct (str_cmp k a) eqn:E; cbn [is_eq].
    + apply str_cmp_eq in E. subst a. intros [[= <- <-]|H]; [auto|right; right; exact H].
    + intros [H|H]; [right; left; exact H|]. destruct (IH H); [auto|right; right; assumption].
    + intros [H|H]; [right; left; exact H|]. destruct (IH H); [auto|right; right; assumption].
Qed.
Lemma lowered_sound {V} (l : list (str * V)) : forall d n v, In (n, v) (lowered l d) ->
  In (n, v) d \/ exists k, In (k, v) l /\ n = lower k.
Proof.
  induction l as [|[k w] l IH]; intros d n v H; [left; exact H|]. apply IH in H as [H|(k' & H & E)]; [|right; exists k'; split; [right; exact H|exact E]].
  apply set_in in H as [[-> ->]|H]; [right; exists k; split; [left; reflexivity|reflexivity]|left; exact H].
Qed.
Lemma lowered_get {V} (l : list (str * V)) : forall d n v, dict_get str_cmp n d = Some v ->
  (forall k w, In (k, w) l -> lower k = n -> w = v) -> dict_get str_cmp n (lowered l d) = Some v.
Proof.
  induction l as [|[k w] l IH]; intros d n v H S; [exact H|]. apply IH; [|intros k' w' H' E; exact (S k' w' (or_intror H') E)].
  rewrite (dict_set_get _ good_str). cbn [fst snd]. destruct (is_eq (str_cmp n (lower k))) eqn:E; [|exact H].
  apply is_eq_true, str_cmp_eq in E. rewrite (S k w (or_introl eq_refl) (eq_sym E)). reflexivity.
Qed.
Lemma lowered_same {V} (l : list (str * V)) : forall d k v, In (k, v) l ->
  (forall k' w, In (k', w) l -> lower k' = lower k -> w = v) -> dict_get str_cmp (lower k) (lowered l d) = Some v.
Proof.
  induction l as [|[k w] l IH]; intros d k' v H S; [destruct H|]. destruct H as [[= <- <-]|H].
  - apply (lowered_get l).
    + rewrite (dict_set_get _ good_str). cbn [fst snd]. rewrite (gc_refl good_str). reflexivity.
    + intros k' w' H' E. exact (S k' w' (or_intror H') E).
  - apply IH; [exact H|]. intros k'' w' H' E. exact (S k'' w' (or_intror H') E).
Qed.
Lemma lowered_has {V} (l : list (str * V)) : forall d n, (exists v, dict_get str_cmp n d = Some v) \/ (exists k v, In (k, v) l /\ lower k = n) ->
  exists v, dict_get str_cmp n (lowered l d) = Some v.
Proof.
  induction l as [|[k w] l IH]; intros d n H.
  - destruct H as [H|(k & v & [] & _)]. exact H.
  - apply IH. rewrite (dict_set_get _ good_str). cbn [fst snd]. destruct (is_eq (str_cmp n (lower k))) eqn:E; [left; eauto|].
    destruct H as [H|(k' & v' & [[= <- <-]|H] & E')]; [left; exact H| |right; eauto].
    subst n. rewrite (gc_refl good_str) in E. discriminate E.
Qed.
Lemma get_in_str {V} k (d : list (str * V)) v : dict_get str_cmp k d = Some v -> In (k, v) d.
Proof. intros H. apply (dict_get_in _ k) in H as (k' & E & H). apply str_cmp_eq in E. subst k'. exact H. Qed.

(** ** Surface reports *)
Lemma combine_at d t r : entry r k_DATE (DHead (HDate d)) -> entry r k_TIME (DHead (HTime t)) -> at_time r (combine_dt d t).
Proof. intros H1 H2. split; destruct d, t; assumption. Qed.
Lemma json_describes r o : keys_ok r -> json_of r = Ok o -> describes r o.
Proof.
  intros K H. unfold json_of in H.
  destruct (need_key k_DATE r) as [d|] eqn:ED; cbn [bind] in H; [|discriminate H].
  destruct (need_key k_TIME r) as [t|] eqn:ET; cbn [bind] in H; [|discriminate H].
  destruct d as [[]| | | | |]; cbn [bind] in H; try discriminate H. destruct t as [[]| | | | |]; cbn [bind] in H; try discriminate H.
  destruct (need_key k_STID r) as [i1|] eqn:E1; cbn [bind] in H; [|discriminate H].
  destruct (need_key k_STD2 r) as [i2|] eqn:E2; cbn [bind] in H; [|discriminate H].
  destruct i1 as [[]| | | | |]; cbn [bind] in H; try discriminate H. destruct i2 as [[]| | | | |]; cbn [bind] in H; try discriminate H.
  destruct (need_key k_STNM r) as [nm|] eqn:E3; cbn [bind] in H; [|discriminate H].
  destruct (need_key k_SLON r) as [lon|] eqn:E4; cbn [bind] in H; [|discriminate H].
  destruct (need_key k_SLAT r) as [lat|] eqn:E5; cbn [bind] in H; [|discriminate H].
  destruct (need_key k_SELV r) as [el|] eqn:E6; cbn [bind] in H; [|discriminate H].
  destruct (need_key k_STAT r) as [st|] eqn:E7; cbn [bind] in H; [|discriminate H].
  destruct (need_key k_COUN r) as [co|] eqn:E8; cbn [bind] in H; [|discriminate H].
  destruct (need_key k_SPRI r) as [pr|] eqn:E9; cbn [bind] in H; [|discriminate H].
  apply ok_inj in H. subst o.
  set (L := filter (fun '(k, _) => negb (is_head k)) r).
  assert (EL : forall k v, In (k, v) L <-> entry r k v /\ ~ In k report_headers).
  { intros k v. unfold L. rewrite filter_In. unfold is_head. rewrite negb_true_iff. apply iff_and; [reflexivity|]. apply not_in_names. }
  assert (EV : fold_left (fun acc '(k, v) => put (lower k) v acc) L [] = lowered L []).
  { unfold lowered. generalize (@nil (str * dval)) as acc. clear. induction L as [|[k v] L IH]; intros acc; [reflexivity|]. cbn [fold_left]. apply IH. }
  split; cbn [ob_time ob_id ob_number ob_lon ob_lat ob_elev ob_state ob_country ob_priority ob_values];
    try (apply need_entry; assumption).
  - apply combine_at; apply need_entry; assumption.
  - eexists _, _. split; [apply need_entry, E1|]. split; [apply need_entry, E2|]. reflexivity.
  - rewrite EV. intros n v H. apply lowered_sound in H as [[]|(k & H & E)]. apply EL in H as [H1 H2]. eauto.
  - rewrite EV. intros k v H1 H2. destruct (lowered_has L [] (lower k)) as [w Hw]; [right; exists k, v; split; [apply EL; auto|reflexivity]|].
    exists w. exact (get_in_str _ _ _ Hw).
  - rewrite EV. intros k v H1 H2 HS. apply get_in_str, lowered_same; [apply EL; auto|].
    intros k' w H' E. apply EL in H' as [H3 H4]. assert (k' = k) by exact (HS k' w H3 H4 E). subst k'.
    pose proof (entry_get _ _ _ K H1). pose proof (entry_get _ _ _ K H3). congruence.
  - rewrite EV. apply (distinct_NoDup _ good_str). apply (lowered_keys L []), keys_nil.
Qed.

(** ** Soundings *)
Lemma array_of_array v l : array_of v = Ok l -> array v l.
Proof.
  destruct v as [h|a|a|f|q|s]; cbn [array_of]; try discriminate; intros H; apply ok_inj in H; subst l.
  - left. rewrite map_map, map_id. split; [reflexivity|]. apply Forall_forall. intros x Hx. apply in_map_iff in Hx as (f & <- & _). eauto.
  - right. rewrite map_map, map_id. split; [reflexivity|]. apply Forall_forall. intros x Hx. apply in_map_iff in Hx as (f & <- & _). eauto.
Qed.
Lemma SFeqb_refl_finite f : finite f = true -> SFeqb f f = true.
Proof. intros H. apply eqb_place; [destruct f; easy|destruct f; easy|reflexivity]. Qed.
Lemma mask_as mf x : masked_as mf x (mask mf x).
Proof.
  unfold mask. destruct x as [f|[q|]]; cbn [masked_as is_missing].
  - destruct (SFeqb f mf); auto.
  - destruct (finite mf); cbn [andb]; [|right; split; [reflexivity|intros [? _]; discriminate]].
    destruct (Qeq_bool q (q_of mf)) eqn:E.
    + apply Qeq_bool_iff in E. auto.
    + right. split; [reflexivity|]. intros [_ H]. apply Qeq_bool_iff in H. congruence.
  - intros H. rewrite (SFeqb_refl_finite _ H). reflexivity.
Qed.
Definition one_var (mf : flt) (levels : list lval) (kv : str * dval) (km : str * list (option lval)) : Prop :=
  fst km = fst kv /\ exists l, array_of (snd kv) = Ok l /\ length l = length levels /\ snd km = map (mask mf) l.
Lemma vars_fold mf levels L : forall d d', foldM (fun acc '(k, v) =>
            l <- array_of v ;;
            if (length l =? length levels)%nat then Ok (dict_set str_cmp (lower k) (map (mask mf) l) acc) else Err ValueError) L d = Ok d' ->
  exists L', Forall2 (one_var mf levels) L L' /\ d' = lowered L' d.
Proof.
  induction L as [|[k v] L IH]; intros d d' H; cbn [foldM] in H.
  - apply ok_inj in H. subst d'. exists []. split; [constructor|reflexivity].
  - destruct (array_of v) as [l|] eqn:E; cbn [bind] in H; [|discriminate H].
    destruct (length l =? length levels)%nat eqn:EN; cbn [bind] in H; [|discriminate H]. apply Nat.eqb_eq in EN.
    apply IH in H as (L' & F & ->). exists ((k, map (mask mf) l) :: L'). split; [|reflexivity]. constructor; [|exact F].
    split; [reflexivity|]. exists l. auto.
Qed.
Lemma Forall2_in_l' {A B} (P : A -> B -> Prop) l l' x : Forall2 P l l' -> In x l -> exists y, In y l' /\ P x y.
Proof.
  intros F. induction F as [|a b l l' H F IH]; [intros []|]. intros [->|Hx]; [exists b; split; [left; reflexivity|exact H]|].
  destruct (IH Hx) as (y & Hy & Py). exists y. split; [right; exact Hy|exact Py].
Qed.

(** *** The order of the levels *)
Lemma reorder_taken {A} order (l : list A) : Forall (fun i => (i < length l)%nat) order -> taken eq order l (reorder order l).
Proof.
  unfold taken, reorder. induction order as [|i order IH]; intros H; [constructor|]. inversion H as [|? ? H1 H2]; subst. cbn [flat_map].
  destruct (nth_error l i) as [x|] eqn:E; [|apply nth_error_None in E; lia]. cbn [app]. constructor; [exists x; auto|apply IH, H2].
Qed.
Lemma taken_map {A B} (P : A -> B -> Prop) (g : A -> B) order l l' : (forall x, P x (g x)) -> taken eq order (map g l) l' -> taken P order l l'.
Proof.
  intros H F. unfold taken in *. induction F as [|i y o l' (x & E & EX) F IH]; constructor; [|exact IH].
  subst y. rewrite nth_error_map in E. destruct (nth_error l i) as [z|]; [|discriminate E]. exists z. split; [reflexivity|].
  injection E as <-. apply H.
Qed.
Lemma combine_snd {A B} (a : list A) (b : list B) : length a = length b -> map snd (combine a b) = b.
Proof. revert b. induction a as [|x a IH]; intros [|y b] H; try discriminate H; [reflexivity|]. cbn. f_equal. apply IH. injection H as H. exact H. Qed.
Lemma combine_seq {A} (l : list A) : forall k x i, In (x, i) (combine l (seq k (length l))) -> exists j, i = (k + j)%nat /\ nth_error l j = Some x.
Proof.
  induction l as [|y l IH]; intros k x i H; [destruct H|]. cbn [length seq combine] in H. destruct H as [[= <- <-]|H].
  - exists 0%nat. split; [lia|reflexivity].
  - destruct (IH _ _ _ H) as (j & -> & E). exists (Datatypes.S j). split; [lia|exact E].
Qed.
Definition pairs (mf : flt) (levels : list lval) := sort (fun a b : lval * nat => lcmp mf (fst a) (fst b)) (combine levels (seq 0 (length levels))).
Lemma rising_perm mf levels : Permutation (map snd (pairs mf levels)) (seq 0 (length levels)).
Proof.
  unfold pairs. rewrite (Permutation_map snd (sort_perm _ _)). rewrite combine_snd; [reflexivity|]. rewrite seq_length. reflexivity.
Qed.
Lemma order_perm mf on levels : Permutation (order_of mf on levels) (seq 0 (length levels)).
Proof.
  unfold order_of. fold (pairs mf levels). destruct on; [|apply rising_perm]. rewrite <- Permutation_rev. apply rising_perm.
Qed.
Lemma order_inside mf on levels n : n = length levels -> Forall (fun i => (i < n)%nat) (order_of mf on levels).
Proof.
  intros ->. apply Forall_forall. intros i H. apply (Permutation_in _ (order_perm mf on levels)) in H. apply in_seq in H. lia.
Qed.
Lemma reorder_pairs {A} (l : list A) ps : (forall x i, In (x, i) ps -> nth_error l i = Some x) -> reorder (map snd ps) l = map fst ps.
Proof.
  unfold reorder. induction ps as [|[x i] ps IH]; intros H; [reflexivity|]. cbn [map flat_map fst snd].
  rewrite (H x i (or_introl eq_refl)). cbn [app]. f_equal. apply IH. intros y j Hj. apply H. right. exact Hj.
Qed.
Lemma reorder_pairs_sorted mf levels : reorder (map snd (pairs mf levels)) levels = map fst (pairs mf levels).
Proof.
  apply reorder_pairs. intros x i H. apply (Permutation_in _ (sort_perm _ _)) in H. apply combine_seq in H as (j & -> & E). exact E.
Qed.
Lemma good_lcmp mf : good_cmp (lcmp mf).
Proof. apply good_lex; [apply (good_on (lrank mf)), good_Z|apply (good_on (lvalue mf)), good_Q]. Qed.
Lemma number_le mf a b : number mf a -> number mf b -> lcmp mf a b <> Gt -> (number_value mf a <= number_value mf b)%Q.
Proof.
  intros A B. assert (Z0 : forall x, number mf x -> lrank mf x = 0).
  { intros [f|[q|]]; cbn [number lrank]; [destruct f as [| | |]; try discriminate; reflexivity|reflexivity|destruct mf as [| | |]; try discriminate; reflexivity]. }
  assert (NV : forall x, number_value mf x = lvalue mf x) by (intros [f|[q|]]; reflexivity).
  unfold lcmp. rewrite (Z0 a A), (Z0 b B), (NV a), (NV b). cbn [then_cmp Z.compare]. intros H. apply Qle_alt. exact H.
Qed.
Lemma ssorted_rev {A} (R : A -> A -> Prop) l : StronglySorted R l -> StronglySorted (fun a b => R b a) (rev l).
Proof.
  intros H. induction H as [|a l H IH F]; cbn [rev]; [constructor|]. apply sorted_app; [exact IH|constructor; constructor|].
  intros x y Hx [<-|[]]. apply in_rev in Hx. rewrite Forall_forall in F. exact (F x Hx).
Qed.
Lemma ssorted_map {A B} (f : A -> B) (R : A -> A -> Prop) (R' : B -> B -> Prop) l : (forall a b, In a l -> In b l -> R a b -> R' (f a) (f b)) ->
  StronglySorted R l -> StronglySorted R' (map f l).
Proof.
  intros H SS. induction SS as [|a l SS IH F]; cbn [map]; [constructor|]. constructor.
  - apply IH. intros x y Hx Hy. apply H; right; assumption.
  - rewrite Forall_forall in *. intros y Hy. apply in_map_iff in Hy as (x & <- & Hx). apply H; [left; reflexivity|right; exact Hx|exact (F x Hx)].
Qed.
Lemma rising_sorted mf levels : Forall (number mf) levels ->
  StronglySorted (fun a b => (number_value mf a <= number_value mf b)%Q) (map fst (pairs mf levels)).
Proof.
  intros N. eapply ssorted_map; [|apply (sort_sorted (fun a b : lval * nat => lcmp mf (fst a) (fst b)) (good_on fst _ (good_lcmp mf)))].
  intros [a i] [b j] Ha Hb H. rewrite Forall_forall in N. apply number_le; [| |exact H].
  - apply N. apply (Permutation_in _ (sort_perm _ _)) in Ha. apply combine_seq in Ha as (k & _ & E). exact (nth_error_In _ _ E).
  - apply N. apply (Permutation_in _ (sort_perm _ _)) in Hb. apply combine_seq in Hb as (k & _ & E). exact (nth_error_In _ _ E).
Qed.
Lemma reorder_rev {A} order (l : list A) : reorder (rev order) l = rev (reorder order l).
Proof.
  unfold reorder. induction order as [|i o IH]; [reflexivity|]. cbn [rev flat_map]. rewrite flat_map_app, IH, rev_app_distr. f_equal.
  cbn [flat_map]. destruct (nth_error l i); reflexivity.
Qed.
Lemma levels_sorted mf on levels : Forall (number mf) levels -> StronglySorted (fun a b =>
      match on with VPres => (number_value mf b <= number_value mf a)%Q | VHght => (number_value mf a <= number_value mf b)%Q end)
    (reorder (order_of mf on levels) levels).
Proof.
  intros N. unfold order_of. fold (pairs mf levels). destruct on.
  - rewrite reorder_rev, reorder_pairs_sorted. apply (ssorted_rev (fun a b => (number_value mf a <= number_value mf b)%Q)), rising_sorted, N.
  - rewrite reorder_pairs_sorted. apply rising_sorted, N.
Qed.

(** *** The dataset *)
Lemma dataset_shows mf r ds : keys_ok r -> dataset_of mf r = Ok ds -> exists order levels, shows mf r ds order levels.
Proof.
  intros K H. unfold dataset_of in H.
  destruct (need_key k_STID r) as [id|] eqn:E1; cbn [bind] in H; [|discriminate H].
  destruct (need_key k_STNM r) as [nm|] eqn:E2; cbn [bind] in H; [|discriminate H].
  destruct (need_key k_SLAT r) as [lat|] eqn:E3; cbn [bind] in H; [|discriminate H].
  destruct (need_key k_SLON r) as [lon|] eqn:E4; cbn [bind] in H; [|discriminate H].
  destruct (need_key k_SELV r) as [el|] eqn:E5; cbn [bind] in H; [|discriminate H].
  destruct (need_key k_STAT r) as [st|] eqn:E6; cbn [bind] in H; [|discriminate H].
  destruct (need_key k_COUN r) as [co|] eqn:E7; cbn [bind] in H; [|discriminate H].
  match type of H with (p <- ?e ;; _) = _ => destruct e as [[on v]|] eqn:EV; cbn [bind] in H; [|discriminate H] end.
  destruct (array_of v) as [levels|] eqn:EA; cbn [bind] in H; [|discriminate H].
  match type of H with (p <- ?e ;; _) = _ => destruct e as [sp|] eqn:ES; cbn [bind] in H; [|discriminate H] end.
  destruct (need_key k_DATE r) as [d|] eqn:ED; cbn [bind] in H; [|discriminate H].
  destruct (need_key k_TIME r) as [t|] eqn:ET; cbn [bind] in H; [|discriminate H].
  destruct d as [[]| | | | |]; cbn [bind] in H; try discriminate H. destruct t as [[]| | | | |]; cbn [bind] in H; try discriminate H.
  match type of H with (p <- ?e ;; _) = _ => destruct e as [vars|] eqn:EF; cbn [bind] in H; [|discriminate H] end.
  cbv zeta in H. apply ok_inj in H. subst ds. apply vars_fold in EF as (L' & F & ->).
  set (L := filter (fun '(k, _) => negb (is_popped on k)) r) in *.
  assert (EL : forall k v, In (k, v) L <-> entry r k v /\ ~ In k (not_variables on)).
  { intros k w. unfold L. rewrite filter_In. unfold is_popped. rewrite negb_true_iff. apply iff_and; [reflexivity|]. apply not_in_names. }
  assert (AR : forall k m, In (k, m) L' -> exists v a, In (k, v) L /\ array_of v = Ok a /\ length a = length levels /\ m = map (mask mf) a).
  { intros k m Hm. apply (Forall2_in_r _ _ _ _ F) in Hm as ([k0 v0] & H1 & H2 & a & H3 & H4 & H5). cbn [fst snd] in *. subst k0 m. eauto 6. }
  assert (AL : forall k v, In (k, v) L -> exists a, array_of v = Ok a /\ length a = length levels /\ In (k, map (mask mf) a) L').
  { intros k w Hm. apply (Forall2_in_l' _ _ _ _ F) in Hm as ([k0 m0] & H1 & H2 & a & H3 & H4 & H5). cbn [fst snd] in *. subst k0 m0. eauto. }
  set (order := order_of mf on levels).
  assert (TK : forall a, length a = length levels -> taken (masked_as mf) order a (reorder order (map (mask mf) a))).
  { intros a HA. apply (taken_map _ (mask mf)); [apply mask_as|]. apply reorder_taken, order_inside. rewrite map_length. exact HA. }
  exists order, levels.
  split; cbn [ds_id ds_number ds_lat ds_lon ds_elev ds_state ds_country ds_pressure ds_text ds_time ds_on ds_levels ds_vars];
    try (apply need_entry; assumption).
  - apply combine_at; apply need_entry; assumption.
  - intros k w. rewrite filter_In. apply iff_and; [reflexivity|]. apply in_names.
  - destruct (get k_PRES r) as [w|] eqn:EP.
    + apply ok_inj in EV. injection EV as <- <-. split; [intros _; exists w; exact (get_entry _ _ _ EP)|reflexivity].
    + destruct (get k_HGHT r); [|discriminate EV]. apply ok_inj in EV. injection EV as <- <-. split; [discriminate|].
      intros (w & Hw). apply (entry_get _ _ _ K) in Hw. congruence.
  - exists v. split; [|apply array_of_array, EA]. destruct (get k_PRES r) as [w|] eqn:EP.
    + apply ok_inj in EV. injection EV as <- <-. exact (get_entry _ _ _ EP).
    + destruct (get k_HGHT r) eqn:EH; [|discriminate EV]. apply ok_inj in EV. injection EV as <- <-. exact (get_entry _ _ _ EH).
  - destruct on.
    + destruct levels as [|x levels]; cbn in ES; [discriminate ES|]. apply ok_inj in ES. subst sp. reflexivity.
    + apply ok_inj in ES. subst sp. reflexivity.
  - apply order_perm.
  - apply reorder_taken, order_inside. reflexivity.
  - apply levels_sorted.
  - intros n l H. apply in_map_iff in H as ([n' m] & E & H). injection E as <- <-.
    apply lowered_sound in H as [[]|(k & H & ->)]. apply AR in H as (w & a & H & HA & HL & ->). apply EL in H as [H1 H2].
    exists k, w, a. repeat (split; [assumption || reflexivity || (apply array_of_array, HA)|]). apply TK, HL.
  - intros k w H1 H2. destruct (AL k w) as (a & HA & HL & HI); [apply EL; auto|].
    destruct (lowered_has L' [] (lower k)) as [m Hm]; [right; eauto|]. apply get_in_str in Hm. exists (reorder order m).
    apply in_map_iff. exists (lower k, m). auto.
  - intros k w H1 H2 HS. destruct (AL k w) as (a & HA & HL & HI); [apply EL; auto|]. exists a, (reorder order (map (mask mf) a)).
    split; [apply array_of_array, HA|]. split; [|apply TK, HL].
    apply in_map_iff. exists (lower k, map (mask mf) a). split; [reflexivity|]. apply get_in_str, lowered_same; [exact HI|].
    intros k' m H' E. apply AR in H' as (w' & a' & H' & HA' & _ & ->). apply EL in H' as [H3 H4].
    assert (k' = k) by exact (HS k' w' H3 H4 E). subst k'. pose proof (entry_get _ _ _ K H1). pose proof (entry_get _ _ _ K H3). congruence.
  - rewrite map_map. rewrite (map_ext _ fst) by (intros [? ?]; reflexivity).
    apply (distinct_NoDup _ good_str). apply (lowered_keys L' []), keys_nil.
Qed.

(** A dataset is made of every record that has the station's entries and arrays of one length. *)
Lemma foldM_total {X St} (g : St -> X -> res St) l : (forall s x, In x l -> exists s', g s x = Ok s') -> forall st, exists s', foldM g l st = Ok s'.
Proof.
  induction l as [|x l IH]; intros H s; [exists s; reflexivity|]. cbn [foldM]. destruct (H s x (or_introl eq_refl)) as (s1 & ->). cbn [bind].
  apply IH. intros s2 y Hy. apply H. right. exact Hy.
Qed.
Lemma array_array_of v l : array v l -> array_of v = Ok l.
Proof.
  intros [[-> F]|[-> F]]; cbn [array_of]; rewrite map_map; f_equal; induction F as [|x l (y & ->) F IH]; [reflexivity| |reflexivity|];
    cbn [map]; f_equal; exact IH.
Qed.
Lemma entry_need k r : keys_ok r -> (exists v, entry r k v) -> exists v, need_key k r = Ok v.
Proof. intros K (v & H). unfold need_key. rewrite (entry_get _ _ _ K H). eauto. Qed.
Lemma complete_dataset mf r : keys_ok r -> complete r -> exists ds, dataset_of mf r = Ok ds.
Proof.
  intros K (HK & (t & HD & HT) & on & v & levels & HO & HV & HA & HN & HR). unfold dataset_of.
  destruct (entry_need k_STID r K (HK k_STID ltac:(cbn; tauto))) as (? & ->). destruct (entry_need k_STNM r K (HK k_STNM ltac:(cbn; tauto))) as (? & ->).
  destruct (entry_need k_SLAT r K (HK k_SLAT ltac:(cbn; tauto))) as (? & ->). destruct (entry_need k_SLON r K (HK k_SLON ltac:(cbn; tauto))) as (? & ->).
  destruct (entry_need k_SELV r K (HK k_SELV ltac:(cbn; tauto))) as (? & ->). destruct (entry_need k_STAT r K (HK k_STAT ltac:(cbn; tauto))) as (? & ->).
  destruct (entry_need k_COUN r K (HK k_COUN ltac:(cbn; tauto))) as (? & ->). cbn [bind].
  apply (entry_get _ _ _ K) in HV, HD, HT. apply array_array_of in HA.
  assert (E : match get k_PRES r, get k_HGHT r with
              | Some v, _ => Ok (VPres, v)
              | None, Some v => Ok (VHght, v)
              | None, None => Err ValueError
              end = Ok (on, v)).
  { destruct on; cbn [coordinate] in HV; rewrite HV; [reflexivity|]. destruct (get k_PRES r) as [w|] eqn:EP; [|reflexivity].
    apply get_entry in EP. assert (VHght = VPres) by (apply HO; eauto). discriminate. }
  rewrite E. cbn [bind]. rewrite HA. cbn [bind].
  assert (SP : exists sp, match on with VPres => x <- py_index levels 0 ;; Ok (Some x) | VHght => Ok None end = Ok sp).
  { destruct on; [|eauto]. destruct levels as [|lev0 levels]; [congruence|]. eexists. reflexivity. }
  destruct SP as (sp & ->). cbn [bind]. unfold need_key. rewrite HD, HT. cbn [bind].
  match goal with |- exists ds, (vars <- foldM ?g ?l ?e ;; _) = _ => destruct (foldM_total g l) with (st := e) as (vars & ->) end; [|eexists; reflexivity].
  intros s [k w] H. apply filter_In in H as [H1 H2]. unfold is_popped in H2. apply negb_true_iff, not_in_names in H2.
  destruct (HR k w H1 H2) as (a & HA' & HL). apply array_array_of in HA'. rewrite HA'. cbn [bind]. rewrite HL, Nat.eqb_refl. eauto.
Qed.
