(** The state of a sounding or surface file after a history of additions. *)
From Coq Require Import Lia ZifyBool ZifyNat Permutation.
From Verif Require Import Base BaseFacts Floats Strings StringsFacts Dates SpecDates DatesFacts Headers Order OrderFacts
  DmFile DmHookFacts DmReadFacts Station StationFacts StationRead StationCellFacts SpecStation CoordEq.
Open Scope Z_scope.

(** ** Lists matched by key *)
Lemma perm_keys {A B K C} (cmp : K -> K -> comparison) (G : good_cmp cmp) (ka : A -> K) (kb : B -> K)
  (F : A -> C) (H : B -> C) : forall la lb,
  distinct cmp (map ka la) -> distinct cmp (map kb lb) ->
  (forall a, In a la -> exists b, In b lb /\ cmp (ka a) (kb b) = Eq) ->
  (forall b, In b lb -> exists a, In a la /\ cmp (ka a) (kb b) = Eq) ->
  (forall a b, In a la -> In b lb -> cmp (ka a) (kb b) = Eq -> F a = H b) ->
  Permutation (map F la) (map H lb).
Proof.
  induction la as [|a la IH]; intros lb DA DB AB BA E.
  - destruct lb as [|b lb]; [constructor|]. destruct (BA b) as (a & [] & _). left. reflexivity.
  - destruct (AB a) as (b & Hb & Eb); [left; reflexivity|]. apply in_split in Hb as (l1 & l2 & ->).
    cbn [map] in *. assert (DA0 := DA). inversion DA as [|? ? A1 A2]; subst. rewrite Forall_forall in A1.
    assert (DB' : distinct cmp (map kb (b :: l1 ++ l2))).
    { eapply distinct_perm; [exact G| |exact DB]. apply Permutation_map. symmetry. apply Permutation_middle. }
    cbn [map] in DB'. inversion DB' as [|? ? B1 B2]; subst. rewrite Forall_forall in B1.
    rewrite (E a b) by (try exact Eb; try (left; reflexivity); apply in_or_app; right; left; reflexivity).
    rewrite map_app. cbn [map]. apply Permutation_cons_app. rewrite <- map_app.
    assert (SUB : forall x, In x (l1 ++ l2) -> In x (l1 ++ b :: l2)).
    { intros x Hx. apply in_app_or in Hx as [Hx|Hx]; apply in_or_app; [left|right; right]; exact Hx. }
    apply IH.
    + exact A2.
    + exact B2.
    + intros x Hx. destruct (AB x) as (y & Hy & Ey); [right; exact Hx|]. exists y. split; [|exact Ey].
      apply in_app_or in Hy as [Hy|[->|Hy]]; [apply in_or_app; left; exact Hy| |apply in_or_app; right; exact Hy].
      exfalso. apply (A1 (ka x)); [apply in_map; exact Hx|].
      exact (gc_trans _ _ _ _ G Eb (gc_sym _ _ _ G Ey)).
    + intros y Hy. destruct (BA y) as (x & Hx & Ex); [apply SUB; exact Hy|]. destruct Hx as [->|Hx]; [|exists x; auto].
      exfalso. apply (B1 (kb y)); [apply in_map; exact Hy|].
      exact (gc_trans _ _ _ _ G (gc_sym _ _ _ G Eb) Ex).
    + intros x y Hx Hy. apply E; [right; exact Hx|apply SUB; exact Hy].
Qed.

(** ** keep_last *)
Lemma keep_last_in {A} same (l : list A) x : In x (keep_last same l) -> In x l.
Proof.
  induction l as [|y l IH]; cbn; [auto|]. destruct (existsb (same y) l); [auto|]. intros [H|H]; auto.
Qed.
Lemma keep_last_map {A B} (f : A -> B) sa sb l : (forall x y, In x l -> In y l -> sa x y = sb (f x) (f y)) ->
  map f (keep_last sa l) = keep_last sb (map f l).
Proof.
  induction l as [|x l IH]; intros H; [reflexivity|]. cbn.
  assert (E : existsb (sa x) l = existsb (sb (f x)) (map f l)).
  { assert (H' : forall y, In y l -> sa x y = sb (f x) (f y)) by (intros y Hy; apply H; [left; reflexivity|right; exact Hy]).
    clear - H'. induction l as [|y l IH]; [reflexivity|]. cbn. rewrite (H' y) by (left; reflexivity).
    rewrite IH by (intros z Hz; apply H'; right; exact Hz). reflexivity. }
  rewrite <- E. rewrite <- IH by (intros; apply H; right; assumption). destruct (existsb (sa x) l); reflexivity.
Qed.

Section Last.
  Context {K V : Type} (cmp : K -> K -> comparison) (G : good_cmp cmp).
  Notation same := (fun a b : K * V => is_eq (cmp (fst a) (fst b))).
  Lemma keep_last_distinct (l : list (K * V)) : distinct cmp (map fst (keep_last same l)).
  Proof.
    induction l as [|x l IH]; [constructor|]. cbn. destruct (existsb _ l) eqn:E; [exact IH|].
    cbn [map]. constructor; [|exact IH]. apply Forall_forall. intros k Hk HE. apply in_map_iff in Hk as (y & <- & Hy).
    apply keep_last_in in Hy. assert (X : existsb (fun b => is_eq (cmp (fst x) (fst b))) l = true).
    { apply existsb_exists. exists y. rewrite HE. auto. }
    congruence.
  Qed.
  (** Writing a history into a dict. *)
  Definition dict_of (ops : list (K * V)) (d : list (K * V)) : list (K * V) :=
    fold_left (fun d op => dict_set cmp (fst op) (snd op) d) ops d.
  Lemma dict_of_get ops : forall d k,
    dict_get cmp k (dict_of ops d) =
    match find (fun op => is_eq (cmp k (fst op))) (keep_last same ops) with
    | Some op => Some (snd op)
    | None => dict_get cmp k d
    end.
  Proof.
    induction ops as [|op ops IH]; intros d k; [reflexivity|]. cbn [dict_of fold_left]. fold (dict_of ops (dict_set cmp (fst op) (snd op) d)).
    rewrite IH. rewrite (dict_set_get _ G). cbn [keep_last].
    destruct (existsb (fun b => is_eq (cmp (fst op) (fst b))) ops) eqn:E.
    - destruct (find _ (keep_last same ops)) eqn:F; [reflexivity|].
      destruct (is_eq (cmp k (fst op))) eqn:E1; [|reflexivity]. exfalso.
      assert (HN := find_none _ _ F). clear F IH.
      apply existsb_exists in E as (y & Hy & Ey). apply is_eq_true in E1, Ey.
      assert (Ek : cmp k (fst y) = Eq) by exact (gc_trans _ _ _ _ G E1 Ey).
      clear E1 Ey. revert y Hy Ek. induction ops as [|z ops IH]; intros y Hy Ek; [destruct Hy|].
      cbn [keep_last] in HN. destruct (existsb (fun b => is_eq (cmp (fst z) (fst b))) ops) eqn:EZ.
      + destruct Hy as [->|Hy]; [|exact (IH HN y Hy Ek)].
        apply existsb_exists in EZ as (w & Hw & Ew). apply is_eq_true in Ew.
        exact (IH HN w Hw (gc_trans _ _ _ _ G Ek Ew)).
      + destruct Hy as [->|Hy].
        * specialize (HN y (or_introl eq_refl)). cbn in HN. rewrite Ek in HN. discriminate HN.
        * apply (IH (fun x Hx => HN x (or_intror Hx)) y Hy Ek).
    - cbn [find]. destruct (is_eq (cmp k (fst op))) eqn:E1; [|reflexivity].
      destruct (find _ (keep_last same ops)) as [y|] eqn:F; [|reflexivity]. exfalso.
      apply find_some in F as [Fy Ey]. apply keep_last_in in Fy. apply is_eq_true in E1, Ey.
      assert (X : existsb (fun b => is_eq (cmp (fst op) (fst b))) ops = true).
      { apply existsb_exists. exists y. split; [exact Fy|]. apply is_eq_true.
        exact (gc_trans _ _ _ _ G (gc_sym _ _ _ G E1) Ey). }
      congruence.
  Qed.
  Lemma dict_of_last ops k op : In op (keep_last same ops) -> cmp k (fst op) = Eq ->
    dict_get cmp k (dict_of ops []) = Some (snd op).
  Proof.
    intros HI HE. rewrite dict_of_get. destruct (find _ (keep_last same ops)) as [y|] eqn:F.
    - apply find_some in F as [Fy Ey]. apply is_eq_true in Ey.
      pose proof (keep_last_distinct ops) as D. f_equal. f_equal.
      apply In_nth_error in HI as (i & Hi). apply In_nth_error in Fy as (j & Hj).
      destruct (Nat.eq_dec i j) as [->|N]; [congruence|]. exfalso.
      apply (proj1 (distinct_alt _ G _) D i j (fst op) (fst y)).
      + apply map_nth_error. exact Hi.
      + apply map_nth_error. exact Hj.
      + exact N.
      + exact (gc_trans _ _ _ _ G (gc_sym _ _ _ G HE) Ey).
    - exfalso. apply find_none with (x := op) in F; [|exact HI]. rewrite HE in F. discriminate F.
  Qed.
  Lemma dict_of_some ops k v : dict_get cmp k (dict_of ops []) = Some v ->
    exists op, In op (keep_last same ops) /\ cmp k (fst op) = Eq /\ snd op = v.
  Proof.
    rewrite dict_of_get. destruct (find _ (keep_last same ops)) as [y|] eqn:F; [|discriminate].
    intros [= <-]. apply find_some in F as [Fy Ey]. apply is_eq_true in Ey. eauto.
  Qed.

  Definition set_of (l s : list K) : list K := fold_left (fun s x => set_add cmp x s) l s.
  Lemma set_of_distinct l : forall s, distinct cmp s -> distinct cmp (set_of l s).
  Proof. induction l as [|x l IH]; intros s D; [exact D|]. apply IH. apply (set_add_distinct _ G). exact D. Qed.
  Lemma set_of_in l : forall s y, In y (set_of l s) -> In y s \/ In y l.
  Proof.
    induction l as [|x l IH]; intros s y H; [left; exact H|]. apply IH in H as [H|H]; [|right; right; exact H].
    apply set_add_in in H as [H| ->]; [left; exact H|right; left; reflexivity].
  Qed.
  Lemma set_of_keeps l : forall s y, In y s -> In y (set_of l s).
  Proof. induction l as [|x l IH]; intros s y H; [exact H|]. apply IH. apply set_add_keeps. exact H. Qed.
  Lemma set_of_has l : forall s y, In y l -> mem cmp y (set_of l s) = true.
  Proof.
    induction l as [|x l IH]; intros s y H; [destruct H|]. destruct H as [->|H]; [|apply IH; exact H].
    cbn [set_of fold_left]. apply (mem_mono cmp y (set_add cmp y s)); [intros z; apply set_of_keeps|apply (set_add_has _ G)].
  Qed.
End Last.

Lemma good_row : good_cmp row_cmp.
Proof. apply good_lex; [apply (good_on fst), good_date|apply (good_on snd), good_time]. Qed.
Lemma good_station : good_cmp station_cmp.
Proof.
  unfold station_cmp.
  apply good_lex; [apply (good_on s_id), good_str|]. apply good_lex; [apply (good_on s_nm), good_Z|].
  apply good_lex; [apply (good_on s_lat), good_num|]. apply good_lex; [apply (good_on s_lon), good_num|].
  apply good_lex; [apply (good_on s_elv), good_Z|]. apply good_lex; [apply (good_on s_stat), good_str|].
  apply good_lex; [apply (good_on s_coun), good_str|]. apply good_lex; [apply (good_on s_id2), good_str|].
  apply (good_on s_pri), good_num.
Qed.
Lemma good_key : good_cmp key_cmp.
Proof. apply good_lex; [apply (good_on fst), good_row|apply (good_on snd), good_station]. Qed.

Lemma distinct_app {K} (cmp : K -> K -> comparison) l1 l2 : distinct cmp l1 -> distinct cmp l2 ->
  (forall x y, In x l1 -> In y l2 -> cmp x y <> Eq) -> distinct cmp (l1 ++ l2).
Proof.
  intros D1 D2. induction D1 as [|a l H D IH]; intros HX; [exact D2|]. cbn. constructor.
  - apply Forall_app. split; [exact H|]. apply Forall_forall. intros y Hy. apply HX; [left; reflexivity|exact Hy].
  - apply IH. intros x y Hx Hy. apply HX; [right; exact Hx|exact Hy].
Qed.
Lemma distinct_filter_map {A K} (cmp : K -> K -> comparison) (f : A -> K) p l : distinct cmp (map f l) -> distinct cmp (map f (filter p l)).
Proof.
  induction l as [|x l IH]; intros D; [exact D|]. cbn [map] in D. inversion D as [|? ? H1 H2]; subst. cbn.
  destruct (p x); [|exact (IH H2)]. cbn [map]. constructor; [|exact (IH H2)]. rewrite Forall_forall in *. intros y Hy. apply H1.
  apply in_map_iff in Hy as (z & <- & Hz). apply filter_In in Hz as [Hz _]. apply in_map. exact Hz.
Qed.
Lemma distinct_prod rs cs : distinct row_cmp rs -> distinct station_cmp cs -> distinct key_cmp (list_prod rs cs).
Proof.
  intros DR DC. induction DR as [|r rs HR DR IH]; [constructor|]. cbn [list_prod]. rewrite Forall_forall in HR.
  apply distinct_app; [|exact IH|].
  - clear - DC. induction DC as [|c cs HC DC IH]; [constructor|]. cbn [map]. constructor; [|exact IH].
    rewrite Forall_forall in *. intros y Hy HE. apply in_map_iff in Hy as (c' & <- & Hc').
    unfold key_cmp in HE. cbn [fst snd] in HE. apply then_cmp_eq in HE as [_ HE]. exact (HC c' Hc' HE).
  - intros x [r' c'] Hx Hy HE. apply in_map_iff in Hx as (c & <- & _). apply in_prod_iff in Hy as [Hy _].
    unfold key_cmp in HE. cbn [fst snd] in HE. apply then_cmp_eq in HE as [HE _]. exact (HR r' Hy HE).
Qed.
Lemma indexed_snd {A} (l : list A) : map snd (indexed l) = l.
Proof.
  unfold indexed. assert (L : length (zrange (Zlen l)) = length l) by (unfold zrange; rewrite map_length, seq_length; unfold Zlen; lia).
  revert L. generalize (zrange (Zlen l)) as z. induction l as [|x l IH]; intros [|y z] L; try discriminate L; [reflexivity|].
  cbn. rewrite IH by (cbn in L; lia). reflexivity.
Qed.

(** ** The object after a history *)
Definition op := ((row * station) * list (list flt))%type.
Record after (k : kind) (names : list str) (ops : list op) (o : sfile) : Prop := {
  af_kind : sf_kind o = k; af_names : sf_names o = names;
  af_row_set : sf_row_set o = set_of row_cmp (map (fun x => fst (fst x)) ops) [];
  af_col_set : sf_col_set o = set_of station_cmp (map (fun x => snd (fst x)) ops) [];
  af_data : sf_data o = dict_of key_cmp ops [];
  af_row_headers : sf_row_headers o = sort row_cmp (sf_row_set o);
  af_col_headers : sf_col_headers o = sort station_cmp (sf_col_set o);
  af_rows : sf_rows o = Zlen (sf_row_set o);
  af_cols : sf_cols o = Zlen (sf_col_set o)
}.
Lemma after_new k params pd o : new_file k params pd = Ok o -> after k (sf_names o) [] o.
Proof.
  unfold new_file. intros H. destruct (_ >? _); [discriminate H|]. destruct (negb _); [discriminate H|].
  destruct pd; [discriminate H|]. apply ok_inj in H. subst o. constructor; reflexivity.
Qed.
Lemma after_add k names ops o c o' : after k names ops o -> add_entry o c = (o', Ok tt) ->
  exists x, check_call k names c = Ok x /\ after k names (ops ++ [x]) o'.
Proof.
  intros [H1 H2 H3 H4 H5 H6 H7 H8 H9] H. unfold add_entry in H. rewrite H1, H2 in H.
  destruct (check_call k names c) as [[[r st] cols]|] eqn:EC; [|discriminate H].
  destruct (_ >? MMHDRS); [discriminate H|]. injection H as <-.
  exists ((r, st), cols). split; [reflexivity|].
  constructor; cbn [sf_kind sf_names sf_row_set sf_col_set sf_data sf_rows sf_cols sf_row_headers sf_col_headers]; try reflexivity.
  - rewrite H3. unfold set_of. rewrite map_app, fold_left_app. reflexivity.
  - rewrite H4. unfold set_of. rewrite map_app, fold_left_app. reflexivity.
  - rewrite H5. unfold dict_of. rewrite fold_left_app. reflexivity.
Qed.
Lemma after_all calls : forall k names ops o o', after k names ops o -> add_all o calls = Ok o' ->
  exists ops', Forall2 (fun c x => check_call k names c = Ok x) calls ops' /\ after k names (ops ++ ops') o'.
Proof.
  induction calls as [|c calls IH]; intros k names ops o o' A H; unfold add_all in H; cbn [foldM] in H.
  - apply ok_inj in H. subst o'. exists []. rewrite app_nil_r. split; [constructor|exact A].
  - destruct (add_entry o c) as [o1 [[]|x]] eqn:E; cbn [bind] in H; [|discriminate H].
    destruct (after_add _ _ _ _ _ _ A E) as (x & EX & A1).
    destruct (IH _ _ _ _ _ A1 H) as (ops' & F & A2). exists (x :: ops'). split; [constructor; assumption|].
    rewrite <- app_assoc in A2. exact A2.
Qed.
Lemma after_coherent k names ops o : after k names ops o -> coherent o.
Proof.
  intros A. split; [rewrite (af_rows _ _ _ _ A), (af_row_headers _ _ _ _ A)|rewrite (af_cols _ _ _ _ A), (af_col_headers _ _ _ _ A)];
    unfold Zlen; rewrite sort_length; reflexivity.
Qed.

Section Kept.
  Variables (k : kind) (names : list str) (ops : list op) (o : sfile).
  Hypothesis A : after k names ops o.
  Notation same := (fun a b : op => is_eq (key_cmp (fst a) (fst b))).
  Definition cell_key (x : cell) : row * station := (snd (fst x), snd (snd x)).

  Lemma rows_distinct : distinct row_cmp (sf_row_headers o).
  Proof.
    rewrite (af_row_headers _ _ _ _ A). eapply distinct_perm; [exact good_row|symmetry; apply sort_perm|].
    rewrite (af_row_set _ _ _ _ A). apply set_of_distinct; [exact good_row|constructor].
  Qed.
  Lemma cols_distinct : distinct station_cmp (sf_col_headers o).
  Proof.
    rewrite (af_col_headers _ _ _ _ A). eapply distinct_perm; [exact good_station|symmetry; apply sort_perm|].
    rewrite (af_col_set _ _ _ _ A). apply set_of_distinct; [exact good_station|constructor].
  Qed.
  Lemma grid_keys : distinct key_cmp (map cell_key (grid o)).
  Proof.
    assert (P : map cell_key (grid o) = list_prod (sf_row_headers o) (sf_col_headers o)).
    { unfold grid. transitivity (list_prod (map snd (indexed (sf_row_headers o))) (map snd (indexed (sf_col_headers o)))).
      - rewrite list_prod_map. reflexivity.
      - rewrite !indexed_snd. reflexivity. }
    rewrite P. apply distinct_prod; [exact rows_distinct|exact cols_distinct].
  Qed.
  Lemma kept_keys : distinct key_cmp (map cell_key (kept o)).
  Proof. unfold kept. apply distinct_filter_map. exact grid_keys. Qed.
  Lemma row_header_in r : In r (sf_row_headers o) -> exists x, In x ops /\ fst (fst x) = r.
  Proof.
    rewrite (af_row_headers _ _ _ _ A), sort_in, (af_row_set _ _ _ _ A). intros H. apply set_of_in in H as [[]|H].
    apply in_map_iff in H as (x & E & H). eauto.
  Qed.
  Lemma col_header_in s : In s (sf_col_headers o) -> exists x, In x ops /\ snd (fst x) = s.
  Proof.
    rewrite (af_col_headers _ _ _ _ A), sort_in, (af_col_set _ _ _ _ A). intros H. apply set_of_in in H as [[]|H].
    apply in_map_iff in H as (x & E & H). eauto.
  Qed.
  Lemma op_row x : In x ops -> exists r, In r (sf_row_headers o) /\ row_cmp (fst (fst x)) r = Eq.
  Proof.
    intros H. assert (M : mem row_cmp (fst (fst x)) (sf_row_set o) = true).
    { rewrite (af_row_set _ _ _ _ A). apply set_of_has; [exact good_row|]. exact (in_map (fun x => fst (fst x)) _ _ H). }
    apply mem_spec in M as (r & H1 & H2). exists r. split; [|exact H2]. rewrite (af_row_headers _ _ _ _ A). apply sort_in. exact H1.
  Qed.
  Lemma op_col x : In x ops -> exists s, In s (sf_col_headers o) /\ station_cmp (snd (fst x)) s = Eq.
  Proof.
    intros H. assert (M : mem station_cmp (snd (fst x)) (sf_col_set o) = true).
    { rewrite (af_col_set _ _ _ _ A). apply set_of_has; [exact good_station|]. exact (in_map (fun x => snd (fst x)) _ _ H). }
    apply mem_spec in M as (s & H1 & H2). exists s. split; [|exact H2]. rewrite (af_col_headers _ _ _ _ A). apply sort_in. exact H1.
  Qed.
  Lemma cell_data_of x : cell_data o x = dict_get key_cmp (cell_key x) (dict_of key_cmp ops []).
  Proof. unfold cell_data. rewrite (af_data _ _ _ _ A). reflexivity. Qed.

  (** The filled cells are the effective additions, matched by their keys. *)
  Lemma kept_ops {B C} (f : B -> op) (cs : list B) (sameB : B -> B -> bool) (F : cell -> C) (H : B -> C) :
    ops = map f cs -> (forall x y, sameB x y = is_eq (key_cmp (fst (f x)) (fst (f y)))) ->
    (forall x y, In x (kept o) -> In y cs -> key_cmp (cell_key x) (fst (f y)) = Eq ->
       cell_data o x = Some (snd (f y)) -> F x = H y) ->
    Permutation (map F (kept o)) (map H (keep_last sameB cs)).
  Proof.
    intros EO ES E.
    assert (EL : map f (keep_last sameB cs) = keep_last same ops).
    { rewrite EO. apply keep_last_map. intros. apply ES. }
    apply (perm_keys key_cmp good_key cell_key (fun y => fst (f y))).
    - exact kept_keys.
    - rewrite <- (map_map f fst), EL. apply keep_last_distinct.
    - intros x Hx. unfold kept in Hx. apply filter_In in Hx as [_ Hx]. unfold filled in Hx. rewrite cell_data_of in Hx.
      destruct (dict_get _ _ _) as [v|] eqn:ED; [|discriminate Hx].
      apply (dict_of_some _ good_key) in ED as (y & H1 & H2 & _). change (In y (keep_last same ops)) in H1. rewrite <- EL in H1. apply in_map_iff in H1 as (z & <- & H1). eauto.
    - intros y Hy. assert (Hy0 : In (f y) ops) by (rewrite EO; apply in_map; exact (keep_last_in _ _ _ Hy)).
      destruct (op_row _ Hy0) as (r & R1 & R2). destruct (op_col _ Hy0) as (s & S1 & S2).
      rewrite <- (indexed_snd (sf_row_headers o)) in R1. rewrite <- (indexed_snd (sf_col_headers o)) in S1.
      apply in_map_iff in R1 as ([i r'] & E1 & R1). apply in_map_iff in S1 as ([j s'] & E2 & S1). cbn [snd] in E1, E2. subst r' s'.
      assert (EK : key_cmp (cell_key ((i, r), (j, s))) (fst (f y)) = Eq).
      { apply (gc_sym _ _ _ good_key). unfold key_cmp, cell_key. cbn [fst snd]. apply then_cmp_eq. auto. }
      exists ((i, r), (j, s)). split; [|exact EK]. unfold kept. apply filter_In. split.
      + apply in_prod; assumption.
      + unfold filled. rewrite cell_data_of. apply (in_map f) in Hy. rewrite EL in Hy. rewrite (dict_of_last _ good_key _ _ _ Hy EK). reflexivity.
    - intros x y Hx Hy EK. apply E; try assumption; [exact (keep_last_in _ _ _ Hy)|]. rewrite cell_data_of.
      apply (in_map f) in Hy. rewrite EL in Hy. exact (dict_of_last _ good_key _ _ _ Hy EK).
  Qed.
End Kept.
