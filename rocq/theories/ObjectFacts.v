(** Histories of additions and writes on one sounding or surface object. *)
From Coq Require Import Lia ZifyBool ZifyNat Permutation.
From Verif Require Import Base BaseFacts Floats Strings StringsFacts Dates SpecDates DatesFacts Headers HeadersFacts Order OrderFacts
  DmFile DmHookFacts DmReadFacts Layout Station StationFacts StationRead StationCellFacts SpecStation CoordEq HistoryFacts CallFacts.
Open Scope Z_scope.

(** Everything but the pointers. *)
Definition forget (o : sfile) : sfile :=
  mk_sf (sf_kind o) (sf_names o) (sf_row_set o) (sf_col_set o) (sf_data o) (sf_rows o) (sf_cols o)
    (sf_row_headers o) (sf_col_headers o) None.
Lemma save_forget e o : snd (save e o) = snd (save e (forget o)).
Proof.
  unfold save, forget, with_ptrs, sf_head.
  cbn [sf_kind sf_names sf_row_set sf_col_set sf_data sf_rows sf_cols sf_row_headers sf_col_headers sf_ptrs].
  match goal with |- context [to_gempak_at ?a ?b ?c ?d ?f ?g ?h] => generalize (to_gempak_at a b c d f g h) end.
  intros [[b nf]|]; reflexivity.
Qed.
Lemma save_keeps e o : forget (fst (save e o)) = forget o.
Proof.
  unfold save. match goal with |- context [to_gempak_at ?a ?b ?c ?d ?f ?g ?h] => generalize (to_gempak_at a b c d f g h) end.
  intros [[b nf]|]; reflexivity.
Qed.
Lemma add_forget o c : forget (fst (add_entry o c)) = forget (fst (add_entry (forget o) c)) /\
  snd (add_entry o c) = snd (add_entry (forget o) c).
Proof.
  unfold add_entry. cbn [forget sf_kind sf_names sf_row_set sf_col_set sf_data].
  destruct (check_call _ _ c) as [[[r st] cols]|]; [|split; reflexivity].
  cbv zeta. destruct (_ >? MMHDRS); split; reflexivity.
Qed.

(** ** Histories *)
Inductive action := Add (c : call) | Write (e : endian).
Definition act (o : sfile) (a : action) : sfile :=
  match a with Add c => fst (add_entry o c) | Write e => fst (save e o) end.
Definition is_add (a : action) : bool := match a with Add _ => true | Write _ => false end.
Lemma act_forget o a : forget (act o a) = forget (act (forget o) a).
Proof.
  destruct a as [c|e]; cbn [act]; [apply add_forget|]. rewrite !save_keeps. reflexivity.
Qed.
Lemma run_forget acts : forall o o2, forget o = forget o2 ->
  forget (fold_left act acts o) = forget (fold_left act (filter is_add acts) o2).
Proof.
  induction acts as [|a acts IH]; intros o o2 H; [exact H|]. cbn [fold_left filter].
  destruct a as [c|e]; cbn [is_add fold_left].
  - apply IH. rewrite (act_forget o), (act_forget o2), H. reflexivity.
  - apply IH. cbn [act]. rewrite save_keeps. exact H.
Qed.

(** ** Argument order *)
Definition with_data (c : call) (d : list (str * list flt)) : call :=
  mk_call d (c_lat c) (c_lon c) (c_time c) (c_info c).
Definition with_time (c : call) (t : dtarg) : call :=
  mk_call (c_data c) (c_lat c) (c_lon c) t (c_info c).
Definition norm (kv : str * list flt) : str * list flt := (upper (fst kv), map fill_nan (snd kv)).
Lemma dict_set_fresh {V} k (v : V) d : ~ In k (map fst d) -> dict_set str_cmp k v d = d ++ [(k, v)].
Proof.
  induction d as [|[a w] d IH]; intros H; [reflexivity|]. cbn. destruct (str_cmp k a) eqn:E; cbn [is_eq].
  - apply str_cmp_eq in E. subst. exfalso. apply H. left. reflexivity.
  - rewrite IH; [reflexivity|]. intros HI. apply H. right. exact HI.
  - rewrite IH; [reflexivity|]. intros HI. apply H. right. exact HI.
Qed.
Lemma upper_data_map d : NoDup (map (fun kv => upper (fst kv)) d) -> upper_data d = map norm d.
Proof.
  unfold upper_data. induction d as [|[k v] d IH] using rev_ind; intros ND; [reflexivity|].
  rewrite fold_left_app, map_app. rewrite map_app in ND. cbn [map fst app fold_left] in *.
  pose proof (NoDup_remove_1 _ _ _ ND) as N1. pose proof (NoDup_remove_2 _ _ _ ND) as N2. rewrite app_nil_r in N1, N2.
  rewrite IH by exact N1. rewrite dict_set_fresh; [reflexivity|]. rewrite map_map. exact N2.
Qed.
Lemma forallb_perm {A} (p : A -> bool) l l' : Permutation l l' -> forallb p l = forallb p l'.
Proof.
  intros P. apply eq_true_iff_eq. rewrite !forallb_forall. split; intros H x Hx; apply H.
  - exact (Permutation_in _ (Permutation_sym P) Hx).
  - exact (Permutation_in _ P Hx).
Qed.
Lemma dict_get_perm {V} k (d d' : list (str * V)) : NoDup (map fst d) -> Permutation d d' -> dict_get str_cmp k d = dict_get str_cmp k d'.
Proof.
  intros ND P. assert (ND' : NoDup (map fst d')) by exact (Permutation_NoDup (Permutation_map fst P) ND).
  assert (D : forall l : list str, NoDup l -> distinct str_cmp l).
  { induction 1 as [|x l H1 H2 IH]; constructor; [|exact IH]. apply Forall_forall. intros y Hy E. apply str_cmp_eq in E. subst. contradiction. }
  destruct (dict_get str_cmp k d) as [v|] eqn:E.
  - apply dict_get_in in E as (k' & EK & HI). apply str_cmp_eq in EK. subst k'. symmetry.
    apply (dict_in_get _ good_str); [apply D; exact ND'|]. exact (Permutation_in _ P HI).
  - destruct (dict_get str_cmp k d') as [v|] eqn:E'; [|reflexivity].
    apply dict_get_in in E' as (k' & EK & HI). apply str_cmp_eq in EK. subst k'.
    rewrite (dict_in_get _ good_str k v d) in E; [discriminate E|apply D; exact ND|]. exact (Permutation_in _ (Permutation_sym P) HI).
Qed.
Lemma param_args_perm names d d' : NoDup (map fst d) -> Permutation d d' -> param_args names d = param_args names d'.
Proof.
  intros ND P. unfold param_args. rewrite (forallb_perm _ _ _ P). destruct (forallb _ d'); [|reflexivity].
  apply mapM_ext. intros n Hn. rewrite (dict_get_perm n d d' ND P). reflexivity.
Qed.
Lemma validate_perm k d d' : Permutation d d' -> validate_length k d = validate_length k d'.
Proof.
  intros P. destruct k; [|reflexivity]. unfold validate_length.
  destruct d as [|[k0 v0] d0], d' as [|[k1 v1] d1]; [reflexivity|apply Permutation_nil in P; discriminate P|symmetry in P; apply Permutation_nil in P; discriminate P|].
  assert (H : forallb (fun '(_, x) => (length x =? length v0)%nat) ((k0, v0) :: d0) && (Zlen v0 <? MAX_LEVELS) =
              forallb (fun '(_, x) => (length x =? length v1)%nat) ((k1, v1) :: d1) && (Zlen v1 <? MAX_LEVELS)).
  { rewrite (forallb_perm _ _ _ P).
    assert (I0 : In (k0, v0) ((k1, v1) :: d1)) by (apply (Permutation_in _ P); left; reflexivity).
    destruct (Nat.eq_dec (length v0) (length v1)) as [E|N]; [unfold Zlen; rewrite E; reflexivity|].
    assert (F : forall (v w : list flt) l, length v <> length w -> (exists k, In (k, w) l) ->
      forallb (fun '(_, x) => (length x =? length v)%nat) (l : list (str * list flt)) = false).
    { intros v w l Hn (k' & Hk). apply not_true_is_false. intros T. rewrite forallb_forall in T. apply T in Hk. cbn in Hk. apply Nat.eqb_eq in Hk. congruence. }
    rewrite (F v0 v1) by (try assumption; exists k1; left; reflexivity).
    rewrite (F v1 v0); [reflexivity|congruence|exists k0; exact I0]. }
  rewrite H. reflexivity.
Qed.
Lemma add_entry_perm o c d' : NoDup (map (fun kv => upper (fst kv)) (c_data c)) -> Permutation (c_data c) d' ->
  add_entry o (with_data c d') = add_entry o c.
Proof.
  intros ND P. unfold add_entry.
  assert (E : check_call (sf_kind o) (sf_names o) (with_data c d') = check_call (sf_kind o) (sf_names o) c); [|rewrite E; reflexivity].
  unfold check_call. cbn [with_data c_data c_lat c_lon c_time c_info].
  assert (ND' : NoDup (map (fun kv => upper (fst kv)) d')) by exact (Permutation_NoDup (Permutation_map _ P) ND).
  rewrite (upper_data_map _ ND), (upper_data_map _ ND').
  assert (PN : Permutation (map norm (c_data c)) (map norm d')) by (apply Permutation_map; exact P).
  rewrite <- (param_args_perm (sf_names o) _ _) with (2 := PN) by (rewrite map_map; exact ND).
  rewrite <- (validate_perm (sf_kind o) _ _ PN). reflexivity.
Qed.

(** ** Times given as strings *)
Lemma is_F_digits s : forallb is_digit s = true -> existsb is_F s = false /\ forallb (fun c => negb (is_F c)) s = true.
Proof.
  induction s as [|c s IH]; intros H; [auto|]. cbn in *. apply andb_prop in H as [H1 H2]. destruct (IH H2) as [-> ->].
  unfold is_digit, is_F in *. split; lia.
Qed.
Lemma sounding_plain t : valid_dt t = true -> sounding_time (ADStr (strftime fmt_YmdHM t)) = Ok (to_minute t).
Proof.
  intros V. unfold sounding_time.
  assert (D : forallb is_digit (strftime fmt_YmdHM t) = true) by (rewrite strftime_pieces by assumption; apply pieces_digits).
  rewrite upper_digits by exact D. destruct (is_F_digits _ D) as [-> _]. apply strptime_strftime. exact V.
Qed.
Lemma sounding_forecast t k h c : valid_dt t = true -> c = 70 \/ c = 102 -> (1 <= k)%nat -> 0 <= h < 10 ^ Z.of_nat k ->
  sounding_time (ADStr (strftime fmt_YmdHM t ++ c :: fixed k h)) = add_minutes (to_minute t) (60 * h).
Proof.
  intros V Hc Hk Hh. unfold sounding_time.
  assert (D : forallb is_digit (strftime fmt_YmdHM t) = true) by (rewrite strftime_pieces by assumption; apply pieces_digits).
  assert (D2 : forallb is_digit (fixed k h) = true) by apply fixed_digits.
  rewrite upper_app. rewrite upper_digits by exact D. cbn [upper map]. change (map upper_c (fixed k h)) with (upper (fixed k h)).
  rewrite upper_digits by exact D2. replace (upper_c c) with 70 by (destruct Hc; subst; reflexivity).
  destruct (is_F_digits _ D) as [_ F1]. destruct (is_F_digits _ D2) as [_ F2].
  rewrite existsb_app. cbn [existsb]. change (is_F 70) with true. rewrite orb_true_r. cbn [orb].
  rewrite split_on_one by (try assumption; reflexivity). rewrite strptime_strftime by exact V. cbn [bind].
  rewrite py_int_fixed by lia. rewrite Z.mod_small by lia. reflexivity.
Qed.
