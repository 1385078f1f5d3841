(** Writing a sounding or surface file and reading it back. *)
From Coq Require Import Lia ZifyBool ZifyNat Permutation QArith.
From Verif Require Import Base BaseFacts Floats Strings StringsFacts Dates SpecDates DatesFacts Headers Order OrderFacts
  DmFile DmHookFacts DmReadFacts Station StationFacts StationRead StationCellFacts SpecStation CoordEq HistoryFacts CallFacts.
Open Scope Z_scope.

Lemma combine_map {A B C} (f : A -> B) (g : A -> C) l : combine (map f l) (map g l) = map (fun x => (f x, g x)) l.
Proof. induction l; cbn; congruence. Qed.
Lemma concat_singles {A B} (f : A -> B) l : concat (map (fun x => [f x]) l) = map f l.
Proof. induction l; cbn; congruence. Qed.

Lemma values_keys k names cols : length cols = length names -> map fst (values_of k names cols) = map clean names.
Proof.
  unfold values_of. revert cols. induction names as [|m names IH]; intros [|d cols] L; try discriminate L; [reflexivity|].
  cbn. rewrite IH by (cbn in L; lia). reflexivity.
Qed.
Lemma values_get k names cols n c r : NoDup (map clean names) -> length cols = length names ->
  In (n, c) (combine names cols) -> get (clean n) (update r (values_of k names cols)) = Some (val_of k c).
Proof.
  intros ND L H. apply get_update.
  - rewrite values_keys by exact L. exact ND.
  - unfold values_of. revert cols L H. clear ND. induction names as [|m names IH]; intros [|d cols] L H; try discriminate L; [destruct H|].
    cbn [combine map] in *. destruct H as [H|H]; [injection H as -> ->; left; reflexivity|right; apply IH; [cbn in L; lia|exact H]].
Qed.

Section RT.
  Variables (k : kind) (e : endian) (params : list str) (calls : list call) (o0 o o' : sfile) (b : bytes).
  Hypothesis H0 : new_file k params false = Ok o0.
  Hypothesis HA : add_all o0 calls = Ok o.
  Hypothesis HW : save e o = (o', Ok b).
  Hypothesis HCalls : Forall (call_ok k) calls.
  Hypothesis HN : names_ok k (param_names params).
  Let names := param_names params.
  Let opx (c : call) : op := ((row_arg c, station_arg k c), cols_arg names c).

  Lemma history : after k names (map opx calls) o /\
    Forall (fun c => (exists t, sounding_time (c_time c) = Ok t) /\ shaped k names (cols_arg names c)) calls.
  Proof.
    pose proof (after_new _ _ _ _ H0) as A0. destruct (new_file_names _ _ _ _ H0) as (EN & _). rewrite EN in A0.
    destruct (after_all _ _ _ _ _ _ A0 HA) as (ops & F & A). cbn [app] in A. fold names in F, A.
    assert (X : ops = map opx calls /\ Forall (fun c => (exists t, sounding_time (c_time c) = Ok t) /\ shaped k names (cols_arg names c)) calls).
    { clear A A0 HA. induction F as [|c x cs xs Hc F IH]; [split; [reflexivity|constructor]|].
      inversion HCalls as [|? ? C1 C2]; subst. destruct (IH C2) as [-> I2].
      apply check_call_spec in Hc as (-> & Ht & HL & HD). split; [reflexivity|]. constructor; [|exact I2].
      split; [exact Ht|]. eapply cols_arg_shaped; eassumption. }
    destruct X as [-> X]. auto.
  Qed.

  Let val (c : call) n := val_of k (map fill_nan (given n c)).
  Lemma val_expected c n : shaped k names (cols_arg names c) -> In n names -> val c n = stored_values k (given n c).
  Proof.
    intros [_ HS] Hn. unfold val, val_of, stored_values. destruct k; [f_equal; rewrite map_map; reflexivity|].
    f_equal. unfold stored_value. rewrite Forall_forall in HS.
    assert (L : length (map fill_nan (given n c)) = 1%nat) by (apply HS; unfold cols_arg; exact (in_map (fun n => map fill_nan (given n c)) _ _ Hn)).
    destruct (given n c) as [|x l]; [discriminate L|]. reflexivity.
  Qed.

  Lemma clean_firstn (s : str) : clean (firstn 4 s) = field4 s.
  Proof. unfold clean, field4. rewrite firstn_firstn. reflexivity. Qed.

  Lemma entry_match x c : In x (kept o) -> In c calls -> key_cmp (cell_key x) (fst (opx c)) = Eq -> cell_data o x = Some (snd (opx c)) ->
    reported k names (listing_at k (fst (fst x)) (snd (fst x)) (fst (snd x)) (snd (snd x)),
      update (head_rec k (snd (fst x)) (snd (snd x))) (values_of k names (cols_arg names c))) = expected k names c.
  Proof.
    intros Hx Hc EK ED. destruct history as [A HF]. pose proof (proj1 (Forall_forall _ _) HCalls) as HCl. rewrite Forall_forall in HF.
    destruct (HF c Hc) as [_ SH]. pose proof (HCl c Hc) as (_ & _ & CA & CO & _ & PI).
    destruct x as [[i r] [j s]]. cbn [fst snd cell_key opx] in *.
    unfold key_cmp in EK. cbn [fst snd] in EK. apply then_cmp_eq in EK as [ER ES].
    assert (ER' : r = row_arg c).
    { unfold row_cmp in ER. apply then_cmp_eq in ER as [E1 E2]. apply date_cmp_eq in E1. apply time_cmp_eq in E2.
      destruct r. cbn in E1, E2. unfold row_arg. congruence. }
    subst r. unfold station_cmp in ES. rewrite !then_cmp_eq, !str_cmp_eq, !Z.compare_eq_iff in ES.
    destruct ES as (E1 & E2 & E3 & E4 & E5 & E6 & E7 & E8 & E9).
    cbn [cell_key fst snd station_arg s_id s_nm s_lat s_lon s_elv s_stat s_coun s_id2 s_pri] in E1, E2, E3, E4, E5, E6, E7, E8, E9.
    (* the stored station is that of some call, so its coordinates are proper *)
    assert (Hs : exists c', In c' calls /\ s = station_arg k c').
    { unfold kept in Hx. apply filter_In in Hx as [Hx _]. apply in_prod_iff in Hx as [_ Hx].
      assert (Hs : In s (sf_col_headers o)) by (rewrite <- (indexed_snd (sf_col_headers o)); exact (in_map snd _ _ Hx)).
      destruct (col_header_in _ _ _ _ A s Hs) as (y & Hy & <-). apply in_map_iff in Hy as (c' & <- & Hc'). exists c'. auto. }
    destruct Hs as (c' & Hc' & Es). pose proof (HCl c' Hc') as (_ & _ & CA' & CO' & _ & PI').
    assert (CL : coord_back (s_lat s) = stored_coord (num_arg (c_lat c))).
    { unfold coord_back, stored_coord. rewrite (coord_same (s_lat s) (num_arg (c_lat c))); [reflexivity|subst s; exact CA'|exact CA|exact E3]. }
    assert (CN : coord_back (s_lon s) = stored_coord (num_arg (c_lon c))).
    { unfold coord_back, stored_coord. rewrite (coord_same (s_lon s) (num_arg (c_lon c))); [reflexivity|subst s; exact CO'|exact CO|exact E4]. }
    unfold reported, listing_at, expected. cbn [ls_time ls_id ls_number ls_lat ls_lon ls_elev ls_state ls_country].
    rewrite CL, CN, E1, E2, E5, E6, E7, E8, !clean_firstn.
    destruct (new_file_names _ _ _ _ H0) as (EN & _ & FO). rewrite EN in FO. fold names in FO.
    assert (EP : int_back (s_pri s) = match pri_arg k c with PInt z => z | PFloat _ => 0 end).
    { subst s. cbn [station_arg s_pri] in *. destruct (pri_arg k c') as [z'|], (pri_arg k c) as [z|]; try contradiction.
      unfold num_cmp in E9. apply then_cmp_eq in E9 as [_ E9]. cbn [num_value] in E9. apply Qeq_alt in E9.
      rewrite inject_Z_injective in E9. exact E9. }
    f_equal.
    - destruct k; [apply app_nil_r|reflexivity].
    - pose proof (clean_names _ FO) as CLN. rewrite forallb_forall in FO.
      apply map_ext_in. intros n Hn.
      rewrite <- (field_ok_clean n) by (apply FO; exact Hn).
      rewrite (values_get k names _ n (map fill_nan (given n c))).
      + f_equal. apply val_expected; assumption.
      + rewrite CLN. exact (proj1 HN).
      + unfold cols_arg. apply map_length.
      + unfold cols_arg. rewrite <- (map_id names) at 1. rewrite combine_map. exact (in_map (fun n => (n, map fill_nan (given n c))) _ _ Hn).
    - assert (HG : forall key, is_param names key = false ->
        get key (update (head_rec k (row_arg c) s) (values_of k names (cols_arg names c))) = get key (head_rec k (row_arg c) s)).
      { intros key HK. apply get_update_other. rewrite values_keys by (unfold cols_arg; apply map_length).
        rewrite (clean_names _ FO). intros HI. apply in_map_iff in HI as (n & En & Hn).
        assert (X : is_param names key = true) by (apply existsb_exists; exists n; split; [exact Hn|apply str_eqb_spec; congruence]).
        congruence. }
      transitivity (map (fun key => if is_param names key then None else get key (head_rec k (row_arg c) s)) (header_keys k)).
      + apply map_ext. intros key. destruct (is_param names key) eqn:EI; [reflexivity|]. rewrite HG by exact EI. reflexivity.
      + unfold head_rec, header_keys, record_header, row_arg. rewrite CL, CN, E1, E2, E5, E6, E7, E8, !clean_firstn, EP.
        generalize (is_param names) as ip. intros ip. destruct k; reflexivity.
  Qed.

  (** The exact listing and records: they do not depend on the byte order. *)
  Definition listings : list listing := map (fun x : cell => listing_at k (fst (fst x)) (snd (fst x)) (fst (snd x)) (snd (snd x))) (kept o).
  Definition records : list record := map (fun x : cell => update (head_rec k (snd (fst x)) (snd (snd x)))
    (values_of k names (match cell_data o x with Some c => c | None => [] end))) (kept o).
  Theorem round_trip_exact : exists f,
    open_station k b = Ok f /\ gf_endian (rf_file f) = e /\ info f = Ok listings /\
    unpack f (map (fun l => (ls_row l, ls_col l)) listings) = Ok records /\ length records = length listings /\
    Permutation (map (reported k names) (combine listings records)) (map (expected k names) (keep_last (same_entry k) calls)).
  Proof.
    destruct history as [A HF]. rewrite Forall_forall in HF.
    pose proof (after_coherent _ _ _ _ A) as HC.
    remember (head_pointers (sf_head o)) as p eqn:HP. symmetry in HP.
    assert (HS : saved e o p b) by (eapply save_saved; eassumption).
    assert (HR : Forall row_ok (sf_row_headers o)).
    { pose proof (proj1 (Forall_forall _ _) HCalls) as HCl. apply Forall_forall. intros r Hr. destruct (row_header_in _ _ _ _ A r Hr) as (y & Hy & <-).
      apply in_map_iff in Hy as (c & <- & Hc). destruct (HF c Hc) as [(t & Ht) _].
      eapply row_arg_ok; [apply HCl; exact Hc|exact Ht]. }
    destruct (open_saved e o p b HC HR HS) as (nf & HO). rewrite (af_kind _ _ _ _ A) in HO.
    set (f := opened e o p b nf) in *.
    pose proof (info_f e o p b nf HC HS HP) as HI. fold f in HI. rewrite (af_kind _ _ _ _ A) in HI.
    set (lst := fun x : cell => listing_at k (fst (fst x)) (snd (fst x)) (fst (snd x)) (snd (snd x))) in *.
    set (colsx := fun x : cell => match cell_data o x with Some c => c | None => [] end).
    set (rec := fun x : cell => update (head_rec k (snd (fst x)) (snd (snd x))) (values_of k names (colsx x))).
    exists f. change listings with (map lst (kept o)). change records with (map rec (kept o)).
    assert (KD : forall x, In x (kept o) -> In x (grid o) /\ exists c, In c calls /\ key_cmp (cell_key x) (fst (opx c)) = Eq /\ cell_data o x = Some (snd (opx c))).
    { intros x Hx. unfold kept in Hx. apply filter_In in Hx as [Hg Hx]. split; [exact Hg|]. unfold filled in Hx.
      destruct (cell_data o x) as [v|] eqn:ED; [|discriminate Hx]. rewrite (cell_data_of _ _ _ _ A) in ED.
      apply (dict_of_some _ good_key) in ED as (y & Hy & EK & <-). apply keep_last_in in Hy.
      apply in_map_iff in Hy as (c & <- & Hc). exists c. auto. }
    assert (PN : plain_names o).
    { destruct (new_file_names _ _ _ _ H0) as (EN & _ & FO). rewrite EN in FO. unfold plain_names.
      rewrite (af_kind _ _ _ _ A), (af_names _ _ _ _ A). unfold names. rewrite (clean_names _ FO).
      destruct HN as [N1 N2]. split; [exact N1|]. exact N2. }
    split; [exact HO|]. split; [reflexivity|]. split; [exact HI|]. split; [|split].
    - unfold unpack. rewrite map_map.
      assert (EU : mapM (fun '(i, j) => unpack_cell f i j) (map (fun x => (ls_row (lst x), ls_col (lst x))) (kept o)) = Ok (map (fun x => [rec x]) (kept o))).
      { apply mapM_map_ok. intros x Hx. destruct (KD x Hx) as (Hg & c & Hc & _ & ED).
        destruct (HF c Hc) as [_ SH].
        pose proof (unpack_cell_f e o p b nf HC HS HP x (snd (opx c)) PN Hg ED) as U.
        rewrite (af_kind _ _ _ _ A), (af_names _ _ _ _ A) in U. specialize (U SH). unfold rec, colsx. rewrite ED. exact U. }
      rewrite EU. cbn [bind]. rewrite concat_singles. reflexivity.
    - rewrite !map_length. reflexivity.
    - rewrite combine_map, map_map.
      apply (kept_ops _ _ _ _ A opx calls).
      + reflexivity.
      + intros x y. apply same_entry_key.
      + intros x y Hx Hy EK ED. rewrite <- (entry_match x y Hx Hy EK ED). unfold rec, colsx. rewrite ED. reflexivity.
  Qed.
  Theorem round_trip : exists f ls recs,
    open_station k b = Ok f /\ info f = Ok ls /\
    unpack f (map (fun l => (ls_row l, ls_col l)) ls) = Ok recs /\ length recs = length ls /\
    Permutation (map (reported k names) (combine ls recs)) (map (expected k names) (keep_last (same_entry k) calls)).
  Proof. destruct round_trip_exact as (f & H1 & _ & H2). exists f, listings, records. split; assumption. Qed.
End RT.
