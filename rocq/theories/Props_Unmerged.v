(** Properties C77, C78: unmerged sounding files. *)
From Coq Require Import Lia ZifyBool ZifyNat QArith Ascii String Permutation.
From Verif Require Import Base BaseFacts Layout Floats Structs Strings Dates Headers Order OrderFacts DmFile DmHookFacts
  Station Text StationRead StationFacts HistoryFacts Query SpecQuery QueryFacts SnOut SpecSnOut SnOutFacts Unmerged SpecUnmerged UnmergedFacts.
From Verif Require Calc Merge CalcNum Props_SnOut Props_Query.
From Coq Require Import List.
Open Scope Z_scope.

(** ** C77: the datasets of an unmerged file *)
(** [W], [num_of] and [flt_of] are the arithmetic of the merging, [of_q] the float nearest an unpacked real. *)
Lemma listed_cell f l x : headers_valid f -> info f = Ok l -> In x l -> listing_of f (ls_row x) (ls_col x) = Ok x.
Proof.
  intros HV H HI. unfold info in H. apply mapM_ok_Forall2 in H. apply (Forall2_in_r _ _ _ _ H) in HI as ([i j] & _ & HI).
  destruct (listing_of_valid _ _ _ _ HV HI) as (_ & -> & ->). exact HI.
Qed.
Theorem C77_unmerged_datasets : forall of_q W num_of flt_of fuel d f a dss,
  open_station KSounding d = Ok f -> snxarray_unmerged of_q W num_of flt_of fuel f a = Ok dss ->
  exists l sel os, info f = Ok l /\ st_select KSounding l a = Ok sel /\
    (* each selected sounding's own parts, merged, under its own headers; nothing for one without levels *)
    Forall2 (merged_of num_of flt_of of_q fuel f) sel os /\
    Forall2 (fun r ds => exists order levels, shows (widen (lb_missing_float (gf_label (rf_file f)))) r ds order levels) (somes os) dss.
Proof.
  intros of_q W num_of flt_of fuel d f a dss HO H. pose proof (open_station_ascii _ _ _ HO) as AN. pose proof (open_sounding_type _ _ HO) as T.
  pose proof (open_station_headers _ _ _ HO) as HV. unfold snxarray_unmerged in H.
  destruct (info f) as [l|] eqn:EI; cbn [bind] in H; [|discriminate H].
  destruct (st_select KSounding l a) as [sel|] eqn:ES; cbn [bind] in H; [|discriminate H].
  destruct (mapM _ sel) as [os|] eqn:EM; cbn [bind] in H; [|discriminate H]. exists l, sel, os. do 2 (split; [reflexivity || assumption|]).
  destruct (info_spec f l HV EI) as [TV _]. destruct (st_select_spec KSounding l a TV) as [S1 _]. destruct (S1 _ ES) as (_ & SI & _).
  apply mapM_ok_Forall2 in EM. apply mapM_ok_Forall2 in H.
  assert (LC : forall x, In x sel -> listing_of f (ls_row x) (ls_col x) = Ok x) by (intros x Hx; apply SI in Hx as [Hx _]; exact (listed_cell f l x HV EI Hx)).
  split.
  - clear - EM LC AN T. induction EM as [|x o sel os E EM IH]; constructor.
    + apply (cell_merged _ _ _ _ _ _ _ _ AN T); [exact (LC x (or_introl eq_refl))|exact E].
    + apply IH. intros y Hy. exact (LC y (or_intror Hy)).
  - assert (KO : Forall keys_ok (somes os)).
    { clear - EM T. induction EM as [|x o sel os E EM IH]; [constructor|]. destruct o as [r|]; [|exact IH]. constructor; [exact (cell_keys _ _ _ _ _ _ _ _ _ T E)|exact IH]. }
    eapply Props_SnOut.Forall2_with; [|exact KO|exact H]. intros r ds K D. exact (dataset_shows _ _ _ K D).
Qed.
Print Assumptions C77_unmerged_datasets.
(** A dataset is returned for every sounding that merges, when the levels above 100 hPa are stored
    with all their quantities. *)
Theorem C77_returned : forall of_q W num_of flt_of fuel d f a l sel os,
  open_station KSounding d = Ok f -> info f = Ok l -> st_select KSounding l a = Ok sel ->
  mapM (fun x => unmerged_cell of_q W num_of flt_of fuel f (ls_row x) (ls_col x)) sel = Ok os ->
  stores_all f [84;84;67;67] ->
  exists dss, snxarray_unmerged of_q W num_of flt_of fuel f a = Ok dss.
Proof.
  intros of_q W num_of flt_of fuel d f a l sel os HO EI ES EM HS. pose proof (open_station_ascii _ _ _ HO) as AN. pose proof (open_sounding_type _ _ HO) as T.
  pose proof (open_station_headers _ _ _ HO) as HV. unfold snxarray_unmerged. rewrite EI. cbn [bind]. rewrite ES. cbn [bind]. rewrite EM. cbn [bind].
  destruct (info_spec f l HV EI) as [TV _]. destruct (st_select_spec KSounding l a TV) as [S1 _]. destruct (S1 _ ES) as (_ & SI & _).
  assert (LC : forall x, In x sel -> listing_of f (ls_row x) (ls_col x) = Ok x) by (intros x Hx; apply SI in Hx as [Hx _]; exact (listed_cell f l x HV EI Hx)).
  apply mapM_ok_Forall2 in EM. clear - EM LC AN T HS. induction EM as [|x o sel os E EM IH]; [eexists; reflexivity|].
  destruct IH as (dss & ED); [intros y Hy; exact (LC y (or_intror Hy))|]. destruct o as [r|]; [|exists dss; exact ED].
  destruct (complete_dataset (widen (missing_of f)) r) as (ds & ER); [exact (cell_keys _ _ _ _ _ _ _ _ _ T E)|exact (cell_complete _ _ _ _ _ _ _ _ AN T HS (LC x (or_introl eq_refl)) E)|].
  exists (ds :: dss). unfold somes in *. cbn [flat_map app mapM]. rewrite ER. cbn [bind]. rewrite ED. reflexivity.
Qed.
Print Assumptions C77_returned.

(** ** A file of two stations with parts TTAA, TTCC, PPBB and TXTA *)
Definition ex_part (name : str) (names : list str) : part := let zs := repeat 0 (length names) in mk_part name 1 1 names zs zs zs.
Definition n_PTDRSH : list str := [[80;82;69;83]; [84;69;77;80]; [68;87;80;84]; [68;82;67;84]; [83;80;69;68]; [72;71;72;84]].
Definition ex_parts : list part :=
  [ex_part [84;84;65;65] n_PTDRSH; ex_part [84;84;67;67] n_PTDRSH; ex_part [80;80;66;66] [[80;82;69;83]; [68;82;67;84]; [83;80;69;68]];
   mk_part [84;88;84;65] 1 3 [[84;69;88;84]] [0] [0] [0]].
Definition ex_station (id : str) (n : Z) : station := mk_stn id n (PInt 35) (PInt (-97)) 500 [79;75] [85;83] [] (PInt 0).
Definition ex_row : row := (mk_date 2024 2 29, mk_time 12 0 0 0).
(* the table: for each station and part, the values level by level, or a text *)
Inductive ex_block := Nums (l : list Z) | Chars (l : list bytes).
Definition ex_words (b : ex_block) : res (list bytes) :=
  ws <- match b with Nums l => mapM (fun v => pack_f32 LE (of_Z v)) l | Chars l => Ok l end ;;
  w1 <- pack_i32 LE (1 + Zlen ws) ;; w2 <- pack_i32 LE 1200 ;; Ok (w1 :: w2 :: ws).
Definition ex_write (table : list (list (option ex_block))) : res bytes :=
  let h := mk_head row_names (column_names KSounding) [] ex_parts 1 2 2 4 in
  let p := head_pointers h in
  let items := flat_map (fun '(j, cell) => map (fun '(k, b) => (data_block_ptr p + j * 4 + k, option_map ex_words b)) (indexed cell)) (indexed table) in
  r <- to_gempak_at LE h p (fun s => Ok s)
         (write_headers LE 1 (Zlen row_names) (row_words LE) [ex_row])
         (write_headers LE 2 (Zlen (column_names KSounding)) (column_words LE KSounding) [ex_station [79;85;78] 72357; ex_station [68;70;87] 72249])
         (write_items LE items (next_free_word p)) ;;
  Ok (fst r).
Definition MI : Z := -9999.
(* the text of the first station: 'TTAA 79121' *)
Definition ex_table : list (list (option ex_block)) :=
  [[Some (Nums [950; 10; MI; 180; 10; 500;  1000; MI; MI; MI; MI; 100;  850; 5; MI; MI; MI; 1500]); Some (Nums [70; -60; MI; 270; 30; 18000]);
    Some (Nums [950; MI; MI; 850; 185; 12]); Some (Chars [[84;84;65;65]; [32;55;57;49]; [50;49;32;32]])];
   [Some (Nums [950; 11; MI; 180; 10; 500;  850; 6; MI; 190; 20; 1500]); None; None; None]].
Definition ex_bytes : bytes := match ex_write ex_table with Ok b => b | Err _ => [] end.
Definition ex_opened : res rfile := open_station KSounding ex_bytes.
(* pressures and winds of the datasets; the values unpacked from integers do not occur here *)
Definition no_q (q : Q) : flt := S754_nan.
Definition ex_view (ds : dataset) : dval * list lval * record := (ds_id ds, ds_levels ds, ds_text ds).
Definition ex_W : Calc.arith := CalcNum.f64 (fun x => x) (fun x => x) (fun x y => x).
Definition of_ok {X} (r : res X) : option X := match r with Ok x => Some x | Err _ => None end.
Definition ex_look (dss : list dataset) : list (dval * list lval * record) * option (option (list (option lval))) :=
  (map ex_view dss, option_map (fun ds => dict_get str_cmp [100;114;99;116] (ds_vars ds)) (hd_error dss)).
Lemma ex_opens : option_map (fun f => (merged f, map (fun x => (rp_name (fst (snd x)), rq_name (snd (snd x)))) (file_parts f))) (of_ok ex_opened) =
  Some (false, map (fun p => (pt_name p, pt_parameters p)) ex_parts).
Proof. vm_compute. reflexivity. Qed.
Lemma ex_returns : option_map ex_look (of_ok (bind ex_opened (fun f => snxarray_unmerged no_q ex_W widen (fun x => x) 10 f Props_SnOut.all_stations))) =
  Some ([(DHead (HText [79;85;78]), map (fun z => LF (of_Z z)) [1000; 950; 850; 70], [([84;88;84;65], DStr [84;84;65;65;32;55;57;49;50;49])]); (DHead (HText [68;70;87]), map (fun z => LF (of_Z z)) [950; 850], [])],
        Some (Some (None :: map (fun z => Some (LF (of_Z z))) [180; 185; 270]))).
Proof. vm_compute. reflexivity. Qed.
Example C77_example :
  exists f dss, ex_opened = Ok f /\ merged f = false /\ stores_all f [84;84;67;67] /\
    snxarray_unmerged no_q ex_W widen (fun x => x) 10 f Props_SnOut.all_stations = Ok dss /\
    map ex_view dss = [(DHead (HText [79;85;78]), map (fun z => LF (of_Z z)) [1000; 950; 850; 70], [([84;88;84;65], DStr [84;84;65;65;32;55;57;49;50;49])]);
                       (DHead (HText [68;70;87]), map (fun z => LF (of_Z z)) [950; 850], [])] /\
    (* the directions of the first: missing at 1000 hPa, from the significant winds at 850 hPa *)
    option_map (fun ds => dict_get str_cmp [100;114;99;116] (ds_vars ds)) (hd_error dss) =
      Some (Some (None :: map (fun z => Some (LF (of_Z z))) [180; 185; 270])).
Proof.
  pose proof ex_opens as SA. pose proof ex_returns as V. destruct ex_opened as [f|]; [|discriminate SA]. cbn [bind of_ok option_map] in SA, V.
  injection SA as M SA. exists f. destruct (snxarray_unmerged _ _ _ _ _ _ _) as [dss|]; [|discriminate V]. exists dss.
  cbn [of_ok option_map] in V. injection V as V1 V2. split; [reflexivity|]. split; [exact M|]. split; [|auto].
  intros n part q HI HN k HK. assert (X : In (rp_name part, rq_name q) (map (fun p => (pt_name p, pt_parameters p)) ex_parts)).
  { refine (eq_ind _ (fun l => In _ l) _ _ SA). apply in_map_iff. exists (n, (part, q)). auto. }
  cbn [map ex_parts In] in X. rewrite HN in X. destruct X as [[= X]|[[= X]|[[= X]|[[= X]|[]]]]]; try discriminate X. rewrite <- X.
  cbn [In] in HK |- *. unfold n_PTDRSH. cbn. intuition.
Qed.

(** ** C78: every stored sounding is listed *)
Lemma cells_in f i j : rf_type f <> Ship -> In (i, j) (cells f) <-> is_cell f i j.
Proof.
  intros T. unfold cells, is_cell. destruct (rf_type f); try congruence; rewrite in_prod_iff, !zrange_in; reflexivity.
Qed.
Lemma listed_present f l i j : headers_valid f -> info f = Ok l -> is_listed l i j <-> In (i, j) (cells f) /\ present f i j = true.
Proof.
  intros HV H. unfold info in H. apply mapM_ok_Forall2 in H. split.
  - intros (x & HI & <- & <-). apply (Forall2_in_r _ _ _ _ H) in HI as ([i j] & HC & HI). destruct (listing_of_valid _ _ _ _ HV HI) as (_ & -> & ->).
    apply filter_In in HC. exact HC.
  - intros HC. apply (filter_In (fun '(i, j) => present f i j)) with (x := (i, j)) in HC. destruct (Forall2_in_l' _ _ _ _ H HC) as (x & HI & HX). exists x. split; [exact HI|].
    destruct (listing_of_valid _ _ _ _ HV HX) as (_ & -> & ->). auto.
Qed.
Lemma parts_some k d f : open_station k d = Ok f -> 1 <= Zlen (gf_parts (rf_file f)).
Proof.
  unfold open_station. intros H. destruct (open_gempak d) as [g|] eqn:G; cbn [bind] in H; [|discriminate H]. cbv zeta in H.
  assert (R : rf_file f = g) by (repeat match type of H with (_ <- ?m ;; _) = Ok _ => destruct m; cbn [bind] in H; [|discriminate H] end; apply ok_inj in H; subst f; reflexivity).
  rewrite R. clear - G. unfold open_gempak in G. cbv zeta in G. repeat match type of G with
    | (_ <- ?m ;; _) = Ok _ => let x := fresh "x" in let E := fresh "E" in destruct m as [x|] eqn:E; cbn [bind] in G; [|discriminate G]
    end. apply ok_inj in G. subst g. cbn [gf_parts].
  match goal with E : read_parts _ _ _ _ = Ok _ |- _ => rename E into ERP end. unfold read_parts in ERP. destruct (_ <? 1) eqn:N in ERP; [discriminate ERP|].
  apply mapM_ok_Forall2 in ERP.
  assert (L : forall A B (P : A -> B -> Prop) a b, Forall2 P a b -> length a = length b) by (intros A B P a b F; induction F; cbn; congruence).
  apply L in ERP. rewrite zrange_length in ERP. unfold Zlen. lia.
Qed.
(** Soundings: exactly those whose first part is stored. *)
Theorem C78_listed_partial : forall d f l i j,
  open_station KSounding d = Ok f -> info f = Ok l ->
  is_listed l i j <-> is_cell f i j /\ block_at f i j 0.
Proof.
  intros d f l i j HO HI. pose proof (open_station_headers _ _ _ HO) as HV. pose proof (open_sounding_type _ _ HO) as T.
  rewrite (listed_present f l i j HV HI), (cells_in f i j) by congruence. unfold present, block_at. rewrite T, negb_true_iff, Z.eqb_neq.
  pose proof (parts_some _ _ _ HO) as N. split; intros [H1 H2]; (split; [exact H1|]); [split; [lia|exact H2]|apply H2].
Qed.
Print Assumptions C78_listed_partial.
Lemma surface_types d f : open_station KSurface d = Ok f -> rf_type f <> Sounding /\ (rf_type f = Ship -> Zlen (rf_rows f) = 1).
Proof.
  unfold open_station. intros H. repeat match type of H with context [bind ?m _] => let E := fresh "E" in destruct m as [?|] eqn:E; cbn [bind] in H; [cbv zeta in H|discriminate H] end.
  apply ok_inj in H. subst f. cbn [rf_type rf_rows]. match goal with E : surface_type _ _ = _ |- _ => revert E end. unfold surface_type.
  match goal with |- context [(length ?l =? 1)%nat] => destruct (Nat.eqb_spec (length l) 1) as [L|L] end; cbn [andb].
  - destruct (_ && _) in |- *; [intros [= <-]; split; [discriminate|intros _; unfold Zlen; lia]|]. destruct (_ && _) in |- *; [intros [= <-]; split; discriminate|].
    destruct (_ && _) in |- *; [intros [= <-]; split; discriminate|discriminate].
  - destruct (_ && _) in |- *; [intros [= <-]; split; discriminate|]. destruct (_ && _) in |- *; [intros [= <-]; split; discriminate|discriminate].
Qed.
(** Surface reports, ship files included: exactly those of which any part is stored. *)
Theorem C78_surface_listed : forall d f l i j,
  open_station KSurface d = Ok f -> info f = Ok l ->
  is_listed l i j <-> is_cell f i j /\ exists iprt, block_at f i j iprt.
Proof.
  intros d f l i j HO HI. pose proof (open_station_headers _ _ _ HO) as HV. destruct (surface_types _ _ HO) as [NS SH].
  assert (C : In (i, j) (cells f) <-> is_cell f i j).
  { destruct (rf_type f) eqn:T; try (apply cells_in; congruence). specialize (SH eq_refl). unfold cells, is_cell. rewrite T, SH, in_map_iff. split.
    - intros (c & [= <- <-] & H). rewrite zrange_in in H. lia.
    - intros [HI' HJ]. exists j. rewrite zrange_in. split; [f_equal; lia|exact HJ]. }
  rewrite (listed_present f l i j HV HI), C. apply iff_and; [reflexivity|].
  unfold present, block_at. assert (E : existsb (fun p => negb (data_ptr f i j p =? 0)) (zrange (Zlen (gf_parts (rf_file f)))) = true <->
    exists iprt, 0 <= iprt < Zlen (gf_parts (rf_file f)) /\ data_ptr f i j iprt <> 0).
  { rewrite existsb_exists. split; intros (p & H1 & H2); exists p; rewrite zrange_in in *; rewrite negb_true_iff, Z.eqb_neq in *; auto. }
  destruct (rf_type f); [contradiction|exact E..].
Qed.
Print Assumptions C78_surface_listed.
(** The second station's balloon gave only the levels above 100 hPa and winds: they are stored, and not listed. *)
Definition ex_lost : bytes :=
  match ex_write [[Some (Nums [950; 10; MI; 180; 10; 500]); None; None; None]; [None; Some (Nums [70; -60; MI; 270; 30; 18000]); Some (Nums [950; 175; 12]); None]] with Ok b => b | Err _ => [] end.
Lemma ex_loses : option_map (fun f => (data_ptr f 0 1 0, data_ptr f 0 1 1 =? 0, Zlen (rf_rows f), Zlen (rf_cols f), Zlen (gf_parts (rf_file f)),
     option_map (map (fun x => (ls_row x, ls_col x))) (of_ok (info f)))) (of_ok (open_station KSounding ex_lost)) =
  Some (0, false, 1, 2, 4, Some [(0, 0)]).
Proof. vm_compute. reflexivity. Qed.
Theorem C78_refuted : exists d f l i j iprt,
  open_station KSounding d = Ok f /\ info f = Ok l /\ is_cell f i j /\ block_at f i j iprt /\ ~ is_listed l i j.
Proof.
  exists ex_lost. pose proof ex_loses as L. destruct (open_station KSounding ex_lost) as [f|]; [|discriminate L]. exists f. cbn [of_ok option_map] in L.
  injection L as L1 L2 L3 L4 L5 L6. destruct (info f) as [l|]; [|discriminate L6]. cbn [of_ok option_map] in L6. injection L6 as L6.
  exists l, 0, 1, 1. split; [reflexivity|]. split; [reflexivity|]. unfold is_cell, block_at. rewrite L3, L4, L5. rewrite Z.eqb_neq in L2.
  split; [lia|]. split; [split; [lia|exact L2]|]. intros (x & HI & H1 & H2).
  assert (X : In (ls_row x, ls_col x) (map (fun x => (ls_row x, ls_col x)) l)) by (apply in_map_iff; eauto).
  rewrite L6, H1, H2 in X. destruct X as [[= X]|[]].
Qed.
Print Assumptions C78_refuted.
(** Files that open, with a listed and a missing cell each *)
Example C78_example :
  option_map (fun f => (rf_type f, option_map (map (fun x => (ls_row x, ls_col x))) (of_ok (info f)), Zlen (rf_rows f), Zlen (rf_cols f))) (of_ok (open_station KSounding ex_lost)) =
    Some (Sounding, Some [(0, 0)], 1, 2) /\
  option_map (fun f => (rf_type f, option_map (map (fun x => (ls_row x, ls_col x))) (of_ok (info f)), Zlen (rf_rows f), Zlen (rf_cols f))) (of_ok (open_station KSurface Props_Query.ex_sf_bytes)) =
    Some (Standard, Some [(0, 1); (1, 0)], 2, 2).
Proof. split; vm_compute; reflexivity. Qed.
