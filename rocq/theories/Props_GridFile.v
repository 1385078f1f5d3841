(** Grid files written and read back. *)
From Coq Require Import Lia ZifyBool ZifyNat QArith Qabs Lqa Permutation Sorted.
From Verif Require Import Base BaseFacts Floats FloatsFacts Strings StringsFacts Dates SpecDates DatesFacts Headers HeadersFacts
  SpecGrib Grib GribFacts GribQFacts Props_Grib Order OrderFacts DmFile DmHookFacts DmReadFacts Station StationFacts StationRead SpecStation HistoryFacts Layout FileFacts Props_Station Props_File
  Real RoundFacts CoordFacts Grid GridRead SpecGrid GridFacts GridDataFacts GridHistoryFacts.
Open Scope Z_scope.

(** ** C06 *)
Lemma qeq_values packed bits n r s s' m m' out : (s == s')%Q -> (m == m')%Q ->
  unpack_grib packed bits n r s (Some m) = Ok out ->
  exists out', unpack_grib packed bits n r s' (Some m') = Ok out' /\ Forall2 Qeq out out'.
Proof.
  intros ES EM H. unfold unpack_grib in *. destruct (unpack_words packed bits n) as [us|]; cbn [bind] in *; [|discriminate H].
  apply ok_inj in H. subst out. eexists. split; [reflexivity|].
  induction us as [|u us IH]; [constructor|]. cbn [map]. constructor; [|exact IH].
  unfold reconstruct. destruct (u =? _); [exact EM|]. rewrite ES. reflexivity.
Qed.

(** What reading a grid gives, as a function of the call. *)
Definition stored_ref (ref : Q) : Q := q_of (np32 (flt_of_Q ref)).
Definition grid_read (g : geom) (bits : Z) (q : gcall) : list gcells :=
  match pack_grib (map q_of (cells_of q)) (q_of missing_float) bits with
  | Ok (ref, scale, words) =>
      match unpack_grib words bits (gm_nx g * gm_ny g) (stored_ref ref) (stored_ref scale) (Some miss_back) with
      | Ok vals => if Zlen words >? 1 then [CQ vals] else []
      | Err _ => []
      end
  | Err _ => []
  end.
Lemma grid_round_exact e g bits calls o o' b :
  geom_ok g -> (forall q, In q calls -> call_ok g q) ->
  add_grids (new_grid_file g) calls = Ok o ->
  save_grid e (set_precision bits o) = (o', Ok b) ->
  exists f, open_grid b = Ok f /\ gf_endian (rg_file f) = e /\
    rg_info f = map (fun '(n, q) => expected_listing n q) (indexed (file_order calls)) /\
    forall n q, In (n, q) (indexed (file_order calls)) ->
      read_grid f n = Ok (grid_read g bits q) /\
      exists ref scale words vals,
        pack_grib (map q_of (cells_of q)) (q_of missing_float) bits = Ok (ref, scale, words) /\
        (Qabs (stored_ref ref - ref) <= Qabs ref * pow2q (-23) + pow2q (-149))%Q /\
        unpack_grib words bits (gm_nx g * gm_ny g) (stored_ref ref) (stored_ref scale) (Some miss_back) = Ok vals /\
        (stored_ref scale == scale)%Q /\
        read_grid f n = Ok (if Zlen words >? 1 then [CQ vals] else []).
Proof.
  intros HG HOK HADD HS.
  destruct (gafter_all _ _ _ _ _ (gafter_new g) HADD) as (ops & HF & HA0). cbn [app] in HA0.
  assert (HA : gafter g ops (set_precision bits o)) by (destruct HA0; constructor; assumption). clear HA0 HADD.
  set (o1 := set_precision bits o) in *. assert (BITS : gd_precision o1 = bits) by reflexivity. clearbody o1. clear o.
  pose proof (gafter_coherent _ _ _ HA) as HC.
  assert (HG1 : geom_ok (gd_geom o1)) by (rewrite (ga_geom _ _ _ HA); exact HG).
  pose proof (headers_order e g calls ops o1 HOK HF HA) as HH.
  assert (HSV := save_gsaved e o1 o' b _ HC HG1 eq_refl HS). set (p := head_pointers (grid_head o1)) in *.
  set (cs := file_order calls) in *.
  assert (SPEC : forall q, In q cs -> col_spec e g q (fst (fop g q)) (snd (fop g q))).
  { intros q Hq. eapply call_spec; [exact HOK|exact HF|]. apply order_in, Hq. }
  set (L := fun n c => ok_or (mk_gl n analysis no_time None [] None None []) (glisting_of n (gcol_head e c))).
  assert (HL : forall n c, In c (gd_col_headers o1) -> glisting_of n (gcol_head e c) = Ok (L n c)).
  { intros n c Hc. rewrite HH in Hc. apply in_map_iff in Hc as (q & <- & Hq). unfold L. rewrite (cs_listing _ _ _ _ _ (SPEC q Hq)). reflexivity. }
  destruct (open_gsaved e o1 p b L HC HG1 HSV) as (nf & dn & HO); [| exact HL |].
  { intros c Hc. rewrite HH in Hc. apply in_map_iff in Hc as (q & <- & Hq). exact (cs_ok _ _ _ _ _ (SPEC q Hq)). }
  eexists. split; [exact HO|]. split; [reflexivity|]. split.
  - unfold gopened. cbn [rg_info]. rewrite HH. rewrite indexed_map, map_map. apply map_ext_in. intros [n q] Hq.
    unfold L. apply indexed_in in Hq as [_ Hq]. apply nth_error_In in Hq. rewrite (cs_listing _ _ _ _ _ (SPEC q Hq)). reflexivity.
  - intros n q Hq. assert (Hq0 := Hq). apply indexed_in in Hq as [_ Hq]. apply nth_error_In in Hq.
    pose proof (order_data e g calls ops o1 HOK HF HA q Hq) as HD. pose proof (SPEC q Hq) as S.
    assert (CL : Zlen (cells_of q) = gm_nx (gd_geom o1) * gm_ny (gd_geom o1)).
    { rewrite <- (cs_cells _ _ _ _ _ S), (ga_geom _ _ _ HA). exact (cs_length _ _ _ _ _ S). }
    assert (CR : Forall cell_ok (cells_of q)) by (rewrite <- (cs_cells _ _ _ _ _ S); exact (cs_range _ _ _ _ _ S)).
    set (info := map (fun '(n, c) => L n c) (indexed (gd_col_headers o1))).
    assert (HI : In (n, fst (fop g q)) (indexed (gd_col_headers o1))).
    { rewrite HH, indexed_map. apply in_map_iff. exists (n, q). auto. }
    destruct (read_gsaved e o1 p b dn nf info n _ _ eq_refl HC HG1 (ga_packing _ _ _ HA) HSV HI HD CL)
      as (ref & scale & words & R1 & (w & R2) & R3 & vals & R4 & R5).
    rewrite BITS in *. rewrite CL, (ga_geom _ _ _ HA) in R4.
    split; [unfold grid_read; rewrite R1; unfold stored_ref; rewrite R4; exact R5|].
    exists ref, scale, words, vals. 
    destruct (unpack_pack_grib _ _ _ _ _ _ (Some miss_back) 0%Q R1) as (k & (Hs & Hk) & _).
    split; [exact R1|]. split.
    + assert (RC : exists c, cell_ok c /\ ref = q_of c).
      { destruct (pack_grib_ref _ _ _ _ _ _ R1) as [->|HR]; [exists missing_float; split; [apply missing_cell|reflexivity]|].
        apply in_map_iff in HR as (c & <- & Hc). rewrite Forall_forall in CR. exists c. split; [apply CR, Hc|reflexivity]. }
      destruct RC as (c & Hc & ->). destruct (flt_back c Hc) as [F1 F2]. destruct (np32_error _ _ _ F1 R2) as [_ N2].
      rewrite F2 in N2. exact N2.
    + split; [exact R4|]. split; [|exact R5]. unfold stored_ref. rewrite Hs. apply scale_back. exact Hk.
Qed.

(** [g]: the file's geometry; [calls]: the add_grid calls, all successful; [bits]: the value of
    the precision attribute when the file is written; [e]: the byte order asked for. *)
Theorem C06_grid_round_trip : forall e g bits calls o o' b,
  geom_ok g -> (forall q, In q calls -> call_ok g q) ->
  add_grids (new_grid_file g) calls = Ok o ->
  save_grid e (set_precision bits o) = (o', Ok b) ->
  exists f cs, open_grid b = Ok f /\
    Permutation cs (keep_last same_header calls) /\ StronglySorted before cs /\
    rg_info f = map (fun '(n, q) => expected_listing n q) (indexed cs) /\
    forall n q, In (n, q) (indexed cs) ->
      exists ref scale words stored_ref out vals,
        pack_grib (map q_of (cells_of q)) (q_of missing_float) bits = Ok (ref, scale, words) /\
        (Qabs (stored_ref - ref) <= Qabs ref * pow2q (-23) + pow2q (-149))%Q /\
        unpack_grib words bits (gm_nx g * gm_ny g) stored_ref scale (Some (q_of missing_float)) = Ok out /\
        Forall2 Qeq vals out /\
        read_grid f n = Ok (if Zlen words >? 1 then [CQ vals] else []).
Proof.
  intros e g bits calls o o' b HG HOK HADD HS.
  destruct (grid_round_exact _ _ _ _ _ _ _ HG HOK HADD HS) as (f & H1 & _ & H2 & H3).
  exists f, (file_order calls). split; [exact H1|]. split; [apply order_perm|]. split; [apply order_sorted|]. split; [exact H2|].
  intros n q Hq. destruct (H3 n q Hq) as (_ & ref & scale & words & vals & R1 & R2 & R3 & R4 & R5).
  destruct (qeq_values _ _ _ _ _ _ _ _ _ R4 miss_back_val R3) as (out & U1 & U2).
  exists ref, scale, words, (stored_ref ref), out, vals. auto.
Qed.
Print Assumptions C06_grid_round_trip.

(** Cell by cell: a grid that packs into more than one word comes back as one array of the same
    shape; missing cells come back as -9999 and every other cell that is not within half a step of
    the top code comes back within half a step plus the rounding of the reference to binary32. *)
Theorem C06_grid_values : forall e g bits calls o o' b,
  geom_ok g -> (forall q, In q calls -> call_ok g q) ->
  add_grids (new_grid_file g) calls = Ok o ->
  save_grid e (set_precision bits o) = (o', Ok b) ->
  exists f cs, open_grid b = Ok f /\ Permutation cs (keep_last same_header calls) /\
    rg_info f = map (fun '(n, q) => expected_listing n q) (indexed cs) /\
    forall n q, In (n, q) (indexed cs) -> 32 < bits * (gm_nx g * gm_ny g) ->
      exists ref scale words vals,
        pack_grib (map q_of (cells_of q)) (q_of missing_float) bits = Ok (ref, scale, words) /\
        read_grid f n = Ok [CQ vals] /\ length vals = length (cells_of q) /\
        forall i x y, nth_error (cells_of q) i = Some x -> nth_error vals i = Some y ->
          (q_of x == -9999 -> y == -9999)%Q /\
          (~ (q_of x == -9999) -> q_of x - ref < (inject_Z (2 ^ bits - 1) - (1#2)) * scale ->
             Qabs (y - q_of x) <= scale * (1#2) + Qabs ref * pow2q (-23) + pow2q (-149))%Q.
Proof.
  intros e g bits calls o o' b HG HOK HADD HS.
  destruct (C06_grid_round_trip _ _ _ _ _ _ _ HG HOK HADD HS) as (f & cs & H1 & H2 & _ & H3 & H4).
  exists f, cs. split; [exact H1|]. split; [exact H2|]. split; [exact H3|]. intros n q Hq H32.
  destruct (H4 n q Hq) as (ref & scale & words & sref & out & vals & P & R & U & F & RD).
  exists ref, scale, words, vals. split; [exact P|].
  assert (NC : Zlen (map q_of (cells_of q)) = gm_nx g * gm_ny g).
  { apply indexed_in in Hq as [_ Hq]. apply nth_error_In in Hq. apply Permutation_in with (1 := H2) in Hq. apply keep_last_in in Hq.
    destruct (gafter_all _ _ _ _ _ (gafter_new g) HADD) as (ops & HF & _).
    pose proof (call_spec e g calls ops HOK HF q Hq) as S. rewrite Zlen_map, <- (cs_cells _ _ _ _ _ S). exact (cs_length _ _ _ _ _ S). }
  destruct (C12_packed_length _ _ _ _ _ _ P) as [NW _]. rewrite NC in NW.
  assert (W2 : Zlen words > 1) by (rewrite NW; unfold words_for; generalize dependent (bits * (gm_nx g * gm_ny g)); clear; intros; Z.div_mod_to_equations; lia).
  replace (Zlen words >? 1) with true in RD by lia. split; [exact RD|].
  destruct (grib_cells _ _ _ _ _ _ (Some (q_of missing_float)) sref P) as (out' & U' & LU & CELL).
  rewrite NC, U in U'. apply ok_inj in U'. subst out'.
  assert (LV : length vals = length out) by (clear - F; induction F; cbn; congruence).
  split; [rewrite LV, LU, map_length; reflexivity|].
  intros i x y Hx Hy.
  assert (Hy' : exists y', nth_error out i = Some y' /\ (y == y')%Q).
  { clear - F Hy. revert i Hy. induction F as [|a a' l l' E F IH]; intros [|i] Hy; cbn in *; try discriminate Hy; [injection Hy as <-; eauto|eauto]. }
  destruct Hy' as (y' & Hy' & EY).
  destruct (CELL i (q_of x) y' (map_nth_error q_of _ _ Hx) Hy') as (c & -> & CM & CN).
  assert (M : (q_of missing_float == -9999)%Q) by (vm_compute; reflexivity).
  split.
  - intros E. rewrite EY. rewrite (CM ltac:(rewrite E, M; reflexivity)). cbn [reconstruct]. rewrite Z.eqb_refl. exact M.
  - intros N Hlt. destruct (CN ltac:(rewrite M; exact N)) as (HE & _ & HT & _). fold (imaxz bits) in Hlt. specialize (HT _ Hlt).
    rewrite EY. cbn [reconstruct]. destruct (Z.eqb_spec c (imaxz bits)); [lia|].
    assert (E : (sref + inject_Z c * scale - q_of x == (ref + inject_Z c * scale - q_of x) + (sref - ref))%Q) by ring.
    rewrite E. eapply Qle_trans; [apply Qabs_triangle|]. lra.
Qed.
Print Assumptions C06_grid_values.

(** A 3 x 3 grid file with two grids, the first added twice. *)
Definition ex_nd (l : list Z) : ndarray := ([3; 3], map of_Z l).
Definition ex_geom : geom :=
  mk_geom 3 3 (ex_nd [0;1;2;0;1;2;0;1;2]) (ex_nd [0;0;0;1;1;1;2;2;2])
    (of_Z 0) (of_Z 0) (of_Z 2) (of_Z 2) [67;69;68] (of_Z 0) (of_Z 0) (of_Z 0).
Definition ex_call (l : list Z) (name : str) (level : Z) : gcall :=
  mk_gcall (Some (ex_nd l)) (Some name) (VCStr [112;114;101;115]) (LNum (PInt level))
    (ADDt (mk_dt 2024 2 29 12 0 0 0)) LNone None.
Definition ex_calls : list gcall :=
  [ex_call [1;2;3;4;5;6;7;8;9] [116;109;112;99] 500;
   ex_call [10;20;30;40;-9999;60;70;80;90] [116;109;112;99] 850;
   ex_call [9;8;7;6;5;4;3;2;1] [84;77;80;67] 500].
Definition ex_file : gridfile := ok_or (new_grid_file ex_geom) (add_grids (new_grid_file ex_geom) ex_calls).
Definition ex_bytes : bytes := ok_or [] (snd (save_grid LE (set_precision 12 ex_file))).
Definition names_listed (b : bytes) : list str := map gl_parm (match open_grid b with Ok f => rg_info f | Err _ => [] end).
Example C06_example :
  geom_ok ex_geom /\ (forall q, In q ex_calls -> call_ok ex_geom q) /\
  add_grids (new_grid_file ex_geom) ex_calls = Ok ex_file /\
  snd (save_grid LE (set_precision 12 ex_file)) = Ok ex_bytes /\ Zlen ex_bytes > 2000 /\
  keep_last same_header ex_calls = skipn 1 ex_calls /\
  names_listed ex_bytes = [[84;77;80;67]; [84;77;80;67]].
Proof.
  split. { split; [vm_compute; auto 10|]. split; vm_compute; split; congruence. }
  split.
  { intros q Hq. assert (A : forall l n z, Forall value_ok (map of_Z l) -> Zlen l = 9 -> call_ok ex_geom (ex_call l n z)).
    { intros l n z HV HL. split; [|split].
      - exists analysis, (mk_dt 2024 2 29 12 0 0 0). vm_compute. reflexivity.
      - intros a [=].
      - intros a [= <-]. split; [cbn [ex_nd snd]; rewrite Zlen_map; exact HL|exact HV]. }
    destruct Hq as [<-|[<-|[<-|[]]]]; apply A; try reflexivity;
      repeat (constructor; [split; [vm_compute; reflexivity|right; split; vm_compute; reflexivity]|]); constructor. }
  split; [vm_compute; reflexivity|]. split; [vm_compute; reflexivity|]. split; [vm_compute; reflexivity|]. split; vm_compute; reflexivity.
Qed.

(** ** C03 for grid files *)
Inductive gaction := GAdd (q : gcall) | GPrecision (n : Z) | GWrite (e : endian).
Definition gact (o : gridfile) (a : gaction) : gridfile :=
  match a with GAdd q => fst (add_grid o q) | GPrecision n => set_precision n o | GWrite e => fst (save_grid e o) end.
Definition not_write (a : gaction) : bool := match a with GWrite _ => false | _ => true end.
(** Everything but the pointers. *)
Definition gforget (o : gridfile) : gridfile :=
  mk_gf (gd_geom o) (gd_precision o) (gd_packing o) (gd_col_set o) (gd_data o) (gd_cols o) (gd_col_headers o) None.
Lemma gsave_forget e o : snd (save_grid e o) = snd (save_grid e (gforget o)).
Proof.
  unfold save_grid, gforget, with_grid_ptrs, grid_head.
  cbn [gd_geom gd_precision gd_packing gd_col_set gd_data gd_cols gd_col_headers gd_ptrs].
  match goal with |- context [to_gempak_at ?a ?b ?c ?d ?f ?g ?h] => generalize (to_gempak_at a b c d f g h) end.
  intros [[b nf]|]; reflexivity.
Qed.
Lemma gsave_keeps e o : gforget (fst (save_grid e o)) = gforget o.
Proof.
  unfold save_grid. match goal with |- context [to_gempak_at ?a ?b ?c ?d ?f ?g ?h] => generalize (to_gempak_at a b c d f g h) end.
  intros [[b nf]|]; reflexivity.
Qed.
Lemma gact_forget o a : gforget (gact o a) = gforget (gact (gforget o) a).
Proof.
  destruct a as [q|n|e]; cbn [gact]; [|reflexivity|rewrite !gsave_keeps; reflexivity].
  unfold add_grid. cbn [gforget gd_geom gd_precision gd_packing gd_col_set gd_data gd_cols gd_col_headers gd_ptrs].
  destruct (check_grid (gd_geom o) q) as [[c cells]|]; [|reflexivity]. cbv zeta. destruct (_ >? _); [reflexivity|].
  destruct (sort_headers _); reflexivity.
Qed.
Lemma grun_forget acts : forall o o2, gforget o = gforget o2 ->
  gforget (fold_left gact acts o) = gforget (fold_left gact (filter not_write acts) o2).
Proof.
  induction acts as [|a acts IH]; intros o o2 H; [exact H|]. cbn [fold_left filter].
  destruct a as [q|n|e]; cbn [not_write fold_left].
  - apply IH. rewrite (gact_forget o), (gact_forget o2), H. reflexivity.
  - apply IH. rewrite (gact_forget o), (gact_forget o2), H. reflexivity.
  - apply IH. cbn [gact]. rewrite gsave_keeps. exact H.
Qed.
(** Writes interleaved anywhere in a history of additions and precision changes do not change
    what is stored nor what a later write produces. *)
Theorem C03_grid_write_repeatable : forall e acts o,
  snd (save_grid e (fold_left gact acts o)) = snd (save_grid e (fold_left gact (filter not_write acts) o)) /\
  gforget (fold_left gact acts o) = gforget (fold_left gact (filter not_write acts) o).
Proof.
  intros e acts o. pose proof (grun_forget acts o o eq_refl) as H. split; [|exact H].
  rewrite gsave_forget, H, <- gsave_forget. reflexivity.
Qed.
Print Assumptions C03_grid_write_repeatable.
Example C03_grid_example :
  snd (save_grid LE (fold_left gact [GWrite LE; GPrecision 12; GWrite BE; GWrite LE] ex_file)) = Ok ex_bytes.
Proof. vm_compute. reflexivity. Qed.

(** ** C07 for grid files *)
(** What the object holds for the header of a call. *)
Definition gstored (o : gridfile) (q : gcall) : option (list flt) :=
  match check_grid (gd_geom o) q with
  | Ok (c, _) => dict_get gcol_cmp c (gd_data o)
  | Err _ => None
  end.
Theorem C07_grid_duplicate_replaces : forall g calls q o o',
  (forall d, In d (q :: calls) -> call_ok g d) ->
  add_grids (new_grid_file g) calls = Ok o -> add_grid o q = (o', Ok tt) ->
  (* the new values are stored *)
  gstored o' q = Some (cells_of q) /\
  (* nothing else changes *)
  (forall d, call_ok g d -> same_header d q = false -> gstored o' d = gstored o d) /\
  (* a repeated header adds no column *)
  (existsb (same_header q) calls = true -> gd_cols o' = gd_cols o /\ gd_col_headers o' = gd_col_headers o).
Proof.
  intros g calls q o o' HOK HA HC.
  destruct (gafter_all _ _ _ _ _ (gafter_new g) HA) as (ops & F & A). cbn [app] in A.
  destruct (gafter_add _ _ _ _ _ A HC) as ([c cells] & EX & A').
  pose proof (check_col LE g q c cells (HOK q (or_introl eq_refl)) EX) as S.
  assert (G1 : gd_geom o = g) by exact (ga_geom _ _ _ A). assert (G2 : gd_geom o' = g) by exact (ga_geom _ _ _ A').
  assert (D' : gd_data o' = dict_set gcol_cmp c cells (gd_data o)).
  { rewrite (ga_data _ _ _ A'), (ga_data _ _ _ A). unfold dict_of. rewrite fold_left_app. reflexivity. }
  unfold gstored. rewrite G1, G2, EX, D'. split; [|split].
  - rewrite (dict_set_get _ good_gcol'), (gc_refl good_gcol'). cbn [is_eq]. f_equal. exact (cs_cells _ _ _ _ _ S).
  - intros d HD HN. destruct (check_grid g d) as [[cd celld]|] eqn:ED; [|reflexivity].
    pose proof (check_col LE g d cd celld HD ED) as Sd. rewrite (dict_set_get _ good_gcol').
    assert (E : is_eq (gcol_cmp cd c) = false).
    { rewrite same_hcmp in HN. unfold hcmp in HN. rewrite (cs_header _ _ _ _ _ Sd), (cs_header _ _ _ _ _ S) in HN.
      rewrite gkey_cmp in HN by (first [exact (cs_wf _ _ _ _ _ Sd)|exact (cs_wf _ _ _ _ _ S)]). exact HN. }
    rewrite E. reflexivity.
  - intros HX. apply existsb_exists in HX as (d & Hd & Ed).
    assert (SET : gd_col_set o' = gd_col_set o).
    { transitivity (set_add gcol_cmp c (gd_col_set o)).
      { rewrite (ga_set _ _ _ A'), (ga_set _ _ _ A), map_app. unfold set_of. rewrite fold_left_app. reflexivity. }
      rewrite (ga_set _ _ _ A). unfold set_add.
      assert (M : mem gcol_cmp c (set_of gcol_cmp (map fst ops) []) = true).
      { apply (set_of_has gcol_cmp good_gcol').
        rewrite (ops_map g calls ops F), map_map. apply in_map_iff. exists d. split; [|exact Hd].
        pose proof (call_spec LE g calls ops (fun x Hx => HOK x (or_intror Hx)) F d Hd) as Sd.
        rewrite same_hcmp in Ed. apply is_eq_true in Ed. unfold hcmp in Ed. rewrite (cs_header _ _ _ _ _ Sd), (cs_header _ _ _ _ _ S) in Ed.
        rewrite gkey_cmp in Ed by (first [exact (cs_wf _ _ _ _ _ Sd)|exact (cs_wf _ _ _ _ _ S)]). symmetry. apply gcol_eq, Ed. }
      rewrite M. reflexivity. }
    rewrite (ga_cols _ _ _ A'), (ga_cols _ _ _ A), (ga_headers _ _ _ A'), (ga_headers _ _ _ A), SET. split; reflexivity.
Qed.
Print Assumptions C07_grid_duplicate_replaces.
Example C07_grid_example : exists o', add_grid ex_file (ex_call [1;1;1;1;1;1;1;1;2] [116;109;112;99] 850) = (o', Ok tt) /\ gd_cols o' = 2.
Proof. eexists. split; vm_compute; reflexivity. Qed.

(** ** C08 for grid files is false: a grid with a second time next to one without, same first
    time, is stored and then the headers cannot be sorted. *)
Definition mixed_call : gcall :=
  mk_gcall (Some (ex_nd [1;2;3;4;5;6;7;8;9])) (Some [116;109;112;99]) (VCStr [112;114;101;115]) (LNum (PInt 500))
    (ADDt (mk_dt 2024 2 29 12 0 0 0)) LNone (Some (ADDt (mk_dt 2024 2 29 18 0 0 0))).
Theorem C08_grid_rejected_unchanged_refuted : exists g calls q o o',
  add_grids (new_grid_file g) calls = Ok o /\ add_grid o q = (o', Err TypeError) /\
  gd_cols o' = gd_cols o + 1 /\ gstored o q = None /\ gstored o' q <> None /\
  (* the file can not take any other grid, nor be written *)
  snd (add_grid o' (ex_call [1;2;3;4;5;6;7;8;9] [116;109;112;99] 850)) = Err TypeError.
Proof.
  exists ex_geom, ex_calls, mixed_call, ex_file, (fst (add_grid ex_file mixed_call)).
  split; [vm_compute; reflexivity|]. split; [vm_compute; reflexivity|]. split; [vm_compute; reflexivity|].
  split; [vm_compute; reflexivity|]. split; [vm_compute; discriminate|]. vm_compute. reflexivity.
Qed.
Print Assumptions C08_grid_rejected_unchanged_refuted.
(** Every other rejection leaves the object as it was. *)
Theorem C08_grid_rejected_unchanged_partial : forall o q o' x, add_grid o q = (o', Err x) ->
  o' = o \/ (x = ValueError /\ gd_cols o' + 1 > 32000) \/
  (x = TypeError /\ exists a b, In a (gd_col_set o') /\ In b (gd_col_set o') /\ g_dt1 a = g_dt1 b /\ g_tm1 a = g_tm1 b /\
     g_dt2 a = None /\ g_dt2 b <> None).
Proof.
  intros o q o' x. unfold add_grid. destruct (check_grid _ q) as [[c cells]|y]; [|intros [= <- <-]; auto]. cbv zeta.
  destruct (Z.gtb_spec (1 + Zlen (set_add gcol_cmp c (gd_col_set o))) MMHDRS) as [H|H].
  - intros [= <- <-]. right. left. cbn [gd_cols]. unfold MMHDRS in H. split; [reflexivity|lia].
  - unfold sort_headers. destruct (existsb _ _) eqn:E; [|discriminate]. intros [= <- <-]. right. right. split; [reflexivity|].
    cbn [gd_col_set]. apply existsb_exists in E as (a & Ha & E). apply existsb_exists in E as (b & Hb & E).
    unfold unordered in E. apply andb_prop in E as [E1 E2]. apply is_eq_true in E1. rewrite then_cmp_eq in E1. destruct E1 as [E1 E3].
    apply gdt_eq in E1. apply gtm_eq in E3.
    destruct (g_dt2 a) eqn:Ea, (g_dt2 b) eqn:Eb; try discriminate E2; [exists b, a|exists a, b]; repeat split; congruence.
Qed.
Print Assumptions C08_grid_rejected_unchanged_partial.

(** ** C09, C10 for grid files *)
(** The same history written in the two byte orders reads back the same. *)
Theorem C09_written_grids : forall g bits calls o o1 o2 b1 b2,
  geom_ok g -> (forall q, In q calls -> call_ok g q) ->
  add_grids (new_grid_file g) calls = Ok o ->
  save_grid LE (set_precision bits o) = (o1, Ok b1) -> save_grid BE (set_precision bits o) = (o2, Ok b2) ->
  exists f1 f2, open_grid b1 = Ok f1 /\ open_grid b2 = Ok f2 /\
    gf_endian (rg_file f1) = LE /\ gf_endian (rg_file f2) = BE /\
    rg_info f1 = rg_info f2 /\ length (rg_info f1) = length (keep_last same_header calls) /\
    forall n, 0 <= n < Zlen (rg_info f1) -> read_grid f1 n = read_grid f2 n.
Proof.
  intros g bits calls o o1 o2 b1 b2 HG HOK HADD S1 S2.
  destruct (grid_round_exact _ _ _ _ _ _ _ HG HOK HADD S1) as (f1 & A1 & A2 & A3 & A4).
  destruct (grid_round_exact _ _ _ _ _ _ _ HG HOK HADD S2) as (f2 & B1 & B2 & B3 & B4).
  exists f1, f2. split; [exact A1|]. split; [exact B1|]. split; [exact A2|]. split; [exact B2|]. split; [congruence|].
  assert (LI : length (rg_info f1) = length (file_order calls)).
  { rewrite A3, map_length, <- (map_length snd), indexed_snd. reflexivity. }
  split; [rewrite LI; apply sort_length|]. intros n Hn. unfold Zlen in Hn. rewrite LI in Hn.
  destruct (nth_error (file_order calls) (Z.to_nat n)) as [q|] eqn:EQ; [|apply nth_error_None in EQ; lia].
  assert (HI : In (n, q) (indexed (file_order calls))) by (apply indexed_in; split; [lia|exact EQ]).
  rewrite (proj1 (A4 n q HI)), (proj1 (B4 n q HI)). reflexivity.
Qed.
Print Assumptions C09_written_grids.
Theorem C10_not_gempak_grid : forall d, firstn 28 d <> GEMPAK_HEADER -> exists x, open_grid d = Err x.
Proof.
  intros d H. destruct (C10_not_gempak d H) as [(x & X) _]. exists x. unfold open_grid. rewrite X. reflexivity.
Qed.
Print Assumptions C10_not_gempak_grid.

(** ** C65: every grid file that was built can be written *)
(** False: a grid with fewer than three rows or columns is accepted at construction and by
    add_grid but never written (the spacing is taken at a cell that does not exist). *)
Definition small_geom : geom :=
  mk_geom 2 3 ([3; 2], map of_Z [0;1;0;1;0;1]) ([3; 2], map of_Z [0;0;1;1;2;2])
    (of_Z 0) (of_Z 0) (of_Z 1) (of_Z 2) [67;69;68] (of_Z 0) (of_Z 0) (of_Z 0).
Definition small_call : gcall :=
  mk_gcall (Some ([3; 2], map of_Z [1;2;3;4;5;6])) (Some [116;109;112;99]) (VCStr [112;114;101;115]) (LNum (PInt 500))
    (ADDt (mk_dt 2024 2 29 12 0 0 0)) LNone None.
Theorem C65_small_grid_refuted : exists lon lat o,
  geographic lon lat [67;69;68] (of_Z 0) (of_Z 0) (of_Z 0) = Ok small_geom /\
  add_grids (new_grid_file small_geom) [small_call] = Ok o /\
  forall e, snd (save_grid e o) = Err IndexError.
Proof.
  exists ([3; 2], map of_Z [0;1;0;1;0;1]), ([3; 2], map of_Z [0;0;1;1;2;2]), (ok_or (new_grid_file small_geom) (add_grids (new_grid_file small_geom) [small_call])).
  split; [vm_compute; reflexivity|]. split; [vm_compute; reflexivity|]. intros []; vm_compute; reflexivity.
Qed.
Print Assumptions C65_small_grid_refuted.
(** No file of such a geometry is ever written; from three rows and columns on the spacing exists.
    That nothing else can fail when the fields fit is C65_fitting_file_written. *)
Theorem C65_small_grid : forall lon lat proj a1 a2 a3 g,
  (forall ny nx, fst lon = [ny; nx] -> 0 <= ny /\ 0 <= nx /\ Zlen (snd lon) = ny * nx /\ Zlen (snd lat) = ny * nx) ->
  geographic lon lat proj a1 a2 a3 = Ok g -> geom_ok g ->
  ((exists dn, deltan g = Ok dn) <-> 3 <= gm_nx g /\ 3 <= gm_ny g) /\
  (forall e calls o n o' b, add_grids (new_grid_file g) calls = Ok o ->
     save_grid e (set_precision n o) = (o', Ok b) -> 3 <= gm_nx g /\ 3 <= gm_ny g).
Proof.
  intros lon lat proj a1 a2 a3 g HSZ HGEO HG.
  assert (IFF : (exists dn, deltan g = Ok dn) <-> 3 <= gm_nx g /\ 3 <= gm_ny g).
  { unfold geographic in HGEO. destruct (negb (shape_eqb (fst lat) (fst lon))) eqn:ES; [discriminate HGEO|].
    apply negb_false_iff in ES. unfold shape_eqb in ES. apply str_eqb_spec in ES.
    destruct (fst lat) as [|ny [|nx [|? ?]]] eqn:EL; try discriminate HGEO.
    destruct (HSZ ny nx (eq_sym ES)) as (N1 & N2 & N3 & N4).
    destruct (cell lon 0 0) eqn:C1; cbn [bind] in HGEO; [|discriminate HGEO].
    destruct (cell lat 0 0) eqn:C2; cbn [bind] in HGEO; [|discriminate HGEO].
    destruct (cell lon (ny - 1) (nx - 1)) eqn:C3; cbn [bind] in HGEO; [|discriminate HGEO].
    destruct (cell lat (ny - 1) (nx - 1)) eqn:C4; cbn [bind] in HGEO; [|discriminate HGEO].
    apply ok_inj in HGEO. subst g. cbn [gm_nx gm_ny].
    assert (CELL : forall (a : ndarray) i j, fst a = [ny; nx] -> Zlen (snd a) = ny * nx -> 0 <= i -> 0 <= j ->
              (exists v, cell a i j = Ok v) <-> i < ny /\ j < nx).
    { intros arr i j Ea La Hi Hj. unfold cell. rewrite Ea. split.
      - intros (v & Hv). destruct (Z.ltb_spec i ny), (Z.ltb_spec j nx); try discriminate Hv. lia.
      - intros [Hi2 Hj2]. replace (i <? ny) with true by lia. replace (j <? nx) with true by lia. cbn [andb].
        assert (R : 0 <= i * nx + j < Zlen (snd arr)) by (rewrite La; nia).
        destruct (nth_error (snd arr) (Z.to_nat (i * nx + j))) as [v|] eqn:EN.
        + exists v. apply py_index_in; [lia|exact EN].
        + apply nth_error_None in EN. unfold Zlen in R. lia. }
    assert (CN : forall i j, 0 <= i -> 0 <= j -> ((exists v, cell lon i j = Ok v) <-> i < ny /\ j < nx) /\ ((exists v, cell lat i j = Ok v) <-> i < ny /\ j < nx)).
    { intros i j Hi Hj. split; apply CELL; auto. }
    unfold deltan. cbn [gm_nx gm_ny gm_lon gm_lat].
    assert (D1 : 0 <= ny / 2) by (apply Z.div_pos; lia). assert (D2 : 0 <= nx / 2) by (apply Z.div_pos; lia).
    split.
    - intros (dn & H). destruct (cell lon (ny / 2 + 1) (nx / 2 + 1)) as [v|] eqn:EC; cbn [bind] in H; [|discriminate H].
      destruct (CN (ny / 2 + 1) (nx / 2 + 1) ltac:(lia) ltac:(lia)) as [X _]. destruct (proj1 X (ex_intro _ v EC)) as [K1 K2].
      clear - K1 K2 N1 N2. Z.div_mod_to_equations. lia.
    - intros [M1 M2].
      assert (K : ny / 2 + 1 < ny /\ nx / 2 + 1 < nx) by (clear - M1 M2; Z.div_mod_to_equations; lia).
      destruct (CN (ny / 2 + 1) (nx / 2 + 1) ltac:(lia) ltac:(lia)) as [X1 X2].
      destruct (CN (ny / 2) (nx / 2) ltac:(lia) ltac:(lia)) as [X3 X4].
      destruct (proj2 X1 ltac:(lia)) as (v1 & ->). destruct (proj2 X2 ltac:(lia)) as (v2 & ->).
      destruct (proj2 X3 ltac:(lia)) as (v3 & ->). destruct (proj2 X4 ltac:(lia)) as (v4 & ->). eexists. reflexivity. }
  split; [exact IFF|]. intros e calls o n o' b HA HS.
  destruct (gafter_all _ _ _ _ _ (gafter_new g) HA) as (ops & _ & A). cbn [app] in A.
  assert (A2 : gafter g ops (set_precision n o)) by (destruct A; constructor; assumption).
  assert (HG2 : geom_ok (gd_geom (set_precision n o))) by (rewrite (ga_geom _ _ _ A2); exact HG).
  pose proof (save_gsaved e _ o' b _ (gafter_coherent _ _ _ A2) HG2 eq_refl HS) as [_ _ _ (nf & dn & HD & _)].
  apply IFF. exists dn. rewrite (ga_geom _ _ _ A2) in HD. exact HD.
Qed.
Print Assumptions C65_small_grid.
Example C65_example : (exists dn, deltan ex_geom = Ok dn) /\ 3 <= gm_nx ex_geom /\
  geographic (gm_lon ex_geom) (gm_lat ex_geom) [67;69;68] (of_Z 0) (of_Z 0) (of_Z 0) = Ok ex_geom.
Proof. split; [eexists; vm_compute; reflexivity|]. split; [vm_compute; discriminate|]. vm_compute. reflexivity. Qed.

(** ** C66: an array of another shape is rejected *)
(** The shape is that of the coordinate arrays given to the constructor: rows, columns. *)
Theorem C66_wrong_shape : forall lon lat proj a1 a2 a3 g o q arr rows columns,
  geographic lon lat proj a1 a2 a3 = Ok g -> fst lon = [rows; columns] -> gd_geom o = g -> q_grid q = Some arr ->
  (fst arr <> [rows; columns] -> add_grid o q = (o, Err ValueError)) /\
  (forall o' r, add_grid o q = (o', Ok r) -> fst arr = [rows; columns]).
Proof.
  intros lon lat proj a1 a2 a3 g o q arr rows columns HG HL HO HQ.
  assert (E : gm_ny g = rows /\ gm_nx g = columns).
  { unfold geographic in HG. destruct (negb (shape_eqb (fst lat) (fst lon))) eqn:ES; [discriminate HG|].
    apply negb_false_iff in ES. unfold shape_eqb in ES. apply str_eqb_spec in ES. rewrite ES, HL in HG.
    repeat (match type of HG with bind ?a _ = _ => destruct a; cbn [bind] in HG; [|discriminate HG] end).
    apply ok_inj in HG. subst g. split; reflexivity. }
  destruct E as [E1 E2].
  assert (K : fst arr <> [rows; columns] -> add_grid o q = (o, Err ValueError)).
  { intros H. unfold add_grid, check_grid. rewrite HQ, HO, E1, E2. cbn [bind].
    destruct (shape_eqb (fst arr) [rows; columns]) eqn:ES; [|reflexivity].
    exfalso. apply H. unfold shape_eqb in ES. apply str_eqb_spec in ES. exact ES. }
  split; [exact K|]. intros o' r H.
  destruct (shape_eqb (fst arr) [rows; columns]) eqn:ES; [unfold shape_eqb in ES; apply str_eqb_spec in ES; exact ES|].
  rewrite K in H; [discriminate H|]. intros E. unfold shape_eqb in ES. apply str_eqb_spec in E. congruence.
Qed.
Print Assumptions C66_wrong_shape.
(* a 2 x 3 array in a 3 x 2 file *)
Example C66_example :
  geographic ([3; 2], map of_Z [0;1;0;1;0;1]) ([3; 2], map of_Z [0;0;1;1;2;2]) [67;69;68] (of_Z 0) (of_Z 0) (of_Z 0) = Ok small_geom /\
  add_grid (new_grid_file small_geom)
    (mk_gcall (Some ([2; 3], map of_Z [1;2;3;4;5;6])) (Some [84]) (VCStr [112;114;101;115]) (LNum (PInt 500)) (ADDt (mk_dt 2024 2 29 12 0 0 0)) LNone None)
  = (new_grid_file small_geom, Err ValueError) /\
  snd (add_grid (new_grid_file small_geom) small_call) = Ok tt.
Proof. split; [vm_compute; reflexivity|]. split; vm_compute; reflexivity. Qed.
