(** Grid files: the object after a history of additions, and what each column says about its call. *)
From Coq Require Import Lia ZifyBool ZifyNat QArith Qabs Lqa Permutation Sorted.
From Verif Require Import Base BaseFacts Floats FloatsFacts Strings StringsFacts Dates SpecDates DatesFacts Headers HeadersFacts
  Order OrderFacts DmFile DmHookFacts DmReadFacts Station StationFacts SpecStation HistoryFacts Grid GridRead SpecGrid GridFacts GridDataFacts.
Open Scope Z_scope.

(** ** Headers as lists of numbers *)
Lemma str_cmp_app (a b c d : list Z) : length a = length b ->
  str_cmp (a ++ c) (b ++ d) = then_cmp (str_cmp a b) (str_cmp c d).
Proof.
  revert b. induction a as [|x a IH]; intros [|y b] L; try discriminate L; [reflexivity|].
  cbn. destruct (x ?= y); [|reflexivity|reflexivity]. apply IH. cbn in L. lia.
Qed.
Lemma str_cmp_cons x y a b : str_cmp (x :: a) (y :: b) = then_cmp (x ?= y) (str_cmp a b).
Proof. cbn. destruct (x ?= y); reflexivity. Qed.
Lemma then_assoc a b c : then_cmp (then_cmp a b) c = then_cmp a (then_cmp b c).
Proof. destruct a; reflexivity. Qed.
Lemma then_eq_r a : then_cmp a Eq = a.
Proof. destruct a; reflexivity. Qed.

Definition dt_key (x : Z * dtime) : list Z :=
  let d := snd x in [fst x; dt_y d; dt_mo d; dt_d d; dt_h d; dt_mi d; dt_s d; dt_us d].
Definition tm_key (x : Z * (Z * Z)) : list Z := [fst x; fst (snd x); snd (snd x)].
Definition dt2_key (x : option (Z * dtime)) : list Z := match x with Some y => 1 :: dt_key y | None => 0 :: repeat 0 8 end.
Definition gkey (c : gcol) : list Z :=
  dt_key (g_dt1 c) ++ tm_key (g_tm1 c) ++ dt2_key (g_dt2 c) ++ tm_key (g_tm2 c) ++
  [g_lv1 c] ++ [g_lv2 c] ++ [g_vc c] ++ g_p1 c ++ g_p2 c ++ g_p3 c.
Definition gcol_wf (c : gcol) : Prop := length (g_p1 c) = 4%nat /\ length (g_p2 c) = 4%nat /\ length (g_p3 c) = 4%nat.

Lemma dt_key_cmp a b : str_cmp (dt_key a) (dt_key b) = gdt_cmp a b.
Proof.
  unfold dt_key, gdt_cmp, dtime_cmp, date_cmp, time_cmp. destruct a as [g a], b as [g' b]. cbn [fst snd date_of time_of da_y da_mo da_d ti_h ti_mi ti_s ti_us].
  rewrite !str_cmp_cons. cbn [str_cmp]. rewrite !then_assoc, then_eq_r. reflexivity.
Qed.
Lemma tm_key_cmp a b : str_cmp (tm_key a) (tm_key b) = gtm_cmp a b.
Proof. unfold tm_key, gtm_cmp. rewrite !str_cmp_cons. cbn [str_cmp]. rewrite !then_eq_r. reflexivity. Qed.
Lemma dt2_key_cmp a b : str_cmp (dt2_key a) (dt2_key b) = gdt2_cmp a b.
Proof.
  destruct a as [a|], b as [b|]; [|reflexivity|reflexivity|reflexivity].
  unfold dt2_key. rewrite str_cmp_cons. cbn [Z.compare Pos.compare Pos.compare_cont then_cmp]. apply dt_key_cmp.
Qed.
Lemma one_cmp (a b : Z) : str_cmp [a] [b] = (a ?= b).
Proof. cbn. destruct (a ?= b); reflexivity. Qed.
Lemma gkey_cmp a b : gcol_wf a -> gcol_wf b -> str_cmp (gkey a) (gkey b) = gcol_cmp a b.
Proof.
  intros (A1 & A2 & A3) (B1 & B2 & B3). unfold gkey, gcol_cmp.
  rewrite str_cmp_app by reflexivity. rewrite dt_key_cmp. f_equal.
  rewrite str_cmp_app by reflexivity. rewrite tm_key_cmp. f_equal.
  rewrite str_cmp_app by (destruct (g_dt2 a), (g_dt2 b); reflexivity). rewrite dt2_key_cmp. f_equal.
  rewrite str_cmp_app by reflexivity. rewrite tm_key_cmp. f_equal.
  rewrite str_cmp_app by reflexivity. rewrite one_cmp. f_equal.
  rewrite str_cmp_app by reflexivity. rewrite one_cmp. f_equal.
  rewrite str_cmp_app by reflexivity. rewrite one_cmp. f_equal.
  rewrite str_cmp_app by congruence. f_equal. rewrite str_cmp_app by congruence. reflexivity.
Qed.

Lemma good_gdt : good_cmp gdt_cmp.
Proof.
  apply good_lex; [apply (good_on fst), good_Z|]. unfold dtime_cmp.
  apply (good_on (fun x : Z * dtime => snd x) (fun a b => then_cmp (date_cmp (date_of a) (date_of b)) (time_cmp (time_of a) (time_of b)))).
  apply good_lex; [apply (good_on date_of), good_date|apply (good_on time_of), good_time].
Qed.
Lemma good_gtm : good_cmp gtm_cmp.
Proof.
  apply good_lex; [apply (good_on fst), good_Z|].
  apply good_lex; [apply (good_on (fun x : Z * (Z * Z) => fst (snd x))), good_Z|apply (good_on (fun x : Z * (Z * Z) => snd (snd x))), good_Z].
Qed.
Lemma good_ext {A} (f g : A -> A -> comparison) : (forall x y, f x y = g x y) -> good_cmp f -> good_cmp g.
Proof.
  intros E [R O Q L]. constructor; intros.
  - rewrite <- E. apply R.
  - rewrite <- !E. apply O.
  - rewrite <- !E in *. eapply Q; eassumption.
  - rewrite <- !E in *. eapply L; eassumption.
Qed.
Lemma good_gdt2 : good_cmp gdt2_cmp.
Proof. apply (good_ext (fun a b => str_cmp (dt2_key a) (dt2_key b))); [apply dt2_key_cmp|]. apply (good_on dt2_key), good_str. Qed.
Lemma good_gcol' : good_cmp gcol_cmp.
Proof.
  unfold gcol_cmp.
  apply good_lex; [apply (good_on g_dt1), good_gdt|]. apply good_lex; [apply (good_on g_tm1), good_gtm|].
  apply good_lex; [apply (good_on g_dt2), good_gdt2|]. apply good_lex; [apply (good_on g_tm2), good_gtm|].
  apply good_lex; [apply (good_on g_lv1), good_Z|]. apply good_lex; [apply (good_on g_lv2), good_Z|].
  apply good_lex; [apply (good_on g_vc), good_Z|]. apply good_lex; [apply (good_on g_p1), good_str|].
  apply good_lex; [apply (good_on g_p2), good_str|apply (good_on g_p3), good_str].
Qed.
Lemma gdt_eq a b : gdt_cmp a b = Eq -> a = b.
Proof.
  destruct a as [g a], b as [g' b]. unfold gdt_cmp, dtime_cmp. cbn [fst snd]. rewrite !then_cmp_eq, date_cmp_eq, time_cmp_eq, Z.compare_eq_iff.
  intros (-> & E1 & E2). destruct a, b. unfold date_of, time_of in *. cbn in *. congruence.
Qed.
Lemma gtm_eq a b : gtm_cmp a b = Eq -> a = b.
Proof.
  destruct a as [g [h m]], b as [g' [h' m']]. unfold gtm_cmp. cbn [fst snd]. rewrite !then_cmp_eq, !Z.compare_eq_iff. intuition congruence.
Qed.
Lemma gdt2_eq a b : gdt2_cmp a b = Eq -> a = b.
Proof. destruct a, b; cbn; intros H; try discriminate H; [|reflexivity]. f_equal. apply gdt_eq, H. Qed.
Lemma gcol_eq a b : gcol_cmp a b = Eq -> a = b.
Proof.
  unfold gcol_cmp. rewrite !then_cmp_eq, !Z.compare_eq_iff, !str_cmp_eq.
  intros (H1 & H2 & H3 & H4 & H5 & H6 & H7 & H8 & H9 & H10). apply gdt_eq in H1. apply gtm_eq in H2, H4. apply gdt2_eq in H3.
  destruct a, b. cbn in *. congruence.
Qed.

(** ** Two strictly sorted lists with the same elements *)
Section Sorted.
  Context {K : Type} (cmp : K -> K -> comparison) (G : good_cmp cmp) (EQ : forall a b, cmp a b = Eq -> a = b).
  Notation lt := (fun a b => cmp a b = Lt).
  Lemma sorted_same : forall l l', StronglySorted lt l -> StronglySorted lt l' -> (forall x, In x l <-> In x l') -> l = l'.
  Proof.
    assert (IRR : forall x, cmp x x <> Lt) by (intros x; rewrite (gc_refl G); discriminate).
    assert (ASY : forall x y, cmp x y = Lt -> cmp y x <> Lt).
    { intros x y H. rewrite (gc_opp G x y), H. cbn. discriminate. }
    induction l as [|x l IH]; intros [|y l'] S1 S2 HI.
    - reflexivity.
    - destruct (proj2 (HI y) (or_introl eq_refl)).
    - destruct (proj1 (HI x) (or_introl eq_refl)).
    - apply StronglySorted_inv in S1 as [S1 F1]. apply StronglySorted_inv in S2 as [S2 F2]. rewrite Forall_forall in F1, F2.
      assert (x = y).
      { destruct (proj1 (HI x) (or_introl eq_refl)) as [E|E]; [congruence|].
        destruct (proj2 (HI y) (or_introl eq_refl)) as [E'|E']; [congruence|].
        destruct (ASY x y (F1 y E') (F2 x E)). }
      subst y. f_equal. apply IH; [assumption|assumption|]. intros z. split; intros Hz.
      + destruct (proj1 (HI z) (or_intror Hz)) as [E|E]; [|exact E]. subst z. destruct (IRR x (F1 x Hz)).
      + destruct (proj2 (HI z) (or_intror Hz)) as [E|E]; [|exact E]. subst z. destruct (IRR x (F2 x Hz)).
  Qed.
  Lemma sort_strict l : distinct cmp l -> StronglySorted lt (sort cmp l).
  Proof.
    intros D. assert (D' : distinct cmp (sort cmp l)) by (eapply distinct_perm; [exact G|symmetry; apply sort_perm|exact D]).
    pose proof (sort_sorted cmp G l) as S. revert D' S. generalize (sort cmp l) as m. clear.
    induction m as [|x m IH]; intros D S; [constructor|]. apply StronglySorted_inv in S as [S F]. inversion D as [|? ? D1 D2]; subst.
    constructor; [apply IH; assumption|]. rewrite Forall_forall in *. intros y Hy. specialize (F y Hy). specialize (D1 y Hy).
    unfold le_cmp in F. destruct (cmp x y); congruence.
  Qed.
End Sorted.

(** ** The object *)
Definition gop := (gcol * list flt)%type.
Record gafter (g : geom) (ops : list gop) (o : gridfile) : Prop := {
  ga_geom : gd_geom o = g; ga_packing : gd_packing o = PK_GRIB;
  ga_set : gd_col_set o = set_of gcol_cmp (map fst ops) [];
  ga_data : gd_data o = dict_of gcol_cmp ops [];
  ga_headers : gd_col_headers o = sort gcol_cmp (gd_col_set o);
  ga_cols : gd_cols o = Zlen (gd_col_set o) }.
Lemma gafter_new g : gafter g [] (new_grid_file g).
Proof. constructor; reflexivity. Qed.
Lemma gafter_add g ops o q o' : gafter g ops o -> add_grid o q = (o', Ok tt) ->
  exists x, check_grid g q = Ok x /\ gafter g (ops ++ [x]) o'.
Proof.
  intros [H1 H2 H3 H4 H5 H6] H. unfold add_grid in H. rewrite H1 in H.
  destruct (check_grid g q) as [[c cells]|]; [|discriminate H].
  destruct (_ >? _); [discriminate H|]. destruct (sort_headers _) as [hs|] eqn:ES; [|discriminate H].
  injection H as <-. exists (c, cells). split; [reflexivity|].
  unfold sort_headers in ES. destruct (existsb _ _) in ES; [discriminate ES|]. injection ES as <-.
  constructor; cbn [gd_geom gd_packing gd_col_set gd_data gd_col_headers gd_cols]; try reflexivity; try assumption.
  - rewrite H3. unfold set_of. rewrite map_app, fold_left_app. reflexivity.
  - rewrite H4. unfold dict_of. rewrite fold_left_app. reflexivity.
Qed.
Lemma gafter_all calls : forall g ops o o', gafter g ops o -> add_grids o calls = Ok o' ->
  exists ops', Forall2 (fun q x => check_grid g q = Ok x) calls ops' /\ gafter g (ops ++ ops') o'.
Proof.
  induction calls as [|q calls IH]; intros g ops o o' A H; unfold add_grids in H; cbn [foldM] in H.
  - apply ok_inj in H. subst o'. exists []. rewrite app_nil_r. split; [constructor|exact A].
  - destruct (add_grid o q) as [o1 [[]|x]] eqn:E; cbn [bind] in H; [|discriminate H].
    destruct (gafter_add _ _ _ _ _ A E) as (x & EX & A1).
    destruct (IH _ _ _ _ A1 H) as (ops' & F & A2). exists (x :: ops'). split; [constructor; assumption|].
    rewrite <- app_assoc in A2. exact A2.
Qed.
Lemma gafter_coherent g ops o : gafter g ops o -> gcoherent o.
Proof. intros A. unfold gcoherent. rewrite (ga_cols _ _ _ A), (ga_headers _ _ _ A). unfold Zlen. rewrite sort_length. reflexivity. Qed.

(** ** One call *)
Lemma time2_parse a1 g1 a r : parse_date_time2 a1 g1 (Some a) = Ok (Some r) -> time_readable a -> parse_date_time a = Ok r.
Proof.
  intros H (ty & t & T). destruct a as [s|d|]; cbn [parse_date_time2 parse_date_time] in *.
  - unfold stored_time in T. cbn [parse_date_time] in T. destruct (Zlen s <? 12); [discriminate T|].
    destruct a1 as [s1| |]; [|discriminate H|discriminate H]. destruct (Zlen s1 <? 12); [discriminate H|]. cbn [bind] in H.
    destruct (parse_dattim (upper s)) as [[[[[g d] h] m] le]|]; cbn [bind] in *; [|discriminate H].
    destruct (le && negb (g1 =? g)); [discriminate H|]. congruence.
  - congruence.
  - discriminate H.
Qed.
Lemma time2_none a1 g1 a : parse_date_time2 a1 g1 (Some a) <> Ok None.
Proof.
  destruct a as [s|d|]; cbn [parse_date_time2]; try discriminate.
  destruct a1 as [s1| |]; try discriminate. destruct (Zlen s1 <? 12); try discriminate. cbn [bind].
  destruct (parse_dattim (upper s)) as [[[[[g d] h] m] le]|]; cbn [bind]; try discriminate. destruct (_ && _); discriminate.
Qed.
Lemma readable_parts a g d h m : parse_date_time a = Ok (g, d, h, m) -> time_readable a ->
  exists t0 delta, gdt_back (Some (g, d)) = Ok (Some t0) /\ gtm_back (g, (h, m)) = Ok (Some (fst (reported a), delta)) /\
    add_minutes t0 delta = Ok (snd (reported a)).
Proof.
  intros P (ty & t & T). unfold reported. rewrite T. cbn [ok_or fst snd]. unfold stored_time in T. rewrite P in T. cbn [bind] in T.
  unfold gdt_back, gtm_back. cbn [fst snd]. destruct (enc_gdt g d) as [z1|]; cbn [bind] in T |- *; [|discriminate T].
  destruct (enc_gtm g h m) as [z2|]; cbn [bind] in T |- *; [|discriminate T]. unfold listed_time in T.
  destruct (convert_dattim z1) as [[t0|]|]; cbn [bind] in T; try discriminate T;
  destruct (convert_ftime z2) as [[[ty' delta]|]|]; cbn [bind] in T; try discriminate T.
  destruct (add_minutes t0 delta) as [t'|] eqn:EA; cbn [bind] in T; [|discriminate T]. apply ok_inj in T. injection T as -> ->.
  exists t0, delta. auto.
Qed.

Record col_spec (e : endian) (g : geom) (q : gcall) (c : gcol) (cells : list flt) : Prop := {
  cs_wf : gcol_wf c; cs_header : header q = gkey c; cs_cells : cells = cells_of q;
  cs_ok : gcol_ok e c; cs_listing : forall n, glisting_of n (gcol_head e c) = Ok (expected_listing n q);
  cs_length : Zlen cells = gm_nx g * gm_ny g; cs_range : Forall cell_ok cells }.

Lemma missing_cell : cell_ok missing_float.
Proof. split; [|split]; vm_compute; reflexivity. Qed.
Lemma clean_parts n : length n = 12%nat ->
  clean (firstn 4 n) ++ clean (firstn 4 (skipn 4 n)) ++ clean (firstn 4 (skipn 8 n)) = field4 n ++ field4 (skipn 4 n) ++ field4 (skipn 8 n).
Proof. intros _. unfold clean, field4. rewrite !firstn_firstn. reflexivity. Qed.

Lemma check_col e g q c cells : call_ok g q -> check_grid g q = Ok (c, cells) -> col_spec e g q c cells.
Proof.
  intros (T1 & T2 & HD) H. unfold check_grid in H.
  destruct (q_grid q) as [arr|] eqn:EG; cbn [bind] in H; [|discriminate H].
  destruct (negb _); [discriminate H|].
  destruct (q_parm q) as [name|] eqn:EN; cbn [bind] in H; [|discriminate H].
  destruct (enc_parm name) as [[[p1 p2] p3]|] eqn:EP; cbn [bind] in H; [|discriminate H].
  destruct (vcoord_name (q_vcoord q)) as [coord|] eqn:EC; cbn [bind] in H; [|discriminate H].
  destruct (level1 (q_level q)) as [lv1|] eqn:E1; cbn [bind] in H; [|discriminate H].
  destruct (parse_date_time (q_time q)) as [[[[g1 d1] h1] m1]|] eqn:ET; cbn [bind] in H; [|discriminate H].
  destruct (level2 (q_level2 q)) as [lv2|] eqn:E2; cbn [bind] in H; [|discriminate H].
  destruct (parse_date_time2 (q_time q) g1 (q_time2 q)) as [t2|] eqn:ET2; cbn [bind] in H; [|discriminate H].
  destruct (encode_vertical_coordinate coord) as [vc|] eqn:EV; cbn [bind] in H; [|discriminate H].
  assert (HC : enc_vcoord (coord_arg (q_vcoord q)) = Ok vc).
  { unfold enc_vcoord, vcoord_name in *. destruct (q_vcoord q) as [|s|]; cbn [coord_arg bind] in *; try discriminate EC;
      destruct (4 <? Zlen _); try discriminate EC; injection EC as <-; exact EV. }
  pose proof (vcoord_roundtrip e _ _ HC) as (_ & HV).
  assert (HV' : convert_vertical_coord e vc = Ok (match q_vcoord q with VCStr s => upper s | _ => [78;79;78;69] end)).
  { rewrite HV. destruct (q_vcoord q); reflexivity. }
  pose proof (enc_parm_ok _ _ _ _ EP) as (_ & L1 & L2 & L3 & EJ).
  assert (LV1 : level_of (q_level q) = lv1).
  { unfold level1 in E1. destruct (q_level q); try discriminate E1. cbn. rewrite E1. reflexivity. }
  assert (LV2 : level_of (q_level2 q) = lv2).
  { unfold level2 in E2. destruct (q_level2 q); try discriminate E2; cbn; [congruence|]. rewrite E2. reflexivity. }
  assert (LL : forall z, convert_level z = listed_level z).
  { intros z. unfold convert_level, listed_level. destruct (Z.geb_spec z 0), (Z.ltb_spec z 0); try lia; reflexivity. }
  assert (EN12 : name_of q = p1 ++ p2 ++ p3) by (unfold name_of; rewrite EN; symmetry; exact EJ).
  assert (P123 : clean p1 ++ clean p2 ++ clean p3 = field4 (name_of q) ++ field4 (skipn 4 (name_of q)) ++ field4 (skipn 8 (name_of q))).
  { rewrite EN12. unfold clean, field4.
    destruct p1 as [|a1 [|a2 [|a3 [|a4 [|]]]]]; try discriminate L1. destruct p2 as [|b1 [|b2 [|b3 [|b4 [|]]]]]; try discriminate L2.
    destruct p3 as [|c1 [|c2 [|c3 [|c4 [|]]]]]; try discriminate L3. reflexivity. }
  destruct (readable_parts _ _ _ _ _ ET T1) as (t0 & delta & B1 & B2 & B3).
  destruct (HD arr eq_refl) as [HL HR].
  assert (CELLS : cells = map fill_nan (snd arr)) by (destruct t2 as [[[[g2 d2] h2] m2]|]; congruence).
  assert (CO : cells = cells_of q) by (unfold cells_of; rewrite EG; exact CELLS).
  assert (CL : Zlen cells = gm_nx g * gm_ny g) by (rewrite CELLS, Zlen_map; exact HL).
  assert (CR : Forall cell_ok cells).
  { rewrite CELLS. rewrite Forall_map. eapply Forall_impl; [|exact HR]. intros x (V & [->|[F B]]); [apply missing_cell|].
    unfold fill_nan. destruct x; try discriminate F; (split; [exact V|split; [exact F|exact B]]). }
  assert (WOF : when_of (q_time q) = dt_key (g1, d1) ++ tm_key (g1, (h1, m1))) by (unfold when_of; rewrite ET; reflexivity).
  destruct (q_time2 q) as [a2|] eqn:EA.
  - destruct t2 as [[[[g2 d2] h2] m2]|]; [|exfalso; eapply time2_none; exact ET2].
    pose proof (time2_parse _ _ _ _ ET2 (T2 a2 eq_refl)) as PA.
    destruct (readable_parts _ _ _ _ _ PA (T2 a2 eq_refl)) as (t0' & delta' & B1' & B2' & B3').
    injection H as <- <-. constructor; try assumption.
    + repeat split; assumption.
    + unfold header, gkey. cbn [g_dt1 g_tm1 g_dt2 g_tm2 g_lv1 g_lv2 g_vc g_p1 g_p2 g_p3].
      rewrite WOF, EA, LV1, LV2, HC. cbn [ok_or]. rewrite <- EN12. unfold when_of. rewrite PA. reflexivity.
    + split; [eexists; exact B1|]. split; [eexists; exact B2|]. split; [eexists; exact B1'|]. split; [eexists; exact B2'|]. eexists; exact HV'.
    + intros n. erewrite glisting_head; [|exact B1|exact B2|exact B3|exact B1'|exact B2'|cbn iota beta; rewrite B3'; reflexivity].
      unfold expected_listing, gcol_listing. cbn [g_p1 g_p2 g_p3 g_lv1 g_lv2 g_vc]. rewrite HV', P123, !LL, LV1, LV2, EA. reflexivity.
  - cbn [parse_date_time2] in ET2. injection ET2 as <-. injection H as <- <-. constructor; try assumption.
    + repeat split; assumption.
    + unfold header, gkey. cbn [g_dt1 g_tm1 g_dt2 g_tm2 g_lv1 g_lv2 g_vc g_p1 g_p2 g_p3].
      rewrite WOF, EA, LV1, LV2, HC. cbn [ok_or]. rewrite <- EN12. reflexivity.
    + split; [eexists; exact B1|]. split; [eexists; exact B2|]. split; [eexists; reflexivity|]. split; [eexists; reflexivity|]. eexists; exact HV'.
    + intros n. erewrite glisting_head; [|exact B1|exact B2|exact B3|reflexivity|reflexivity|reflexivity].
      unfold expected_listing, gcol_listing. cbn [g_p1 g_p2 g_p3 g_lv1 g_lv2 g_vc]. rewrite HV', P123, !LL, LV1, LV2, EA. reflexivity.
Qed.

(** ** The calls in file order *)
Definition hcmp (a b : gcall) : comparison := str_cmp (header a) (header b).
Lemma good_hcmp : good_cmp hcmp.
Proof. apply (good_on header), good_str. Qed.
Lemma same_hcmp a b : same_header a b = is_eq (hcmp a b).
Proof.
  unfold same_header, hcmp. destruct (str_eqb (header a) (header b)) eqn:E.
  - apply str_eqb_spec in E. rewrite E. rewrite (gc_refl good_str). reflexivity.
  - destruct (str_cmp (header a) (header b)) eqn:C; try reflexivity. apply str_cmp_eq in C. apply str_eqb_spec in C. congruence.
Qed.
Lemma keep_same_distinct l : distinct hcmp (keep_last same_header l).
Proof.
  induction l as [|x l IH]; [constructor|]. cbn. destruct (existsb _ l) eqn:E; [exact IH|].
  constructor; [|exact IH]. apply Forall_forall. intros y Hy HE. apply keep_last_in in Hy.
  assert (X : existsb (same_header x) l = true) by (apply existsb_exists; exists y; split; [exact Hy|rewrite same_hcmp, HE; reflexivity]).
  congruence.
Qed.
Lemma keep_same_covers l x : In x l -> exists y, In y (keep_last same_header l) /\ hcmp x y = Eq.
Proof.
  revert x. induction l as [|z l IH]; intros x Hx; [destruct Hx|]. cbn. destruct (existsb (same_header z) l) eqn:E.
  - destruct Hx as [->|Hx]; [|apply IH, Hx]. apply existsb_exists in E as (y & Hy & Ey). rewrite same_hcmp in Ey. apply is_eq_true in Ey.
    destruct (IH y Hy) as (w & Hw & Ew). exists w. split; [exact Hw|]. exact (gc_trans _ _ _ _ good_hcmp Ey Ew).
  - destruct Hx as [->|Hx]; [exists x; split; [left; reflexivity|apply (gc_refl good_hcmp)]|].
    destruct (IH x Hx) as (w & Hw & Ew). exists w. split; [right; exact Hw|exact Ew].
Qed.
Definition file_order (calls : list gcall) : list gcall := sort hcmp (keep_last same_header calls).

Definition no_col : gcol := mk_gc (0, no_time) (0, (0, 0)) None (0, (0, 0)) 0 0 0 [] [] [].
Definition fop (g : geom) (q : gcall) : gop := or_def (no_col, []) (check_grid g q).

Section History.
  Variables (e : endian) (g : geom) (calls : list gcall) (ops : list gop) (o : gridfile).
  Hypothesis HOK : forall q, In q calls -> call_ok g q.
  Hypothesis HF : Forall2 (fun q x => check_grid g q = Ok x) calls ops.
  Hypothesis HA : gafter g ops o.
  Lemma ops_map : ops = map (fop g) calls.
  Proof.
    clear HA HOK. induction HF as [|q x l l' E F IH]; [reflexivity|]. cbn. unfold fop at 1. rewrite E. cbn [or_def]. f_equal. exact (IH F).
  Qed.
  Lemma call_spec q : In q calls -> col_spec e g q (fst (fop g q)) (snd (fop g q)).
  Proof.
    intros H. assert (X : exists x, check_grid g q = Ok x).
    { clear HA HOK. induction HF as [|q' x l l' E F IH]; [destruct H|]. destruct H as [->|H]; [exists x; exact E|exact (IH F H)]. }
    destruct X as ([c cells] & X). unfold fop. rewrite X. cbn [or_def fst snd]. apply check_col; [apply HOK, H|exact X].
  Qed.
  Lemma hcmp_col a b : In a calls -> In b calls -> hcmp a b = gcol_cmp (fst (fop g a)) (fst (fop g b)).
  Proof.
    intros Ha Hb. destruct (call_spec a Ha), (call_spec b Hb). unfold hcmp. rewrite cs_header0, cs_header1. apply gkey_cmp; assumption.
  Qed.
  Lemma order_in q : In q (file_order calls) -> In q calls.
  Proof. intros H. unfold file_order in H. rewrite sort_in in H. eapply keep_last_in, H. Qed.
  Lemma order_sorted : StronglySorted before (file_order calls).
  Proof. apply (sort_strict hcmp good_hcmp). apply keep_same_distinct. Qed.
  Lemma order_perm : Permutation (file_order calls) (keep_last same_header calls).
  Proof. apply sort_perm. Qed.
  Lemma headers_order : gd_col_headers o = map (fun q => fst (fop g q)) (file_order calls).
  Proof.
    rewrite (ga_headers _ _ _ HA), (ga_set _ _ _ HA).
    apply (sorted_same gcol_cmp good_gcol').
    - apply (sort_strict gcol_cmp good_gcol'). apply (set_of_distinct gcol_cmp good_gcol'). constructor.
    - assert (S := order_sorted). assert (IN : forall q, In q (file_order calls) -> In q calls) by apply order_in.
      induction S as [|q l S IH F]; [constructor|]. cbn [map]. constructor; [apply IH; intros; apply IN; right; assumption|].
      rewrite Forall_forall in *. intros c Hc. apply in_map_iff in Hc as (q' & <- & Hq'). specialize (F q' Hq'). unfold before in F.
      rewrite <- hcmp_col; [exact F|apply IN; left; reflexivity|apply IN; right; exact Hq'].
    - intros c. rewrite sort_in, in_map_iff. split; intros H.
      + apply set_of_in in H as [H|H]; [destruct H|]. rewrite ops_map, map_map in H. apply in_map_iff in H as (q & <- & Hq).
        destruct (keep_same_covers calls q Hq) as (q' & Hq' & E). exists q'. split.
        * assert (Hq2 := keep_last_in _ _ _ Hq'). rewrite hcmp_col in E by assumption. symmetry. apply gcol_eq, E.
        * unfold file_order. rewrite sort_in. exact Hq'.
      + destruct H as (q & <- & Hq). apply order_in in Hq.
        assert (M : mem gcol_cmp (fst (fop g q)) (set_of gcol_cmp (map fst ops) []) = true).
        { apply (set_of_has gcol_cmp good_gcol'). rewrite ops_map, map_map. apply in_map_iff. exists q. auto. }
        apply mem_spec in M as (y & Hy & Ey). apply gcol_eq in Ey. rewrite Ey. exact Hy.
  Qed.
  Lemma order_data q : In q (file_order calls) -> dict_get gcol_cmp (fst (fop g q)) (gd_data o) = Some (cells_of q).
  Proof.
    intros H. rewrite (ga_data _ _ _ HA). pose proof (call_spec q (order_in q H)) as S. rewrite <- (cs_cells _ _ _ _ _ S).
    apply (dict_of_last gcol_cmp good_gcol'); [|apply (gc_refl good_gcol')].
    rewrite ops_map. rewrite <- (keep_last_map (fop g) same_header).
    - apply in_map. unfold file_order in H. rewrite sort_in in H. exact H.
    - intros a b Ha Hb. rewrite same_hcmp, hcmp_col by assumption. reflexivity.
  Qed.
End History.
