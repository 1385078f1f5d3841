(** Property C93: grids can be told apart by the labels of their arrays and selected one by one. *)
From Coq Require Import Lia ZifyBool ZifyNat QArith Sorted Permutation.
From Verif Require Import Base BaseFacts Floats Strings StringsFacts Dates SpecDates Headers Order OrderFacts DmFile
  Grid GridRead SpecGrid Query SpecQuery QueryFacts SpecGridLabels Props_Query.
From Verif Require Props_GridFile.
Open Scope Z_scope.

(** ** Labels *)
Lemma lower_inj s t : capital s -> capital t -> lower s = lower t -> s = t.
Proof.
  unfold lower, capital. revert t. induction s as [|c s IH]; intros [|d t] S T H; try discriminate; [reflexivity|]. cbn [map] in H. injection H as H1 H2.
  f_equal; [|apply IH; [intros x X; apply S; right; exact X|intros x X; apply T; right; exact X|exact H2]].
  pose proof (S c (or_introl eq_refl)). pose proof (T d (or_introl eq_refl)). unfold lower_c in H1. destruct ((65 <=? c) && (c <=? 90)) eqn:E1; destruct ((65 <=? d) && (d <=? 90)) eqn:E2; lia.
Qed.
Lemma var_name_inj s t : capital s -> capital t -> ~ In s short_names -> ~ In t short_names -> var_name s = var_name t -> s = t.
Proof.
  intros S T NS NT. unfold var_name.
  assert (B : forall u k, capital u -> capital k -> In k short_names -> ~ In u short_names -> lower k = lower u -> False).
  { intros u k U K IK NU E. apply (lower_inj k u K U) in E. subst. auto. }
  assert (K1 : capital [80]) by (intros c [<-|[]]; lia). assert (K2 : capital [90]) by (intros c [<-|[]]; lia).
  assert (K3 : capital [84;72;69;84;65]) by (intros c C; cbn in C; intuition lia).
  destruct (str_eqb s [80;82;69;83]) eqn:S1; [apply str_eqb_spec in S1; subst s|destruct (str_eqb s [72;71;72;84]) eqn:S2; [apply str_eqb_spec in S2; subst s|destruct (str_eqb s [84;72;84;65]) eqn:S3; [apply str_eqb_spec in S3; subst s|]]];
  (destruct (str_eqb t [80;82;69;83]) eqn:T1; [apply str_eqb_spec in T1; subst t|destruct (str_eqb t [72;71;72;84]) eqn:T2; [apply str_eqb_spec in T2; subst t|destruct (str_eqb t [84;72;84;65]) eqn:T3; [apply str_eqb_spec in T3; subst t|]]]);
  intros E; try reflexivity; try discriminate E; try (apply lower_inj; assumption); exfalso;
  first [ exact (B _ [80] T K1 ltac:(cbn; auto) NT E) | exact (B _ [90] T K2 ltac:(cbn; auto) NT E) | exact (B _ [84;72;69;84;65] T K3 ltac:(cbn; auto) NT E)
        | exact (B _ [80] S K1 ltac:(cbn; auto) NS (eq_sym E)) | exact (B _ [90] S K2 ltac:(cbn; auto) NS (eq_sym E)) | exact (B _ [84;72;69;84;65] S K3 ltac:(cbn; auto) NS (eq_sym E)) ].
Qed.

(** Arrays of one call: those with the same labels come from grids that agree in all that is
    listed.  Missing: names of grids with lower-case letters, the names P, Z and THETA
    (C93_names_refuted), and grids of which only the second level or time differs
    (C93_layers_refuted). *)
Theorem C93_labels_partial : forall f args outs, gdxarray f args = Ok outs ->
  exists sel parts, gd_select (rg_info f) args = Ok sel /\ outs = concat parts /\
  (* the arrays of each grid *)
  Forall2 (fun g part => read_grid f (gl_no g) = Ok (map go_cells part)) sel parts /\
  forall i j a b xs ys x y, nth_error sel i = Some a -> nth_error parts i = Some xs -> In x xs ->
    nth_error sel j = Some b -> nth_error parts j = Some ys -> In y ys ->
    plain a -> plain b -> gl_level2 a = gl_level2 b -> gl_time2 a = gl_time2 b ->
    same_labels x y -> alike a b.
Proof.
  intros f args outs H. destruct (C42_grid_contents f args outs H) as (sel & parts & S & C & F). exists sel, parts. split; [exact S|]. split; [exact C|]. split.
  - clear -F. induction F as [|g part l l' (cells & R & M & _) F IH]; constructor; [congruence|exact IH].
  - assert (N : forall i a xs x, nth_error sel i = Some a -> nth_error parts i = Some xs -> In x xs ->
      go_name x = var_name (gl_parm a) /\ go_time x = gl_time1 a /\ go_coord x = lower (gl_coord a) /\ go_level x = gl_level1 a /\ go_type x = gl_type a).
    { clear -F. induction F as [|g part l l' (cells & R & M & A) F IH]; intros [|i] a xs x E1 E2 I; cbn [nth_error] in E1, E2; try discriminate.
      - injection E1 as <-. injection E2 as <-. rewrite Forall_forall in A. exact (A x I).
      - eapply IH; eassumption. }
    intros i j a b xs ys x y A1 A2 A3 B1 B2 B3 (PA1 & PA2 & PA3) (PB1 & PB2 & PB3) L2 T2 (E1 & E2 & E3 & E4 & E5).
    destruct (N _ _ _ _ A1 A2 A3) as (N1 & N2 & N3 & N4 & N5). destruct (N _ _ _ _ B1 B2 B3) as (M1 & M2 & M3 & M4 & M5).
    split; [congruence|]. split; [congruence|]. split; [exact T2|]. split; [apply var_name_inj; try assumption; congruence|]. split; [congruence|]. split; [exact L2|]. apply lower_inj; [assumption..|congruence].
Qed.
Print Assumptions C93_labels_partial.

(** ** Selecting one grid *)
Lemma capital_upper s : capital s -> upper s = s.
Proof.
  unfold capital, upper. induction s as [|c s IH]; intros S; [reflexivity|]. cbn [map]. rewrite IH by (intros x X; apply S; right; exact X). f_equal.
  pose proof (S c (or_introl eq_refl)). unfold upper_c. destruct ((97 <=? c) && (c <=? 122)) eqn:E; lia.
Qed.
Definition arguments (a : glisting) : gdargs :=
  mk_gda (Some (One (gl_parm a))) (Some (One (TDt (gl_time1 a)))) (Some (One (gl_coord a)))
    (match gl_level1 a with Some z => Some (One (PInt z)) | None => None end)
    (match gl_time2 a with Some t => Some (One (TDt t)) | None => None end)
    (match gl_level2 a with Some z => Some (One (PInt z)) | None => None end).
Lemma wanted_self all a : capital (gl_parm a) -> capital (gl_coord a) -> wanted_grid all (arguments a) a.
Proof.
  intros C1 C2. unfold wanted_grid, arguments. cbn [a_parameter a_time a_coordinate a_level a_time2 a_level2 accepts time_accepted].
  split; [unfold name_matches; rewrite capital_upper; auto|]. split; [right; right; reflexivity|]. split; [unfold name_matches; rewrite capital_upper; auto|].
  destruct (gl_level1 a), (gl_time2 a), (gl_level2 a); cbn; repeat (split; [first [exact Logic.I|reflexivity|right; right; eexists; split; reflexivity]|]); first [exact Logic.I|reflexivity|right; right; eexists; split; reflexivity].
Qed.
Lemma wanted_separable all a b : capital (gl_parm a) -> capital (gl_coord a) -> separable a b -> ~ wanted_grid all (arguments a) b.
Proof.
  intros C1 C2 SP (W1 & W2 & W3 & W4 & W5 & W6). unfold arguments in *. cbn [a_parameter a_time a_coordinate a_level a_time2 a_level2 accepts time_accepted] in *.
  unfold name_matches in *. rewrite capital_upper in W1, W3 by assumption. destruct SP as [X|[X|[X|[(z & E & X)|[(z & E & X)|(t & E & X)]]]]].
  - congruence.
  - congruence.
  - destruct W2 as [([W|W] & _)|[([W|W] & _)|W]]; try discriminate W. cbn [means] in W. congruence.
  - rewrite E in W4. cbn [accepts level_matches] in W4. destruct (gl_level1 b); cbn in W4; [congruence|contradiction].
  - rewrite E in W6. cbn [accepts level_matches] in W6. destruct (gl_level2 b); cbn in W6; [congruence|contradiction].
  - rewrite E in W5. cbn [time2_accepted] in W5. destruct W5 as [([W|W] & _)|[([W|W] & _)|(u & W & W')]]; try discriminate W. cbn [means] in W'. congruence.
Qed.
(** A listed grid that the arguments can separate from every other one is selected alone by some
    call.  Missing: grids that no argument separates (C93_alike_refuted). *)
Theorem C93_selected_partial : forall d f a, open_grid d = Ok f -> In a (rg_info f) ->
  capital (gl_parm a) -> capital (gl_coord a) -> (forall b, In b (rg_info f) -> b = a \/ separable a b) ->
  exists args, gd_select (rg_info f) args = Ok [a].
Proof.
  intros d f a O I C1 C2 SP. exists (arguments a). destruct (C42_grid_selection d f (arguments a) O) as [S1 S2].
  assert (OK : gd_select (rg_info f) (arguments a) = Err KeyError \/ exists l, gd_select (rg_info f) (arguments a) = Ok l).
  { unfold gd_select, arguments. cbn [a_parameter a_time a_coordinate a_level a_time2 a_level2 option_res parse_times bind].
    destruct (gl_time2 a); cbn [option_res parse_times resolve resolve2 bind]; cbv zeta; match goal with |- match ?m with _ => _ end = _ \/ _ => destruct m; [left; reflexivity|right; eexists; reflexivity] end. }
  destruct OK as [E|(l & E)].
  - apply S2 in E as (_ & _ & N). destruct (N a I). apply wanted_self; assumption.
  - rewrite E. f_equal. destruct (S1 l E) as (_ & M & ST).
    assert (IN : forall b, In b l -> b = a). { intros b B. apply M in B as [B W]. destruct (SP b B) as [X|X]; [exact X|]. destruct (wanted_separable (rg_info f) a b C1 C2 X W). }
    assert (IA : In a l) by (apply M; split; [exact I|apply wanted_self; assumption]).
    destruct l as [|x [|y l]]; [destruct IA|f_equal; apply IN; left; reflexivity|]. exfalso.
    apply StronglySorted_inv in ST as [_ ST]. rewrite Forall_forall in ST. specialize (ST y (or_introl eq_refl)). rewrite (IN x), (IN y) in ST by (cbn; auto). lia.
Qed.
Print Assumptions C93_selected_partial.

(** ** Files for which it fails *)
Definition every_grid : gdargs := mk_gda None None None None None None.
Definition grid_of (l : list Z) (name : str) (level : Z) (time : dtarg) (level2 : lvarg) : gcall :=
  mk_gcall (Some (Props_GridFile.ex_nd l)) (Some name) (VCStr [112;114;101;115]) (LNum (PInt level)) time level2 None.
Definition noon : dtarg := ADDt (mk_dt 2024 2 29 12 0 0 0).
Definition cells1 : list Z := [1;2;3;4;5;6;7;8;9].
Definition cells2 : list Z := [9;8;7;6;5;4;3;2;1].
Definition written (calls : list gcall) : bytes :=
  match add_grids (new_grid_file Props_GridFile.ex_geom) calls with Ok o => ok_or [] (snd (save_grid LE (set_precision 12 o))) | Err _ => [] end.
(** What reading everything gives: the names, times, dimensions, levels, types of the arrays *)
Definition labels_of (x : gout) := (go_name x, go_time x, go_coord x, go_level x, go_type x).
Definition read_all (b : bytes) : list glisting * list (str * dtime * str * option Z * ftype) * list gcells :=
  match open_grid b with
  | Ok f => match gdxarray f every_grid with
            | Ok outs => (rg_info f, map labels_of outs, map go_cells outs)
            | Err _ => ([], [], [])
            end
  | Err _ => ([], [], [])
  end.
(** [f] is a file written with these calls of add_grid and opened again. *)
Definition file_with (calls : list gcall) (f : rgrid) : Prop :=
  exists g o o' b, add_grids (new_grid_file g) calls = Ok o /\ save_grid LE (set_precision 12 o) = (o', Ok b) /\ open_grid b = Ok f.
Lemma from_read calls infos ls cs : read_all (written calls) = (infos, ls, cs) -> infos <> [] ->
  exists f outs, file_with calls f /\ gdxarray f every_grid = Ok outs /\ rg_info f = infos /\ map labels_of outs = ls /\ map go_cells outs = cs.
Proof.
  unfold read_all. intros H N. destruct (open_grid (written calls)) as [f|] eqn:O; [|congruence]. destruct (gdxarray f every_grid) as [outs|] eqn:G; [|congruence].
  assert (E0 : forall f, open_grid [] = Ok f -> False) by (intros f0 X; vm_compute in X; discriminate X).
  injection H as H1 H2 H3. exists f, outs. split; [|auto]. unfold written in O. destruct (add_grids _ calls) as [o|] eqn:A; [|destruct (E0 _ O)].
  destruct (save_grid LE (set_precision 12 o)) as [o' r] eqn:S. destruct r as [b|]; cbn [snd ok_or] in O; [|destruct (E0 _ O)]. exists Props_GridFile.ex_geom, o, o', b. auto.
Qed.
Lemma two_arrays calls infos l c1 c2 : read_all (written calls) = (infos, [l; l], [c1; c2]) -> infos <> [] ->
  exists f x y, file_with calls f /\ gdxarray f every_grid = Ok [x; y] /\ rg_info f = infos /\ same_labels x y /\ go_cells x = c1 /\ go_cells y = c2.
Proof.
  intros R N. destruct (from_read _ _ _ _ R N) as (f & outs & F & G & I & L & C). destruct outs as [|x [|y [|z outs]]]; try discriminate L. exists f, x, y. cbn [map] in L, C.
  injection C as C1 C2. injection L as L1 L2. split; [exact F|]. split; [exact G|]. split; [exact I|]. split; [|auto]. rewrite <- L1 in L2. unfold labels_of in L2. injection L2 as ? ? ? ? ?. unfold same_labels. auto.
Qed.
Ltac two calls := let R := fresh in let v := eval vm_compute in (read_all (written calls)) in assert (R : read_all (written calls) = v) by (vm_compute; reflexivity);
  apply two_arrays in R as (f & x & y & F & G & I & S & C1 & C2); [exists calls, f, x, y|discriminate].

(** PRES and P at the same place and time: two arrays named p *)
Theorem C93_names_refuted : exists calls f x y, file_with calls f /\ gdxarray f every_grid = Ok [x; y] /\
  map gl_parm (rg_info f) = [[80]; [80;82;69;83]] (* P, PRES *) /\ same_labels x y /\ go_cells x <> go_cells y.
Proof.
  two [grid_of cells1 [80;82;69;83] 500 noon LNone; grid_of cells2 [80] 500 noon LNone]. split; [exact F|]. split; [exact G|].
  split; [rewrite I; reflexivity|]. split; [exact S|]. rewrite C1, C2. discriminate.
Qed.
Print Assumptions C93_names_refuted.
(** The layers 850-700 and 850-500: two arrays of level 850 *)
Theorem C93_layers_refuted : exists calls f x y, file_with calls f /\ gdxarray f every_grid = Ok [x; y] /\
  map gl_level2 (rg_info f) = [Some 500; Some 700] /\ same_labels x y /\ go_cells x <> go_cells y.
Proof.
  two [grid_of cells1 [84] 850 noon (LNum (PInt 700)); grid_of cells2 [84] 850 noon (LNum (PInt 500))]. split; [exact F|]. split; [exact G|].
  split; [rewrite I; reflexivity|]. split; [exact S|]. rewrite C1, C2. discriminate.
Qed.
Print Assumptions C93_layers_refuted.

(** ** The same valid time from two runs *)
Lemma wanted_alike all args a b : alike a b -> wanted_grid all args a <-> wanted_grid all args b.
Proof. intros (A1 & A2 & A3 & A4 & A5 & A6 & A7). unfold wanted_grid. rewrite A2, A3, A4, A5, A6, A7. reflexivity. Qed.
(** Forecasts of 12 hours from 00 and of 6 hours from 06: they are listed alike, their arrays
    carry the same labels, and every call that selects one selects both. *)
Definition run (hour : Z) (hours : list Z) : dtarg := ADStr (strftime fmt_YmdHM (mk_dt 2024 2 29 hour 0 0 0) ++ 70 :: hours).
Definition run_calls : list gcall := [grid_of cells1 [84] 850 (run 0 [48;49;50]) LNone; grid_of cells2 [84] 850 (run 6 [48;48;54]) LNone].
Theorem C93_alike_refuted : exists calls f x y, file_with calls f /\ gdxarray f every_grid = Ok [x; y] /\
  (exists a b, rg_info f = [a; b] /\ alike a b) /\ same_labels x y /\ go_cells x <> go_cells y /\
  forall args sel, gd_select (rg_info f) args = Ok sel -> sel = rg_info f.
Proof.
  two run_calls. split; [exact F|]. split; [exact G|]. destruct F as (g & o & o' & d & _ & _ & O). rewrite I.
  match goal with |- (exists a b, [?u; ?v] = _ /\ _) /\ _ => set (a := u) in *; set (b := v) in * end.
  assert (AL : alike a b) by (repeat split; reflexivity). split; [exists a, b; auto|]. split; [exact S|]. split; [rewrite C1, C2; discriminate|].
  intros args sel H. destruct (C42_grid_selection d f args O) as [S1 _]. rewrite I in S1. destruct (S1 sel H) as (NE & M & ST).
  assert (IN : forall c, In c [a; b] -> In c sel).
  { assert (W : wanted_grid [a; b] args a /\ wanted_grid [a; b] args b).
    { destruct sel as [|c sel]; [congruence|]. destruct (proj1 (M c) (or_introl eq_refl)) as [[<-|[<-|[]]] W]; [split; [exact W|apply (wanted_alike _ _ a b AL), W]|split; [apply (wanted_alike _ _ a b AL), W|exact W]]. }
    intros c C. apply M. split; [exact C|]. destruct C as [<-|[<-|[]]]; apply W. }
  assert (SU : forall c, In c sel -> c = a \/ c = b) by (intros c C; apply M in C as [[<-|[<-|[]]] _]; auto).
  assert (LT : gl_no a < gl_no b) by (unfold a, b; cbn; lia). clearbody a b. clear -IN SU ST LT.
  destruct sel as [|c1 sel]; [destruct (IN a); cbn; auto|]. apply StronglySorted_inv in ST as [ST F1]. rewrite Forall_forall in F1.
  assert (N1 : c1 = a). { destruct (SU c1 (or_introl eq_refl)) as [X|X]; [exact X|]. subst c1. destruct (IN a (or_introl eq_refl)) as [X|X]; [subst; lia|]. specialize (F1 a X). lia. }
  subst c1. destruct sel as [|c2 sel]; [destruct (IN b ltac:(cbn; auto)) as [X|[]]; subst; lia|]. pose proof (F1 c2 (or_introl eq_refl)) as L2. assert (c2 = b) as -> by (destruct (SU c2 ltac:(cbn; auto)) as [X|X]; [subst; lia|exact X]).
  apply StronglySorted_inv in ST as [_ F2]. rewrite Forall_forall in F2. destruct sel as [|c3 sel]; [reflexivity|]. specialize (F2 c3 (or_introl eq_refl)). destruct (SU c3 ltac:(cbn; auto)) as [X|X]; subst; lia.
Qed.
Print Assumptions C93_alike_refuted.

(** ** The hypotheses are met: the two grids of [ex_bytes], TMPC at 500 and 850 hPa *)
Lemma no_small l : forallb (fun c => negb ((97 <=? c) && (c <=? 122))) l = true -> capital l.
Proof. intros H c C. rewrite forallb_forall in H. specialize (H c C). lia. Qed.
Example C93_ex : exists f a b x y, open_grid Props_GridFile.ex_bytes = Ok f /\ rg_info f = [a; b] /\ plain a /\ plain b /\ separable a b /\ separable b a /\
  gl_level2 a = gl_level2 b /\ gl_time2 a = gl_time2 b /\ gdxarray f every_grid = Ok [x; y] /\ ~ same_labels x y.
Proof.
  let v := eval vm_compute in (read_all Props_GridFile.ex_bytes) in assert (R : read_all Props_GridFile.ex_bytes = v) by (vm_compute; reflexivity).
  unfold read_all in R. destruct (open_grid Props_GridFile.ex_bytes) as [f|] eqn:O; [|discriminate R]. destruct (gdxarray f every_grid) as [outs|] eqn:G; [|discriminate R].
  injection R as I L _. destruct outs as [|x [|y [|z outs]]]; try discriminate L. exists f. rewrite I. do 2 eexists. exists x, y. split; [reflexivity|]. split; [reflexivity|].
  assert (P : forall g, forallb (fun c => negb ((97 <=? c) && (c <=? 122))) (gl_parm g) = true -> forallb (fun c => negb ((97 <=? c) && (c <=? 122))) (gl_coord g) = true ->
    existsb (str_eqb (gl_parm g)) short_names = false -> plain g).
  { intros g H1 H2 H3. split; [apply no_small, H1|]. split; [apply no_small, H2|]. intros X. assert (existsb (str_eqb (gl_parm g)) short_names = true) as Y; [|congruence].
    apply existsb_exists. exists (gl_parm g). split; [exact X|]. apply str_eqb_spec. reflexivity. }
  split; [apply P; reflexivity|]. split; [apply P; reflexivity|]. split; [right; right; right; left; eexists; split; [reflexivity|discriminate]|].
  split; [right; right; right; left; eexists; split; [reflexivity|discriminate]|]. split; [reflexivity|]. split; [reflexivity|]. split; [exact G|].
  apply (f_equal (map (fun l => snd (fst l)))) in L. cbn in L. intros (_ & _ & _ & E & _). congruence.
Qed.
