(** Properties C42-C45: selections. *)
From Coq Require Import Lia ZifyBool ZifyNat QArith Sorted Permutation.
From Verif Require Import Base BaseFacts Floats Strings StringsFacts Dates SpecDates DatesFacts Headers Order OrderFacts DmFile DmHookFacts
  Station Text StationRead StationFacts HistoryFacts SpecStation Grid GridRead SpecGrid Query SpecQuery QueryFacts.
From Verif Require Props_Station Props_GridFile.
Open Scope Z_scope.

(** ** C42: grids *)
(** Names [go_cells] etc. are the fields of a returned array; [read_grid] is one grid of the file. *)
Lemma Forall2_weaken {A B} (P R : A -> B -> Prop) l l' : (forall x y, P x y -> R x y) -> Forall2 P l l' -> Forall2 R l l'.
Proof. intros H F. induction F; constructor; auto. Qed.
Theorem C42_grid_selection : forall d f a,
  open_grid d = Ok f ->
  (* what is selected: exactly the grids that satisfy every given condition, in file order *)
  (forall l, gd_select (rg_info f) a = Ok l ->
     l <> [] /\ (forall g, In g l <-> In g (rg_info f) /\ wanted_grid (rg_info f) a g) /\
     StronglySorted (fun x y => gl_no x < gl_no y) l) /\
  (* KeyError exactly when the time arguments are usable and no grid satisfies them all *)
  (gd_select (rg_info f) a = Err KeyError <->
     time_arg_ok (map gl_time1 (rg_info f)) (a_time a) /\ time2_arg_ok (map gl_time2 (rg_info f)) (a_time2 a) /\
     forall g, In g (rg_info f) -> ~ wanted_grid (rg_info f) a g).
Proof.
  intros d f a H. destruct (open_grid_info d f H) as [HV HS]. destruct (gd_select_spec (rg_info f) a HV) as (S1 & S2 & _).
  split; [|exact S2]. intros l Hl. destruct (S1 l Hl) as (A & B & C). auto.
Qed.
Print Assumptions C42_grid_selection.
(** What gdxarray returns is read from the selected grids, in that order, with their headers. *)
Theorem C42_grid_contents : forall f a outs,
  gdxarray f a = Ok outs ->
  exists l parts, gd_select (rg_info f) a = Ok l /\ outs = concat parts /\
    Forall2 (fun g part => exists cells, read_grid f (gl_no g) = Ok cells /\
       map go_cells part = cells /\
       Forall (fun o => go_name o = var_name (gl_parm g) /\ go_time o = gl_time1 g /\ go_coord o = lower (gl_coord g) /\
                        go_level o = gl_level1 g /\ go_type o = gl_type g) part) l parts.
Proof.
  intros f a outs H. unfold gdxarray in H. destruct (gd_select (rg_info f) a) as [l|]; cbn [bind] in H; [|discriminate H].
  destruct (mapM _ l) as [parts|] eqn:E; cbn [bind] in H; [|discriminate H]. apply ok_inj in H. subst outs.
  exists l, parts. split; [reflexivity|]. split; [reflexivity|]. apply mapM_ok_Forall2 in E.
  eapply Forall2_weaken; [|exact E]. cbv beta. intros g part H. destruct (read_grid f (gl_no g)) as [cs|]; cbn [bind] in H; [|discriminate H].
  apply ok_inj in H. subst part. exists cs. split; [reflexivity|]. split; [rewrite map_map; apply map_id|].
  apply Forall_forall. intros o Ho. apply in_map_iff in Ho as (c & <- & _). auto.
Qed.
Print Assumptions C42_grid_contents.
(** Names and coordinates may be given in either case. *)
Theorem C42_case_insensitive : forall info p t c l t2 l2 p' c',
  map upper p = map upper p' -> map upper c = map upper c' ->
  gd_select info (mk_gda (Some (Many p)) t (Some (Many c)) l t2 l2) = gd_select info (mk_gda (Some (Many p')) t (Some (Many c')) l t2 l2).
Proof.
  intros info p t c l t2 l2 p' c' H1 H2. unfold gd_select. cbn [a_parameter a_time a_coordinate a_level a_time2 a_level2].
  assert (U1 : uppers (Many p) = uppers (Many p')) by exact H1. assert (U2 : uppers (Many c) = uppers (Many c')) by exact H2.
  cbn [narrow]. rewrite U1, U2. reflexivity.
Qed.
Print Assumptions C42_case_insensitive.
Definition ex_opened : res rgrid := open_grid Props_GridFile.ex_bytes.
Definition ex_info_of (r : res rgrid) : list glisting := match r with Ok f => rg_info f | Err _ => [] end.
(* parameter 'tmpc', level 500.0 *)
Definition ex_args : gdargs := mk_gda (Some (One [116;109;112;99])) (Some (One (TStr w_first))) None (Some (One (PFloat (of_Z 500)))) None None.
Example C42_example : (exists f, ex_opened = Ok f) /\
  match gd_select (ex_info_of ex_opened) ex_args with Ok l => Zlen l | Err _ => 0 end = 1 /\
  gd_select (ex_info_of ex_opened) (mk_gda (Some (One [84])) None None None None None) = Err KeyError.
Proof. split; [vm_compute; eexists; reflexivity|]. split; vm_compute; reflexivity. Qed.

(** ** C43: soundings and surface stations *)
Theorem C43_surface_selection : forall d f l a,
  open_station KSurface d = Ok f -> info f = Ok l ->
  (forall s, st_select KSurface l a = Ok s ->
     s <> [] /\ (forall x, In x s <-> In x l /\ wanted_entry l a x) /\ StronglySorted entry_before s) /\
  (st_select KSurface l a = Err KeyError <->
     time_arg_ok (map ls_time l) (a_when a) /\ forall x, In x l -> ~ wanted_entry l a x).
Proof.
  intros d f l a HO HI. destruct (info_spec f l (open_station_headers _ _ _ HO) HI) as [HV HS].
  destruct (st_select_spec KSurface l a HV) as (S1 & S2). split; [|exact S2].
  intros s Hs. destruct (S1 s Hs) as (A & B & C). auto.
Qed.
Print Assumptions C43_surface_selection.
(** Soundings: the same when state and country are single values, or lists of upper-case names. *)
Definition plain_area (arg : option (some_of str)) : Prop :=
  match arg with Some (Many l) => forall s, In s l -> upper s = s | _ => True end.
Lemma plain_accepts n arg : plain_area arg -> (area_accepts KSounding n arg <-> accepts (name_matches n) arg).
Proof.
  destruct arg as [[x|l]|]; cbn [plain_area area_accepts accepts]; [tauto| |tauto]. intros H. unfold name_matches. split.
  - intros HI. exists n. split; [exact HI|]. symmetry. apply H, HI.
  - intros (x & HX & ->). rewrite (H x HX). exact HX.
Qed.
Theorem C43_sounding_selection_partial : forall d f l a,
  open_station KSounding d = Ok f -> info f = Ok l -> plain_area (a_state a) -> plain_area (a_country a) ->
  (forall s, st_select KSounding l a = Ok s ->
     s <> [] /\ (forall x, In x s <-> In x l /\ wanted_entry l a x) /\ StronglySorted entry_before s) /\
  (st_select KSounding l a = Err KeyError <->
     time_arg_ok (map ls_time l) (a_when a) /\ forall x, In x l -> ~ wanted_entry l a x).
Proof.
  intros d f l a HO HI P1 P2. destruct (info_spec f l (open_station_headers _ _ _ HO) HI) as [HV HS].
  destruct (st_select_spec KSounding l a HV) as (S1 & S2).
  assert (W : forall x, wanted_place_time l a x /\ area_accepts KSounding (ls_state x) (a_state a) /\ area_accepts KSounding (ls_country x) (a_country a) <-> wanted_entry l a x).
  { intros x. unfold wanted_entry. rewrite (plain_accepts _ _ P1), (plain_accepts _ _ P2). reflexivity. }
  split.
  - intros s Hs. destruct (S1 s Hs) as (A & B & C). split; [exact A|]. split; [|auto]. intros x. rewrite (B x). cbv beta. rewrite W. reflexivity.
  - rewrite S2. split; intros [A B]; (split; [exact A|]); intros x Hx HW; apply (B x Hx); apply W, HW.
Qed.
Print Assumptions C43_sounding_selection_partial.
(** A list of lower-case states selects nothing although the single value selects the sounding. *)
Definition ex_snd_bytes : bytes := Props_Station.bytes_of_result (snd (save LE (Props_Station.ex_file KSounding Props_Station.ex_calls))).
Definition listings (r : res rfile) : list listing := match r with Ok f => match info f with Ok l => l | Err _ => [] end | Err _ => [] end.
Lemma listings_ok k d : listings (open_station k d) <> [] -> exists d' f, open_station k d' = Ok f /\ info f = Ok (listings (open_station k d)).
Proof. intros H. exists d. destruct (open_station k d) as [f|] eqn:E; [|destruct (H eq_refl)]. exists f. split; [reflexivity|]. cbn in *. destruct (info f); [reflexivity|destruct (H eq_refl)]. Qed.
Definition ex_snd_info : list listing := listings (open_station KSounding ex_snd_bytes).
Definition by_state (s : some_of str) : stargs := mk_sta None None None (Some s) None None.
Lemma case_gen b l : l = listings (open_station KSounding b) -> l <> [] ->
  st_select KSounding l (by_state (One [111;107])) = Ok l -> st_select KSounding l (by_state (Many [[111;107]])) = Err KeyError ->
  Forall (fun y => ls_state y = upper [111;107]) l ->
  exists l s x,
  st_select KSounding l (by_state (One s)) = Ok x /\ x <> [] /\ st_select KSounding l (by_state (Many [s])) = Err KeyError /\
  (forall y, In y x -> wanted_entry l (by_state (Many [s])) y) /\
  (exists d f, open_station KSounding d = Ok f /\ info f = Ok l).
Proof.
  intros EL E H1 H2 F. exists l, [111;107], l. repeat (split; [assumption|]). split.
  - intros y Hy. assert (SY : ls_state y = upper [111;107]) by (rewrite Forall_forall in F; exact (F y Hy)).
    unfold wanted_entry, wanted_place_time, by_state. cbn [a_id a_number a_when a_state a_country a_bbox accepts time_accepted].
    split; [split; [exact I|]; split; [exact I|]; split; [exact I|]; discriminate|]. split; [|exact I]. exists [111;107]. split; [left; reflexivity|exact SY].
  - subst l. apply listings_ok, E.
Qed.
Theorem C43_sounding_state_case_refuted : exists l s x,
  st_select KSounding l (by_state (One s)) = Ok x /\ x <> [] /\ st_select KSounding l (by_state (Many [s])) = Err KeyError /\
  (forall y, In y x -> wanted_entry l (by_state (Many [s])) y) /\
  (exists d f, open_station KSounding d = Ok f /\ info f = Ok l).
Proof.
  apply (case_gen ex_snd_bytes ex_snd_info); [vm_compute; reflexivity|vm_compute; discriminate|vm_compute; reflexivity|vm_compute; reflexivity|vm_compute; repeat constructor].
Qed.
Print Assumptions C43_sounding_state_case_refuted.
Example C43_example : (exists f, open_station KSounding ex_snd_bytes = Ok f) /\ Zlen ex_snd_info = 2 /\
  match st_select KSounding ex_snd_info (mk_sta (Some (One [107;111;117;110])) None None (Some (One [111;107])) None (Some (-100, -90, 0, 40)%Q)) with Ok l => Zlen l | Err _ => 0 end = 1.
Proof. split; [vm_compute; eexists; reflexivity|]. split; vm_compute; reflexivity. Qed.

(** ** C44: first and last *)
Theorem C44_first_last_grids : forall d f a l w,
  open_grid d = Ok f -> a_time a = Some (One (TStr w)) -> (w = w_first \/ w = w_FIRST \/ w = w_last \/ w = w_LAST) ->
  gd_select (rg_info f) a = Ok l ->
  forall g, In g l <->
    In g (rg_info f) /\ wanted_grid (rg_info f) (mk_gda (a_parameter a) None (a_coordinate a) (a_level a) (a_time2 a) (a_level2 a)) g /\
    forall g', In g' (rg_info f) ->
      if existsb (str_eqb w) [w_first; w_FIRST] then instant (gl_time1 g) <= instant (gl_time1 g')
      else instant (gl_time1 g') <= instant (gl_time1 g).
Proof.
  intros d f a l w HO HA HW HS g. destruct (C42_grid_selection d f a HO) as [S _]. destruct (S l HS) as (_ & S2 & _). rewrite S2.
  unfold wanted_grid. cbn [a_parameter a_time a_coordinate a_level a_time2 a_level2]. rewrite HA. cbn [time_accepted accepts].
  assert (NM : ~ means (TStr w) (gl_time1 g)).
  { apply words_not_times. unfold means_first, means_last. destruct HW as [->|[->|[->| ->]]]; auto. }
  assert (T : ((means_first (TStr w) /\ forall u, In u (map gl_time1 (rg_info f)) -> instant (gl_time1 g) <= instant u) \/
               (means_last (TStr w) /\ forall u, In u (map gl_time1 (rg_info f)) -> instant u <= instant (gl_time1 g)) \/ means (TStr w) (gl_time1 g)) <->
              forall g', In g' (rg_info f) -> if existsb (str_eqb w) [w_first; w_FIRST] then instant (gl_time1 g) <= instant (gl_time1 g') else instant (gl_time1 g') <= instant (gl_time1 g)).
  { destruct HW as [->|[->|[->| ->]]]; cbn [existsb];
      change (str_eqb w_first w_first) with true; change (str_eqb w_FIRST w_first) with false; change (str_eqb w_FIRST w_FIRST) with true;
      change (str_eqb w_last w_first) with false; change (str_eqb w_last w_FIRST) with false; change (str_eqb w_LAST w_first) with false; change (str_eqb w_LAST w_FIRST) with false; cbn [orb].
    all: split; [intros [[M F]|[[M F]|M]]; [| |destruct (NM M)]; try (destruct M as [M|M]; discriminate M); intros g' Hg'; apply F, in_map, Hg'|].
    all: intros F; first [left; split; [unfold means_first; auto|]; intros u Hu; apply in_map_iff in Hu as (g' & <- & Hg'); exact (F g' Hg')
                         |right; left; split; [unfold means_last; auto|]; intros u Hu; apply in_map_iff in Hu as (g' & <- & Hg'); exact (F g' Hg')]. }
  rewrite T. tauto.
Qed.
Print Assumptions C44_first_last_grids.
Theorem C44_first_last_stations : forall k d f l a s w,
  open_station k d = Ok f -> info f = Ok l ->
  a_when a = Some (One (TStr w)) -> (w = w_first \/ w = w_FIRST \/ w = w_last \/ w = w_LAST) ->
  st_select k l a = Ok s ->
  forall x, In x s <->
    In x l /\ (exists s', st_select k l (mk_sta (a_id a) (a_number a) None (a_state a) (a_country a) (a_bbox a)) = Ok s' /\ In x s') /\
    forall y, In y l ->
      if existsb (str_eqb w) [w_first; w_FIRST] then instant (ls_time x) <= instant (ls_time y)
      else instant (ls_time y) <= instant (ls_time x).
Proof.
  intros k d f l a s w HO HI HA HW HS x. destruct (info_spec f l (open_station_headers _ _ _ HO) HI) as [HV _].
  destruct (st_select_spec k l a HV) as (S1 & _). destruct (S1 s HS) as (_ & S2 & _). rewrite S2. clear S1 S2 HS.
  set (a' := mk_sta (a_id a) (a_number a) None (a_state a) (a_country a) (a_bbox a)).
  destruct (st_select_spec k l a' HV) as (S1 & S2).
  assert (T : time_accepted (map ls_time l) (a_when a) (ls_time x) <->
              forall y, In y l -> if existsb (str_eqb w) [w_first; w_FIRST] then instant (ls_time x) <= instant (ls_time y) else instant (ls_time y) <= instant (ls_time x)).
  { rewrite HA. cbn [time_accepted].
    assert (NM : ~ means (TStr w) (ls_time x)).
    { apply words_not_times. unfold means_first, means_last. destruct HW as [->|[->|[->| ->]]]; auto. }
    destruct HW as [->|[->|[->| ->]]]; cbn [existsb];
      change (str_eqb w_first w_first) with true; change (str_eqb w_FIRST w_first) with false; change (str_eqb w_FIRST w_FIRST) with true;
      change (str_eqb w_last w_first) with false; change (str_eqb w_last w_FIRST) with false; change (str_eqb w_LAST w_first) with false; change (str_eqb w_LAST w_FIRST) with false; cbn [orb].
    all: split; [intros [[M F]|[[M F]|M]]; [| |destruct (NM M)]; try (destruct M as [M|M]; discriminate M); intros g' Hg'; apply F, in_map, Hg'|].
    all: intros F; first [left; split; [unfold means_first; auto|]; intros u Hu; apply in_map_iff in Hu as (g' & <- & Hg'); exact (F g' Hg')
                         |right; left; split; [unfold means_last; auto|]; intros u Hu; apply in_map_iff in Hu as (g' & <- & Hg'); exact (F g' Hg')]. }
  assert (E : (exists s', st_select k l a' = Ok s' /\ In x s') <-> In x l /\ wanted_place_time l a' x /\ area_accepts k (ls_state x) (a_state a') /\ area_accepts k (ls_country x) (a_country a')).
  { split; [intros (s' & H1 & H2); apply (proj1 (proj2 (S1 s' H1))), H2|]. intros HX.
    destruct (st_select k l a') as [s'|e] eqn:ES; [exists s'; split; [reflexivity|]; apply (proj1 (proj2 (S1 s' eq_refl))), HX|].
    exfalso. assert (EK : e = KeyError).
    { unfold st_select in ES. cbn [a' a_when option_res bind] in ES. cbv zeta in ES.
      match type of ES with match ?m with _ => _ end = _ => destruct m; congruence end. }
    subst e. destruct (proj1 S2 eq_refl) as [_ N]. exact (N x (proj1 HX) (proj2 HX)). }
  rewrite E. unfold a', wanted_place_time. cbn [a_id a_number a_when a_state a_country a_bbox time_accepted accepts]. rewrite T. tauto.
Qed.
Print Assumptions C44_first_last_stations.
Example C44_example : match st_select KSounding ex_snd_info (mk_sta None None (Some (One (TStr w_last))) None None None) with
  | Ok [x] => ls_time x = mk_dt 2024 2 29 12 30 0 0 | _ => False end.
Proof. vm_compute. reflexivity. Qed.

(** ** C45: nearest_time *)
(** [sfjson] returns one object for every report of the selection, in its order, special reports
    only on request. *)
Theorem C43_surface_reports : forall f a special objs,
  sfjson f a special = Ok objs ->
  exists l sel recs, info f = Ok l /\ st_select KSurface l a = Ok sel /\
    unpack f (map (fun x => (ls_row x, ls_col x)) sel) = Ok recs /\
    Forall2 (fun r o => json_of r = Ok o) (filter (fun r => negb (match r with [] => true | _ => false end) && (special || negb (has k_SPCL r))) recs) objs.
Proof.
  intros f a special objs H. unfold sfjson, select_records in H. destruct (info f) as [l|]; cbn [bind] in H; [|discriminate H].
  destruct (st_select KSurface l a) as [sel|] eqn:ES; cbn [bind] in H; [|discriminate H].
  destruct (unpack f _) as [recs|] eqn:EU; cbn [bind] in H; [|discriminate H].
  exists l, sel, recs. split; [reflexivity|]. split; [exact ES|]. split; [exact EU|]. apply mapM_ok_Forall2, H.
Qed.
Print Assumptions C43_surface_reports.
(** The first of the closest objects. *)
Definition closest (t : dtime) (objs : list sfobj) (o : sfobj) : Prop :=
  exists before after, objs = before ++ o :: after /\
    (forall x, In x before -> Z.abs (instant (ob_time o) - instant t) < Z.abs (instant (ob_time x) - instant t)) /\
    (forall x, In x after -> Z.abs (instant (ob_time o) - instant t) <= Z.abs (instant (ob_time x) - instant t)).
Lemma nearest_spec t l o : valid_dt t = true -> Forall (fun o => valid_dt (ob_time o) = true) l ->
  nearest t l = Ok o -> closest t l o.
Proof.
  intros Ht HV. destruct l as [|x l]; [discriminate|]. cbn [nearest]. intros [= <-].
  assert (G : forall l before x mid, Forall (fun o => valid_dt (ob_time o) = true) (x :: l) ->
     (forall y, In y before -> Z.abs (instant (ob_time x) - instant t) < Z.abs (instant (ob_time y) - instant t)) ->
     (forall y, In y mid -> Z.abs (instant (ob_time x) - instant t) <= Z.abs (instant (ob_time y) - instant t)) ->
     closest t (before ++ x :: mid ++ l) (fold_left (nearer t) l x)).
  { clear x l HV. induction l as [|y l IH]; intros before x mid HV HB HM; cbn [fold_left].
    - exists before, mid. rewrite app_nil_r. auto.
    - inversion HV as [|? ? Hx HV']; subst. inversion HV' as [|? ? Hy HV2]; subst. unfold nearer at 2, apart.
      rewrite !microseconds_spec by assumption.
      destruct (Z.ltb_spec (Z.abs (instant (ob_time y) - instant t)) (Z.abs (instant (ob_time x) - instant t))) as [L|L].
      + specialize (IH (before ++ x :: mid) y []). cbn [app] in IH. rewrite <- app_assoc in IH. cbn [app] in IH. apply IH.
        * constructor; assumption.
        * intros z Hz. apply in_app_iff in Hz as [Hz|[<-|Hz]]; [specialize (HB z Hz); lia|exact L|specialize (HM z Hz); lia].
        * intros z [].
      + specialize (IH before x (mid ++ [y])). rewrite <- app_assoc in IH. cbn [app] in IH. apply IH.
        * constructor; assumption.
        * exact HB.
        * intros z Hz. apply in_app_iff in Hz as [Hz|[<-|[]]]; [auto|exact L]. }
  exact (G l [] x [] HV (fun y (H : In y []) => match H with end) (fun y (H : In y []) => match H with end)).
Qed.
Lemma sfjson_valid f a special objs : headers_valid f -> sfjson f a special = Ok objs -> Forall (fun o => valid_dt (ob_time o) = true) objs.
Proof.
  intros HV H. destruct (C43_surface_reports _ _ _ _ H) as (l & sel & recs & _ & _ & HU & F). apply (unpack_valid _ _ _ HV) in HU.
  apply Forall_forall. intros o Ho. apply (Forall2_in_r _ _ _ _ F) in Ho as (r & Hr & Ho). apply filter_In in Hr as [Hr _].
  rewrite Forall_forall in HU. exact (json_valid _ _ (HU r Hr) Ho).
Qed.
(** [given a]: how many of the five station filters are given (a missing one, an empty string or
    list, and the number 0 count as not given). *)
Definition is_given_str (o : option (some_of str)) : Prop :=
  match o with None => False | Some (One s) => s <> [] | Some (Many l) => l <> [] end.
Definition is_given_num (o : option (some_of Z)) : Prop :=
  match o with None => False | Some (One z) => z <> 0 | Some (Many l) => l <> [] end.
Definition given_list (a : ntargs) : list Prop :=
  [is_given_str (n_id a); is_given_num (n_number a); is_given_str (n_state a); is_given_str (n_country a); n_bbox a <> None].
(** One object per looked-up station, the closest of its reports; [order] is the order in which
    a set of station identifiers is walked. *)
Theorem C45_nearest_time : forall d f l when t a special order objs,
  open_station KSurface d = Ok f -> info f = Ok l -> means when t -> valid_dt t = true ->
  nearest_time order f when a special = Ok objs ->
  Forall2 (fun q o => exists m, sfjson f q special = Ok m /\ closest t m o)
    (map by_id (lookup_ids order l a) ++ map by_number (match n_number a with Some s => listed s | None => [] end)) objs.
Proof.
  intros d f l when t a special order objs HO HI HM HT H. unfold nearest_time in H.
  rewrite (proj2 (parse_item_spec when t) HM) in H. cbn [bind] in H.
  destruct (_ =? 0); [discriminate H|]. destruct (_ >? 1); [discriminate H|]. rewrite HI in H. cbn [bind] in H.
  destruct (mapM _ (lookup_ids order l a)) as [r1|] eqn:E1; cbn [bind] in H; [|discriminate H].
  destruct (mapM _ (match n_number a with Some s => listed s | None => [] end)) as [r2|] eqn:E2; cbn [bind] in H; [|discriminate H].
  apply ok_inj in H. subst objs. apply mapM_ok_Forall2 in E1, E2.
  assert (K : forall q o, (m <- sfjson f q special ;; nearest t m) = Ok o -> exists m, sfjson f q special = Ok m /\ closest t m o).
  { intros q o Hq. destruct (sfjson f q special) as [m|] eqn:EJ; cbn [bind] in Hq; [|discriminate Hq]. exists m. split; [reflexivity|].
    apply nearest_spec; [exact HT| |exact Hq]. exact (sfjson_valid _ _ _ _ (open_station_headers _ _ _ HO) EJ). }
  apply Forall2_app.
  - clear - E1 K. induction E1 as [|x y l1 l2 H1 H2 IH]; [constructor|]. cbn [map]. constructor; [exact (K _ _ H1)|exact IH].
  - clear - E2 K. induction E2 as [|x y l1 l2 H1 H2 IH]; [constructor|]. cbn [map]. constructor; [exact (K _ _ H1)|exact IH].
Qed.
Print Assumptions C45_nearest_time.
(** Exactly one filter must be given. *)
Fixpoint none_of (l : list Prop) : Prop := match l with [] => True | p :: r => ~ p /\ none_of r end.
Fixpoint two_of (l : list Prop) : Prop := match l with [] => False | p :: r => (p /\ ~ none_of r) \/ two_of r end.
Theorem C45_one_filter : forall order f when t a special, means when t ->
  (none_of (given_list a) -> nearest_time order f when a special = Err ValueError) /\
  (two_of (given_list a) -> nearest_time order f when a special = Err NotImplementedError).
Proof.
  intros order f when t a special HM. unfold nearest_time. rewrite (proj2 (parse_item_spec when t) HM). cbn [bind].
  assert (GS : forall o, truthy nonempty o = true <-> is_given_str o).
  { intros [[s|m]|]; cbn [truthy is_given_str]; [|destruct m; cbn; split; congruence|split; [discriminate|intros []]].
    unfold nonempty. destruct s; cbn; split; congruence. }
  assert (GN : truthy (fun z => negb (z =? 0)) (n_number a) = true <-> is_given_num (n_number a)).
  { destruct (n_number a) as [[s|m]|]; cbn [truthy is_given_num]; [|destruct m; cbn; split; congruence|split; [discriminate|intros []]].
    destruct (Z.eqb_spec s 0); cbn; split; congruence. }
  assert (GB : (match n_bbox a with Some _ => true | None => false end) = true <-> n_bbox a <> None).
  { destruct (n_bbox a); split; congruence. }
  unfold given_list, given_filters. cbn [none_of two_of].
  rewrite <- (GS (n_id a)), <- (GS (n_state a)), <- (GS (n_country a)), <- GN, <- GB.
  destruct (truthy nonempty (n_id a)), (truthy (fun z => negb (z =? 0)) (n_number a)), (truthy nonempty (n_state a)), (truthy nonempty (n_country a)),
    (match n_bbox a with Some _ => true | None => false end); cbn [b2z]; cbn; split; intros H; try reflexivity; exfalso; intuition congruence.
Qed.
Print Assumptions C45_one_filter.
(** Which identifiers an area filter looks up: those of the listed entries in the area, once each. *)
Definition in_area (a : ntargs) (x : listing) : Prop :=
  match n_state a, n_country a, n_bbox a with
  | Some s, _, _ => accepts (name_matches (ls_state x)) (Some s)
  | None, Some c, _ => accepts (name_matches (ls_country x)) (Some c)
  | None, None, Some b => inside b x
  | None, None, None => False
  end.
Lemma id_set_spec l : NoDup (id_set l) /\ forall s, In s (id_set l) <-> In s l.
Proof.
  unfold id_set. change (fold_left _ l []) with (set_of str_cmp l []). split.
  - apply (distinct_NoDup str_cmp good_str). apply (set_of_distinct str_cmp good_str). constructor.
  - intros s. split; intros H; [apply set_of_in in H as [[]|H]; exact H|].
    apply (set_of_has str_cmp good_str _ []) in H. apply mem_spec in H as (x & Hx & E). first [apply (proj1 (str_cmp_eq _ _)) in E|apply is_eq_true, (proj1 (str_cmp_eq _ _)) in E]. subst x. exact Hx.
Qed.
Theorem C45_area_stations : forall order l a,
  (forall m, Permutation m (order m)) -> n_state a <> Some (Many []) -> n_country a <> Some (Many []) ->
  (n_state a <> None \/ n_country a <> None \/ n_bbox a <> None) ->
  NoDup (lookup_ids order l a) /\
  forall s, In s (lookup_ids order l a) <-> exists x, In x l /\ in_area a x /\ ls_id x = s.
Proof.
  intros order l a HP HS HC HA.
  assert (P : forall m (R : str -> Prop), (forall s, In s m <-> R s) -> NoDup (order (id_set m)) /\ forall s, In s (order (id_set m)) <-> R s).
  { intros m R H. destruct (id_set_spec m) as [N I]. split; [exact (Permutation_NoDup (HP _) N)|]. intros s. rewrite <- H, <- I.
    split; apply Permutation_in; [apply Permutation_sym|]; apply HP. }
  assert (F : forall g st, NoDup (order (id_set (map ls_id (flat_map (fun c => filter (fun x => str_eqb c (g x)) l) (uppers st))))) /\
     forall s, In s (order (id_set (map ls_id (flat_map (fun c => filter (fun x => str_eqb c (g x)) l) (uppers st))))) <-> exists x, In x l /\ accepts (name_matches (g x)) (Some st) /\ ls_id x = s).
  { intros g st. apply P. intros s. rewrite in_map_iff. split.
    - intros (x & <- & Hx). apply in_flat_map in Hx as (c & Hc & Hx). apply filter_In in Hx as [Hx E]. apply str_eqb_spec in E. subst c.
      exists x. split; [exact Hx|]. split; [|reflexivity]. unfold uppers in Hc. apply in_map_iff in Hc as (u & Hu & Hin).
      destruct st as [y|m]; cbn [accepts listed] in *; unfold name_matches; [destruct Hin as [->|[]]; auto|]. exists u. auto.
    - intros (x & Hx & HM & <-). exists x. split; [reflexivity|]. apply in_flat_map. exists (g x). split.
      + unfold uppers. apply in_map_iff. destruct st as [y|m]; cbn [accepts listed] in *; unfold name_matches in HM; [exists y; split; [auto|left; reflexivity]|].
        destruct HM as (u & Hu & E). exists u. auto.
      + apply filter_In. split; [exact Hx|]. apply str_eqb_spec. reflexivity. }
  assert (NE : forall st, st <> Many [] -> (match uppers st with [] => true | _ => false end) = false).
  { intros [y|[|y m]] H; [reflexivity|congruence|reflexivity]. }
  unfold lookup_ids, in_area. cbv zeta. destruct (n_state a) as [st|].
  { rewrite (NE st) by congruence. apply F. }
  destruct (n_country a) as [c|].
  { rewrite (NE c) by congruence. apply F. }
  destruct (n_bbox a) as [b|]; [|exfalso; destruct HA as [H|[H|H]]; apply H; reflexivity].
  apply P. intros s. rewrite in_map_iff. split.
  - intros (x & <- & Hx). apply filter_In in Hx as [Hx E]. apply bbox_spec in E. exists x. auto.
  - intros (x & Hx & E & <-). exists x. split; [reflexivity|]. apply filter_In. split; [exact Hx|]. apply bbox_spec, E.
Qed.
Print Assumptions C45_area_stations.

(** ** C67: a report found through an area filter comes from that area *)
(** Refuted: two stations called KOUN, one in OK and one in TX; nearest_time for state OK returns
    the report of the one in TX. *)
Definition ex_state (id st : str) (n h v : Z) : call :=
  mk_call [([116;109;112;99], [of_Z v]); ([80;82;69;83], [of_Z 1000])]
    (Some (PInt 35)) (Some (PInt (-97))) (Props_Station.ex_t h)
    (Some (mk_si (Some id) (Some (NNum (PInt n))) (Some (NNum (PInt 300))) (Some st) (Some [85;83]) None)).
Definition ex_two : list call := [ex_state [75;79;85;78] [79;75] 1 0 20; ex_state [75;79;85;78] [84;88] 2 12 21].
Definition ex_two_bytes : bytes := Props_Station.bytes_of_result (snd (save LE (Props_Station.ex_file KSurface ex_two))).
Definition ex_ok_state : ntargs := mk_nta None None (Some (One [79;75])) None None.
Lemma order_single order f w st sp l s : (forall m, Permutation m (order m)) -> info f = Ok l ->
  lookup_ids (fun m => m) l (mk_nta None None (Some (One st)) None None) = [s] ->
  nearest_time order f w (mk_nta None None (Some (One st)) None None) sp = nearest_time (fun m => m) f w (mk_nta None None (Some (One st)) None None) sp.
Proof.
  intros HP HI HL. assert (HO : lookup_ids order l (mk_nta None None (Some (One st)) None None) = [s]).
  { unfold lookup_ids in *. cbn [n_id n_bbox n_country n_state] in *. cbv zeta in *. cbn [uppers listed map] in *. rewrite HL.
    apply Permutation_length_1_inv, HP. }
  unfold nearest_time. rewrite HI. cbn [bind]. rewrite HL, HO. reflexivity.
Qed.
Definition ex_t6 : dtime := mk_dt 2024 2 29 10 0 0 0.
Definition ex_answer (r : res rfile) : option sfobj :=
  match r with Ok f => match nearest_time (fun m => m) f (TDt ex_t6) ex_ok_state false with Ok [o] => Some o | _ => None end | Err _ => None end.
Definition single_id (r : res rfile) : bool :=
  match r with
  | Ok f => match info f with Ok l => match lookup_ids (fun m => m) l ex_ok_state with [_] => true | _ => false end | Err _ => false end
  | Err _ => false
  end.
Lemma area_gen b o : ex_answer (open_station KSurface b) = Some o -> single_id (open_station KSurface b) = true ->
  exists f, open_station KSurface b = Ok f /\
  forall order, (forall m, Permutation m (order m)) -> nearest_time order f (TDt ex_t6) ex_ok_state false = Ok [o].
Proof.
  intros H1 H2. destruct (open_station KSurface b) as [f|]; [|discriminate H1]. exists f. split; [reflexivity|].
  cbn [ex_answer single_id] in *. destruct (info f) as [l|] eqn:EI; [|discriminate H2].
  destruct (lookup_ids _ l ex_ok_state) as [|s [|? ?]] eqn:EL; try discriminate H2.
  intros order HP. unfold ex_ok_state in *. rewrite (order_single order f _ _ _ l s HP EI EL).
  destruct (nearest_time _ f _ _ _) as [[|x [|? ?]]|]; try discriminate H1. congruence.
Qed.
Theorem C67_area_reports_refuted : exists d f t a o,
  open_station KSurface d = Ok f /\ a = mk_nta None None (Some (One [79;75])) None None /\
  (forall order, (forall m, Permutation m (order m)) -> nearest_time order f (TDt t) a false = Ok [o]) /\
  ob_state o = DHead (HText [84;88]).
Proof.
  assert (H1 : exists o, ex_answer (open_station KSurface ex_two_bytes) = Some o /\ ob_state o = DHead (HText [84;88])).
  { vm_compute. eexists. split; reflexivity. }
  assert (H2 : single_id (open_station KSurface ex_two_bytes) = true) by (vm_compute; reflexivity).
  destruct H1 as (o & H1 & H3). destruct (area_gen _ _ H1 H2) as (f & HF & HN).
  exists ex_two_bytes, f, ex_t6, ex_ok_state, o. split; [exact HF|]. split; [reflexivity|]. split; [exact HN|exact H3].
Qed.
Print Assumptions C67_area_reports_refuted.
(** What does hold: a report found through an area filter carries the identifier of a listed
    station of the area. *)
Theorem C67_area_reports_partial : forall d f l t a special order objs,
  open_station KSurface d = Ok f -> info f = Ok l -> valid_dt t = true ->
  (forall m, Permutation m (order m)) ->
  n_state a <> Some (Many []) -> n_country a <> Some (Many []) -> n_number a = None -> n_id a = None ->
  nearest_time order f (TDt t) a special = Ok objs ->
  forall o, In o objs -> exists x m, In x l /\ in_area a x /\ sfjson f (by_id (ls_id x)) special = Ok m /\ closest t m o.
Proof.
  intros d f l t a special order objs HO HI HT HP HS HC HN HD H o Ho.
  assert (HA : n_state a <> None \/ n_country a <> None \/ n_bbox a <> None).
  { destruct (n_state a) eqn:E1; [left; discriminate|]. destruct (n_country a) eqn:E2; [right; left; discriminate|].
    destruct (n_bbox a) eqn:E3; [right; right; discriminate|]. exfalso. unfold nearest_time, given_filters in H.
    rewrite HN, HD, E1, E2, E3 in H. discriminate H. }
  pose proof (C45_nearest_time d f l (TDt t) t a special order objs HO HI eq_refl HT H) as F. rewrite HN, app_nil_r in F.
  apply (Forall2_in_r _ _ _ _ F) in Ho as (q & Hq & m & Hm & Hc). apply in_map_iff in Hq as (s & <- & Hs).
  apply (C45_area_stations order l a HP HS HC HA) in Hs as (x & Hx & HX & <-). exists x, m. auto.
Qed.
Print Assumptions C67_area_reports_partial.
Definition ex_sf_bytes : bytes := Props_Station.bytes_of_result (snd (save LE (Props_Station.ex_file KSurface (map Props_Station.ex_one Props_Station.ex_calls)))).
Definition ex_near (r : res rfile) (a : ntargs) : list dtime :=
  match r with Ok f => match nearest_time (fun m => m) f (TDt ex_t6) a false with Ok l => map ob_time l | Err _ => [] end | Err _ => [] end.
(* both stations of state OK *)
Example C45_example : ex_near (open_station KSurface ex_sf_bytes) ex_ok_state = [mk_dt 2024 2 29 0 30 0 0; mk_dt 2024 2 29 12 30 0 0] /\
  ex_near (open_station KSurface ex_two_bytes) (mk_nta (Some (One [107;111;117;110])) None None None None) = [mk_dt 2024 2 29 12 30 0 0] /\
  ex_near (open_station KSurface ex_two_bytes) (mk_nta None (Some (One 1)) None None None) = [mk_dt 2024 2 29 0 30 0 0].
Proof. split; [vm_compute; reflexivity|]. split; vm_compute; reflexivity. Qed.
