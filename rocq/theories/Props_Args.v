(** C92: the argument objects of a query. *)
From Coq Require Import ZArith QArith Lia.
From Verif Require Import Base Floats Strings Dates Headers Order DmFile Station StationRead Grid GridRead Query Args SpecArgs StringsFacts.
From Verif Require Props_Query Props_GridFile Props_Station.
From Coq Require Import List.
Import ListNotations.
Open Scope Z_scope.

(** ** Filters with objects that are not iterators *)
Lemma isin_again {A} (p : A -> bool) o : again (Some o) -> isin p o = (existsb p (items o), o).
Proof. intros H. destruct o as [x|l|l|l]; cbn; [rewrite Bool.orb_false_r; reflexivity|reflexivity|reflexivity|]. exfalso. exact (H l eq_refl). Qed.
Definition matches {A} (p : A -> bool) (o : option (arg A)) : bool := match o with None => true | Some a => existsb p (items a) end.
Lemma test_again {A} (p : A -> bool) o : again o -> test p o = (matches p o, o).
Proof. intros H. destruct o as [a|]; [|reflexivity]. cbn [test matches]. rewrite isin_again by exact H. reflexivity. Qed.
Lemma filter_same {A T} (f : T -> A -> bool * T) s (q : A -> bool) l : (forall x, f s x = (q x, s)) -> filter_obj f l s = (filter q l, s).
Proof.
  intros H. induction l as [|x r IH]; [reflexivity|]. cbn [filter_obj filter]. rewrite H, IH. destruct (q x); reflexivity.
Qed.
Lemma narrow_filter {A B} (arg : option B) (p : B -> A -> bool) l :
  narrow arg p l = filter (fun x => match arg with None => true | Some b => p b x end) l.
Proof. destruct arg; [reflexivity|]. symmetry. induction l as [|x r IH]; [reflexivity|]. cbn. rewrite IH. reflexivity. Qed.
Lemma filter_twice {A} (p q : A -> bool) l : filter p (filter q l) = filter (fun x => q x && p x) l.
Proof. induction l as [|x r IH]; [reflexivity|]. cbn. destruct (q x); cbn; [destruct (p x)|]; rewrite IH; reflexivity. Qed.

(** ** Times *)
Lemma in_place_spec l : let '(l', x) := parse_in_place l in
  x = mapM parse_item l /\ Forall2 same_time l l' /\ (forall ts, x = Ok ts -> l' = map TDt ts) /\ parse_in_place l' = (l', x).
Proof.
  induction l as [|i r IH]; [repeat split; [constructor|intros ts [= <-]; reflexivity]|].
  destruct i as [t|s]; cbn [parse_in_place mapM parse_item bind].
  - destruct (parse_in_place r) as [r' x]. destruct IH as (-> & F & D & P). split; [destruct (mapM parse_item r); reflexivity|].
    split; [constructor; [left; reflexivity|exact F]|]. split; [|cbn [parse_in_place]; rewrite P; reflexivity].
    intros ts H. destruct (mapM parse_item r) as [us|]; [|discriminate H]. injection H as <-. cbn. rewrite (D us eq_refl). reflexivity.
  - destruct (strptime fmt_YmdHM s) as [t|e] eqn:ES.
    + destruct (parse_in_place r) as [r' x]. destruct IH as (-> & F & D & P). split; [destruct (mapM parse_item r); reflexivity|].
      split; [constructor; [right; exists s, t; auto|exact F]|]. split; [|cbn [parse_in_place]; rewrite P; reflexivity].
      intros ts H. destruct (mapM parse_item r) as [us|]; [|discriminate H]. injection H as <-. cbn. rewrite (D us eq_refl). reflexivity.
    + split; [reflexivity|]. split; [clear; assert (H : forall l : list titem, Forall2 same_time l l) by (induction l; constructor; [left; reflexivity|assumption]); apply H|].
      split; [intros ts X; discriminate X|]. cbn [parse_in_place]. rewrite ES. reflexivity.
Qed.
Lemma fixed_datetimes l : (forall s, ~ In (TStr s) l) -> snd (parse_fixed l) = mapM parse_item l.
Proof.
  induction l as [|[t|s] r IH]; intros H; [reflexivity| |exfalso; apply (H s); left; reflexivity].
  cbn [parse_fixed mapM parse_item bind]. destruct (parse_fixed r) as [r' x]. cbn [snd] in *. rewrite IH; [destruct (mapM parse_item r); reflexivity|].
  intros s Hs. apply (H s). right. exact Hs.
Qed.
(** what the filters use, from what the selection for lists uses *)
Definition tsel_obj (t : tobj) : tsel := match t with TFirst => SelFirst | TLast => SelLast | TObj o => SelTimes (items o) end.
Definition plain_t (t : tobj) : Prop := match t with TObj o => again (Some o) | _ => True end.
Lemma first_last s : (str_eqb s w_first || str_eqb s w_FIRST = true -> str_eqb s w_last || str_eqb s w_LAST = false)%bool.
Proof.
  intros H. apply Bool.orb_true_iff in H as [H|H]; apply str_eqb_spec in H; subst s; reflexivity.
Qed.
Lemma parse_obj_plain o : times_ok (Some o) -> match snd (parse_obj o) with
  | Ok t => parse_times (given o) = Ok (tsel_obj t) /\ plain_t t
  | Err e => parse_times (given o) = Err e
  end.
Proof.
  intros [HA HT]. destruct o as [[t|s]|l|l|l]; cbn [parse_obj given parse_times snd].
  - split; [reflexivity|]. intros l X. discriminate X.
  - pose proof (first_last s) as FL. destruct (str_eqb s w_first || str_eqb s w_FIRST)%bool.
    + rewrite (FL eq_refl). split; [reflexivity|exact I].
    + destruct (_ || _)%bool; [split; [reflexivity|exact I]|]. destruct (strptime _ s); [|reflexivity]. cbn [bind]. split; [reflexivity|].
      intros l X. discriminate X.
  - pose proof (in_place_spec l) as S. destruct (parse_in_place l) as [l' x]. destruct S as (-> & _). cbn [snd].
    destruct (mapM parse_item l); cbn [bind]; [|reflexivity]. split; [reflexivity|]. intros k X. discriminate X.
  - rewrite (fixed_datetimes l (HT l eq_refl)). destruct (mapM parse_item l); cbn [bind]; [|reflexivity]. split; [reflexivity|]. intros k X. discriminate X.
  - exfalso. exact (HA l eq_refl).
Qed.
Lemma parse_opt_plain o : times_ok o -> match snd (parse_opt o) with
  | Ok t => option_res parse_times (option_map given o) = Ok (option_map tsel_obj t) /\ (forall x, t = Some x -> plain_t x)
  | Err e => option_res parse_times (option_map given o) = Err e
  end.
Proof.
  intros H. destruct o as [a|]; [|split; [reflexivity|discriminate]]. pose proof (parse_obj_plain a H) as P. cbn [parse_opt option_map option_res].
  destruct (parse_obj a) as [a' [t|e]]; cbn [snd bind] in *; [|rewrite P; reflexivity]. destruct P as [-> P]. split; [reflexivity|]. intros x [= <-]. exact P.
Qed.
Lemma resolve_plain times t : plain_t t -> match resolve_obj times t with
  | Ok o => resolve times (tsel_obj t) = Ok (items o) /\ again (Some o)
  | Err e => resolve times (tsel_obj t) = Err e
  end.
Proof.
  intros H. destruct t as [| |o]; cbn [resolve_obj tsel_obj resolve].
  - destruct (min_time times); cbn [bind]; [|reflexivity]. split; [reflexivity|]. intros l X. discriminate X.
  - destruct (max_time times); cbn [bind]; [|reflexivity]. split; [reflexivity|]. intros l X. discriminate X.
  - split; [reflexivity|exact H].
Qed.
Lemma resolve2_plain times t : plain_t t -> match resolve2_obj times t with
  | Ok o => resolve2 times (tsel_obj t) = Ok (items o) /\ again (Some o)
  | Err e => resolve2 times (tsel_obj t) = Err e
  end.
Proof.
  intros H. destruct t as [| |o]; cbn [resolve2_obj tsel_obj].
  - destruct (resolve2 times SelFirst); cbn [bind]; [|reflexivity]. split; [reflexivity|]. intros l X. discriminate X.
  - destruct (resolve2 times SelLast); cbn [bind]; [|reflexivity]. split; [reflexivity|]. intros l X. discriminate X.
  - split; [destruct o; reflexivity|]. intros l X. destruct o as [x|k|k|k]; try discriminate X. exact (H k eq_refl).
Qed.
Lemma opt_resolve_plain times t : (forall x, t = Some x -> plain_t x) -> match option_res (resolve_obj times) t with
  | Ok o => option_res (resolve times) (option_map tsel_obj t) = Ok (option_map items o) /\ again o
  | Err e => option_res (resolve times) (option_map tsel_obj t) = Err e
  end.
Proof.
  intros H. destruct t as [t|]; [|split; [reflexivity|intros l X; discriminate X]]. pose proof (resolve_plain times t (H t eq_refl)) as P.
  cbn [option_res option_map]. destruct (resolve_obj times t) as [o|]; cbn [bind]; [|rewrite P; reflexivity]. destruct P as [-> P]. split; [reflexivity|exact P].
Qed.
Lemma opt_resolve2_plain times t : (forall x, t = Some x -> plain_t x) -> match option_res (resolve2_obj times) t with
  | Ok o => option_res (resolve2 times) (option_map tsel_obj t) = Ok (option_map items o) /\ again o
  | Err e => option_res (resolve2 times) (option_map tsel_obj t) = Err e
  end.
Proof.
  intros H. destruct t as [t|]; [|split; [reflexivity|intros l X; discriminate X]]. pose proof (resolve2_plain times t (H t eq_refl)) as P.
  cbn [option_res option_map]. destruct (resolve2_obj times t) as [o|]; cbn [bind]; [|rewrite P; reflexivity]. destruct P as [-> P]. split; [reflexivity|exact P].
Qed.
Lemma listed_given {A} (o : arg A) : listed (given o) = items o.
Proof. destruct o; reflexivity. Qed.

(** ** C92: an argument acts as the list of its items *)
(** Names may be given by an iterator too. *)
Theorem C92_grids : forall info o, times_ok (o_time o) -> times_ok (o_time2 o) -> again (o_level o) -> again (o_level2 o) ->
  snd (gd_call info o) = gd_select info (given_gd o).
Proof.
  intros info [par tm co lv tm2 lv2] H1 H2 H3 H4. cbn [o_time o_time2 o_level o_level2] in *.
  unfold gd_call, gd_select, given_gd. cbn [o_parameter o_time o_coordinate o_level o_time2 o_level2 a_parameter a_time a_coordinate a_level a_time2 a_level2].
  pose proof (parse_opt_plain tm H1) as P1. pose proof (parse_opt_plain tm2 H2) as P2.
  destruct (parse_opt tm) as [tm' [s1|e]]; cbn [snd] in P1; [|rewrite P1; reflexivity]. destruct P1 as [-> P1]. cbn [bind].
  destruct (parse_opt tm2) as [tm2' [s2|e]]; cbn [snd] in P2; [|rewrite P2; reflexivity]. destruct P2 as [-> P2]. cbn [bind].
  pose proof (opt_resolve_plain (map gl_time1 info) s1 P1) as R1. destruct (option_res (resolve_obj _) s1) as [r1|]; cbn [bind]; [|rewrite R1; reflexivity].
  destruct R1 as [-> R1]. cbn [bind].
  pose proof (opt_resolve2_plain (map gl_time2 info) s2 P2) as R2. destruct (option_res (resolve2_obj _) s2) as [r2|]; cbn [bind]; [|rewrite R2; reflexivity].
  destruct R2 as [-> R2]. cbn [bind].
  rewrite (filter_same _ _ (fun g => among str_eqb (gl_parm g) (upper_items par) && matches (dtime_eqb (gl_time1 g)) r1 && among str_eqb (gl_coord g) (upper_items co)
     && matches (level_eqb (gl_level1 g)) lv && matches (odt_eqb (gl_time2 g)) r2 && matches (level_eqb (gl_level2 g)) lv2)%bool).
  2: { intros g. unfold gd_test. rewrite !test_again by assumption.
       destruct (among _ _ (upper_items par)); [|reflexivity]. destruct (matches _ r1); [|reflexivity].
       destruct (among _ _ (upper_items co)); [|reflexivity]. destruct (matches _ lv); [|reflexivity]. destruct (matches _ r2); reflexivity. }
  cbn [snd]. rewrite !narrow_filter, !filter_twice.
  match goal with |- (match ?a with _ => _ end) = (match ?b with _ => _ end) => assert (E : a = b); [|rewrite E; reflexivity] end.
  apply filter_ext. intros g. unfold uppers, upper_items, among, matches.
  destruct par, r1, co, lv, r2, lv2; cbn [option_map]; rewrite ?listed_given, ?Bool.andb_assoc; reflexivity.
Qed.
Print Assumptions C92_grids.
Lemma area_again k o : again o -> again (area_obj k o).
Proof. intros H. destruct k, o as [[x|l|l|l]|]; cbn; intros q X; try discriminate X; exact (H l eq_refl). Qed.
Lemma area_surface o : again (area_obj KSurface o).
Proof. intros l. destruct o; discriminate. Qed.
(** sfjson takes iterators of states and countries too; snxarray does not. *)
Theorem C92_stations : forall k info o, times_ok (o_when o) -> (k = KSounding -> again (o_state o) /\ again (o_country o)) ->
  snd (st_call k info o) = st_select k info (given_st o).
Proof.
  intros k info [id nu tm st co bx] H1 H2. cbn [o_when o_state o_country] in *.
  assert (HS : again (area_obj k st) /\ again (area_obj k co)).
  { destruct k; [destruct (H2 eq_refl); split; apply area_again; assumption|split; apply area_surface]. }
  destruct HS as [HS HC]. unfold st_call, st_select, given_st. cbn [o_id o_number o_when o_state o_country o_bbox a_id a_number a_when a_state a_country a_bbox].
  pose proof (parse_opt_plain tm H1) as P1.
  destruct (parse_opt tm) as [tm' [s1|e]]; cbn [snd] in P1; [|rewrite P1; reflexivity]. destruct P1 as [-> P1]. cbn [bind].
  pose proof (opt_resolve_plain (map ls_time info) s1 P1) as R1. destruct (option_res (resolve_obj _) s1) as [r1|]; cbn [bind]; [|rewrite R1; reflexivity].
  destruct R1 as [-> R1]. cbn [bind].
  rewrite (filter_same _ _ (fun x => matches (str_eqb (ls_country x)) (area_obj k co) && matches (str_eqb (ls_state x)) (area_obj k st)
    && match bx with None => true | Some q => bbox_filter q (ls_lat x) (ls_lon x) end && matches (dtime_eqb (ls_time x)) r1
    && among str_eqb (ls_id x) (upper_items id) && match option_map items nu with None => true | Some l => existsb (Z.eqb (ls_number x)) l end)%bool).
  2: { intros g. unfold st_test. rewrite !test_again by assumption.
       destruct (matches _ (area_obj k co)); [|reflexivity]. destruct (matches _ (area_obj k st)); [|reflexivity].
       destruct (match bx with None => true | Some q => _ end); reflexivity. }
  cbn [snd]. rewrite !narrow_filter, !filter_twice.
  match goal with |- (match ?a with _ => _ end) = (match ?b with _ => _ end) => assert (E : a = b); [|rewrite E; reflexivity] end.
  apply filter_ext. intros g. unfold uppers, upper_items, among, matches, area_names, area_obj.
  rewrite !Bool.andb_assoc. repeat apply (f_equal2 andb).
  - destruct k, co as [[?|?|?|?]|]; reflexivity.
  - destruct k, st as [[?|?|?|?]|]; reflexivity.
  - destruct bx; reflexivity.
  - destruct r1; reflexivity.
  - destruct id; cbn [option_map]; rewrite ?listed_given; reflexivity.
  - destruct nu; cbn [option_map]; rewrite ?listed_given; reflexivity.
Qed.
Print Assumptions C92_stations.

(** ** What the caller's objects are afterwards, also when the call raises *)
Lemma walked_again {A} (o : option (arg A)) : untouched o (option_map walked o).
Proof. intros H. destruct o as [[x|l|l|l]|]; try reflexivity. exfalso. exact (H l eq_refl). Qed.
Lemma left_again {A} (o o' : option (arg A)) : untouched o (left o o').
Proof. intros H. destruct o as [[x|l|l|l]|]; try reflexivity. exfalso. exact (H l eq_refl). Qed.
Lemma same_again {A} (o : option (arg A)) : untouched o o.
Proof. intros _. reflexivity. Qed.
Lemma area_left_again k (o o' : option (arg str)) : untouched o (area_left k o o').
Proof. destruct k; [apply left_again|apply walked_again]. Qed.
Lemma parse_opt_after o : times_after o (fst (parse_opt o)) /\ (forall t, snd (parse_opt o) = Ok t -> datetimes (fst (parse_opt o))).
Proof.
  destruct o as [[[t|s]|l|l|l]|]; cbn [parse_opt parse_obj times_after].
  1, 2: split; [reflexivity|intros ? _ l X; discriminate X].
  - pose proof (in_place_spec l) as S. destruct (parse_in_place l) as [l' x]. destruct S as (_ & F & D & _). cbn [fst snd].
    split; [exists l'; auto|]. intros t H k [= <-] s HI. destruct x as [ts|]; [|discriminate H]. rewrite (D ts eq_refl) in HI.
    apply in_map_iff in HI as (y & Y & _). discriminate Y.
  - cbn [fst]. split; [reflexivity|intros ? _ k X; discriminate X].
  - destruct (parse_fixed l). split; [exact I|intros ? _ k X; discriminate X].
  - split; [reflexivity|intros ? _ k X; discriminate X].
Qed.
(** Names, levels, station numbers: never changed.  Times: items of a list may have become datetimes, and all have when the call
    returns or finds no entry; nothing else changes. *)
Theorem C92_grids_objects : forall info o o' r, gd_call info o = (o', r) ->
  untouched (o_parameter o) (o_parameter o') /\ untouched (o_coordinate o) (o_coordinate o') /\ untouched (o_level o) (o_level o') /\
  untouched (o_level2 o) (o_level2 o') /\ times_after (o_time o) (o_time o') /\ (o_time2 o' = o_time2 o \/ times_after (o_time2 o) (o_time2 o')) /\
  (forall m, r = Ok m -> datetimes (o_time o') /\ datetimes (o_time2 o')).
Proof.
  intros info [par tm co lv tm2 lv2] o' r H. unfold gd_call in H. cbn [o_parameter o_time o_coordinate o_level o_time2 o_level2] in *.
  pose proof (parse_opt_after tm) as [A1 D1]. pose proof (parse_opt_after tm2) as [A2 D2].
  destruct (parse_opt tm) as [tm' [s1|e]]; cbn [fst snd] in *.
  2: { injection H as <- <-. cbn. repeat split; auto using @walked_again, @same_again; discriminate. }
  destruct (parse_opt tm2) as [tm2' s2]; cbn [fst snd] in *.
  match type of H with (match ?a with _ => _ end) = _ => destruct a as [[r1 r2]|] eqn:E end.
  2: { injection H as <- <-. cbn. repeat split; auto using @walked_again, @same_again; discriminate. }
  destruct (filter_obj _ _ _) as [m [[[t1' lv'] t2'] lv2']]. injection H as <- <-. cbn.
  destruct s2 as [s2|]; [|discriminate E].
  repeat split; auto using @walked_again, @left_again; [apply (D1 _ eq_refl)|apply (D2 _ eq_refl)].
Qed.
Print Assumptions C92_grids_objects.
Theorem C92_stations_objects : forall k info o o' r, st_call k info o = (o', r) ->
  untouched (o_id o) (o_id o') /\ untouched (o_number o) (o_number o') /\ untouched (o_state o) (o_state o') /\ untouched (o_country o) (o_country o') /\
  o_bbox o' = o_bbox o /\ times_after (o_when o) (o_when o') /\ (forall m, r = Ok m -> datetimes (o_when o')).
Proof.
  intros k info [id nu tm st co bx] o' r H. unfold st_call in H. cbn [o_id o_number o_when o_state o_country o_bbox] in *.
  pose proof (parse_opt_after tm) as [A1 D1].
  destruct (parse_opt tm) as [tm' [s1|e]]; cbn [fst snd] in *.
  2: { injection H as <- <-. cbn. repeat split; auto using @walked_again, @same_again; discriminate. }
  destruct (option_res _ s1) as [r1|].
  2: { injection H as <- <-. cbn. repeat split; auto using @walked_again, @area_left_again; discriminate. }
  destruct (filter_obj _ _ _) as [m [[co' st'] t']]. injection H as <- <-. cbn.
  repeat split; auto using @walked_again, @area_left_again. intros m' _. apply (D1 _ eq_refl).
Qed.
Print Assumptions C92_stations_objects.

(** ** The same call again with the same objects *)
Lemma parse_opt_again o : again o -> again (fst (parse_opt o)) /\ parse_opt (fst (parse_opt o)) = parse_opt o.
Proof.
  intros HA. destruct o as [[[t|s]|l|l|l]|]; cbn [parse_opt parse_obj].
  1, 2: split; [intros k X; discriminate X|reflexivity].
  - pose proof (in_place_spec l) as S. destruct (parse_in_place l) as [l' x]. destruct S as (_ & _ & _ & P). cbn [fst].
    split; [intros k X; discriminate X|]. cbn [parse_opt parse_obj]. rewrite P. reflexivity.
  - cbn [fst]. split; [intros k X; discriminate X|reflexivity].
  - exfalso. exact (HA l eq_refl).
  - split; [intros k X; discriminate X|reflexivity].
Qed.
Theorem C92_grids_again : forall info o, again (o_parameter o) -> again (o_time o) -> again (o_coordinate o) -> again (o_level o) -> again (o_time2 o) ->
  again (o_level2 o) -> snd (gd_call info (fst (gd_call info o))) = snd (gd_call info o).
Proof.
  intros info [par tm co lv tm2 lv2] H1 H2 H3 H4 H5 H6. cbn [o_parameter o_time o_coordinate o_level o_time2 o_level2] in *.
  pose proof (walked_again par H1) as W1. pose proof (walked_again co H3) as W2. pose proof (fun z => left_again lv z H4) as L1. pose proof (fun z => left_again lv2 z H6) as L2.
  pose proof (parse_opt_again tm H2) as [_ A1]. pose proof (parse_opt_again tm2 H5) as [_ A2].
  unfold gd_call at 2 3. cbn [o_parameter o_time o_coordinate o_level o_time2 o_level2].
  destruct (parse_opt tm) as [tm' [s1|e]] eqn:E1; cbn [fst] in A1.
  2: { cbn [fst snd]. unfold gd_call. cbn [o_parameter o_time o_coordinate o_level o_time2 o_level2]. rewrite A1. reflexivity. }
  destruct (parse_opt tm2) as [tm2' s2] eqn:E2; cbn [fst] in A2.
  match goal with |- context [match ?a with Ok _ => _ | Err _ => _ end] => destruct a as [[r1 r2]|] eqn:E end.
  2: { cbn [fst snd]. unfold gd_call. cbn [o_parameter o_time o_coordinate o_level o_time2 o_level2]. rewrite A1, A2, E. reflexivity. }
  destruct (filter_obj _ _ _) as [m [[[t1' lv'] t2'] lv2']] eqn:EF. cbn [fst snd]. unfold gd_call.
  cbn [o_parameter o_time o_coordinate o_level o_time2 o_level2]. rewrite A1, A2, E, W1, W2, L1, L2, EF. reflexivity.
Qed.
Print Assumptions C92_grids_again.
Theorem C92_stations_again : forall k info o, again (o_id o) -> again (o_number o) -> again (o_when o) -> again (o_state o) -> again (o_country o) ->
  snd (st_call k info (fst (st_call k info o))) = snd (st_call k info o).
Proof.
  intros k info [id nu tm st co bx] H1 H2 H3 H4 H5. cbn [o_id o_number o_when o_state o_country o_bbox] in *.
  pose proof (walked_again id H1) as W1. pose proof (walked_again nu H2) as W2. pose proof (fun z => area_left_again k st z H4) as L1. pose proof (fun z => area_left_again k co z H5) as L2.
  pose proof (parse_opt_again tm H3) as [_ A1].
  unfold st_call at 2 3. cbn [o_id o_number o_when o_state o_country o_bbox].
  destruct (parse_opt tm) as [tm' [s1|e]] eqn:E1; cbn [fst] in A1.
  2: { cbn [fst snd]. unfold st_call. cbn [o_id o_number o_when o_state o_country o_bbox]. rewrite A1. reflexivity. }
  destruct (option_res (resolve_obj (map ls_time info)) s1) as [r1|] eqn:E.
  2: { cbn [fst snd]. unfold st_call. cbn [o_id o_number o_when o_state o_country o_bbox]. rewrite A1, E. reflexivity. }
  destruct (filter_obj _ _ _) as [m [[co' st'] t']] eqn:EF. cbn [fst snd]. unfold st_call.
  cbn [o_id o_number o_when o_state o_country o_bbox]. rewrite A1, E, W1, W2, L1, L2, EF. reflexivity.
Qed.
Print Assumptions C92_stations_again.

(** ** Iterators *)
(** With an iterator of levels the call can only find less than with the list. *)
Lemma consume_exists {A} (p : A -> bool) l : let '(b, r) := consume p l in (b = true -> existsb p l = true) /\ (forall q, existsb q r = true -> existsb q l = true).
Proof.
  induction l as [|x l IH]; [split; [discriminate|auto]|]. cbn [consume existsb]. destruct (p x); cbn.
  - split; [reflexivity|]. intros q ->. apply Bool.orb_true_r.
  - destruct (consume p l). destruct IH as [H1 H2]. split; [exact H1|]. intros q Hq. rewrite (H2 q Hq). apply Bool.orb_true_r.
Qed.
Definition less {A} (o o' : option (arg A)) : Prop := forall p, matches p o' = true -> matches p o = true.
Lemma less_refl {A} (o : option (arg A)) : less o o.
Proof. intros p H. exact H. Qed.
Lemma test_less {A} (p : A -> bool) o : (fst (test p o) = true -> matches p o = true) /\ less o (snd (test p o)).
Proof.
  destruct o as [[x|l|l|l]|]; cbn [test isin fst snd matches items].
  - split; [intros H; cbn; rewrite H; reflexivity|apply less_refl].
  - split; [auto|apply less_refl].
  - split; [auto|apply less_refl].
  - pose proof (consume_exists p l) as C. destruct (consume p l) as [b r]. destruct C as [C1 C2]. split; [exact C1|]. intros q. exact (C2 q).
  - split; [auto|apply less_refl].
Qed.
Definition gless (s s' : gstate) : Prop := let '(a, b, c, d) := s in let '(a', b', c', d') := s' in less a a' /\ less b b' /\ less c c' /\ less d d'.
Definition gd_match (names coords : option (list str)) (s : gstate) (g : glisting) : bool :=
  let '(r1, lv, r2, lv2) := s in
  among str_eqb (gl_parm g) names && matches (dtime_eqb (gl_time1 g)) r1 && among str_eqb (gl_coord g) coords
     && matches (level_eqb (gl_level1 g)) lv && matches (odt_eqb (gl_time2 g)) r2 && matches (level_eqb (gl_level2 g)) lv2.
Ltac each := refine (conj _ (conj _ (conj _ _))); first [assumption|apply less_refl].
Lemma gd_test_less names coords s g : (fst (gd_test names coords s g) = true -> gd_match names coords s g = true) /\ gless s (snd (gd_test names coords s g)).
Proof.
  destruct s as [[[r1 lv] r2] lv2]. unfold gd_test, gd_match, gless.
  destruct (among _ _ names); cbn [negb andb]; [|split; [discriminate|each]].
  pose proof (test_less (dtime_eqb (gl_time1 g)) r1) as [A1 A2]. destruct (test _ r1) as [[|] r1']; cbn [fst snd negb] in *; [rewrite (A1 eq_refl)|split; [discriminate|each]].
  destruct (among _ _ coords); cbn [negb andb]; [|split; [discriminate|each]].
  pose proof (test_less (level_eqb (gl_level1 g)) lv) as [B1 B2]. destruct (test _ lv) as [[|] lv']; cbn [fst snd negb] in *; [rewrite (B1 eq_refl)|split; [discriminate|each]].
  pose proof (test_less (odt_eqb (gl_time2 g)) r2) as [C1 C2]. destruct (test _ r2) as [[|] r2']; cbn [fst snd negb] in *; [rewrite (C1 eq_refl)|split; [discriminate|each]].
  pose proof (test_less (level_eqb (gl_level2 g)) lv2) as [D1 D2]. destruct (test _ lv2) as [[|] lv2']; cbn [fst snd negb] in *; [rewrite (D1 eq_refl)|split; [discriminate|each]].
  split; [reflexivity|each].
Qed.
Lemma gd_match_less names coords s s' g : gless s s' -> gd_match names coords s' g = true -> gd_match names coords s g = true.
Proof.
  destruct s as [[[r1 lv] r2] lv2], s' as [[[r1' lv'] r2'] lv2']. intros (L1 & L2 & L3 & L4) H. unfold gd_match in *.
  repeat match type of H with (_ && _)%bool = true => let X := fresh in apply andb_prop in H as [H X] end.
  rewrite H. rewrite L1, L2, L3, L4 by assumption. match goal with X : among _ _ coords = true |- _ => rewrite X end. reflexivity.
Qed.
Lemma gless_trans s1 s2 s3 : gless s1 s2 -> gless s2 s3 -> gless s1 s3.
Proof.
  destruct s1 as [[[? ?] ?] ?], s2 as [[[? ?] ?] ?], s3 as [[[? ?] ?] ?]. intros (A1 & A2 & A3 & A4) (B1 & B2 & B3 & B4).
  repeat split; intros p H; auto.
Qed.
Lemma gless_refl s : gless s s.
Proof. destruct s as [[[? ?] ?] ?]. repeat split; apply less_refl. Qed.
Lemma filter_less names coords l : forall s0 s m s', gless s0 s -> filter_obj (gd_test names coords) l s = (m, s') ->
  forall g, In g m -> In g (filter (gd_match names coords s0) l).
Proof.
  induction l as [|x r IH]; intros s0 s m s' L H g HG; cbn [filter_obj] in H; [injection H as <- <-; exact HG|].
  pose proof (gd_test_less names coords s x) as [T1 T2]. destruct (gd_test names coords s x) as [b s1]. cbn [fst snd] in *.
  destruct (filter_obj _ r s1) as [m2 s2] eqn:E. injection H as <- <-. cbn [filter].
  assert (HR : In g m2 -> In g (filter (gd_match names coords s0) r)) by (apply (IH s0 s1 m2 s2); [eapply gless_trans; eassumption|exact E]).
  apply in_app_or in HG as [HG|HG].
  - destruct b; [|destruct HG]. destruct HG as [<-|[]]. rewrite (gd_match_less names coords s0 s x L (T1 eq_refl)). left. reflexivity.
  - destruct (gd_match names coords s0 x); [right|]; exact (HR HG).
Qed.
(** what was asked for by iterators: the grids found are among those the lists of the same items select *)
Definition fixed (x : option (arg pynum)) : option (arg pynum) := match x with Some (AIter l) => Some (AList l) | _ => x end.
Lemma fixed_again x : again (fixed x).
Proof. destruct x as [[?|?|?|?]|]; intros k X; discriminate X. Qed.
Lemma fixed_matches p x : matches p (fixed x) = matches p x.
Proof. destruct x as [[?|?|?|?]|]; reflexivity. Qed.
Theorem C92_iterators_partial : forall info o m, times_ok (o_time o) -> times_ok (o_time2 o) -> snd (gd_call info o) = Ok m ->
  exists all, gd_select info (given_gd o) = Ok all /\ forall g, In g m -> In g all.
Proof.
  intros info o m H1 H2 H.
  set (o' := mk_gdo (o_parameter o) (o_time o) (o_coordinate o) (fixed (o_level o)) (o_time2 o) (fixed (o_level2 o))).
  assert (EG : given_gd o' = given_gd o) by (unfold given_gd, o'; cbn; destruct (o_level o) as [[?|?|?|?]|], (o_level2 o) as [[?|?|?|?]|]; reflexivity).
  rewrite <- EG, <- (C92_grids info o') by (try assumption; apply fixed_again). clear EG. subst o'.
  pose proof (parse_opt_plain _ H1) as P1. pose proof (parse_opt_plain _ H2) as P2.
  unfold gd_call in *. cbn [o_parameter o_time o_coordinate o_level o_time2 o_level2] in *.
  destruct (parse_opt (o_time o)) as [tm' [s1|e]]; [|discriminate H].
  destruct (parse_opt (o_time2 o)) as [tm2' [s2|]]; [|discriminate H]. cbn [bind snd] in *. destruct P1 as [_ P1]. destruct P2 as [_ P2].
  pose proof (opt_resolve_plain (map gl_time1 info) s1 P1) as R1. destruct (option_res (resolve_obj _) s1) as [r1|]; [|discriminate H].
  pose proof (opt_resolve2_plain (map gl_time2 info) s2 P2) as R2. destruct (option_res (resolve2_obj _) s2) as [r2|]; [|discriminate H].
  cbn [bind] in *. destruct R1 as [_ R1]. destruct R2 as [_ R2].
  generalize dependent (upper_items (o_coordinate o)). generalize dependent (upper_items (o_parameter o)). intros names coords H.
  destruct (filter_obj (gd_test names coords) info (r1, o_level o, r2, o_level2 o)) as [m1 [[[? ?] ?] ?]] eqn:E1.
  assert (S1 : forall g, In g m1 -> In g (filter (gd_match names coords (r1, o_level o, r2, o_level2 o)) info)) by (eapply filter_less; [apply gless_refl|exact E1]).
  rewrite (filter_same (gd_test names coords) (r1, fixed (o_level o), r2, fixed (o_level2 o)) (gd_match names coords (r1, o_level o, r2, o_level2 o))).
  2: { intros g. unfold gd_test. rewrite !test_again by (try assumption; apply fixed_again). unfold gd_match. rewrite !fixed_matches.
       destruct (among _ _ names); [|reflexivity]. destruct (matches _ r1); [|reflexivity].
       destruct (among _ _ coords); [|reflexivity]. destruct (matches _ (o_level o)); [|reflexivity]. destruct (matches _ r2); reflexivity. }
  cbn [snd] in *. destruct m1 as [|g0 m1]; [discriminate H|]. injection H as <-.
  destruct (filter (gd_match _ _ _) info) as [|a0 all]; [destruct (S1 g0 (or_introl eq_refl))|]. exists (a0 :: all). split; [reflexivity|exact S1].
Qed.
Print Assumptions C92_iterators_partial.

(** ** Cases *)
(* three grids of TMPC: 500 hPa, 850 hPa and, twelve hours later, 500 hPa *)
Definition ex_grid (n h lv : Z) : glisting :=
  mk_gl n analysis (mk_dt 2024 2 29 h 0 0 0) None [84;77;80;67] (Some lv) None [80;82;69;83].
Definition ex_info : list glisting := [ex_grid 0 0 500; ex_grid 1 0 850; ex_grid 2 12 500].
Definition ex_levels : list pynum := [PInt 500; PInt 850].
(* '202402290000', '202402291200' *)
Definition ex_strings : list titem := [TStr [50;48;50;52;48;50;50;57;48;48;48;48]; TDt (mk_dt 2024 2 29 6 0 0 0); TStr [50;48;50;52;48;50;50;57;49;50;48;48]].
Definition with_levels (a : arg pynum) : gdobj := mk_gdo (Some (AIter [[116;109;112;99]])) None None (Some a) None None.
Definition with_times (a : arg titem) : gdobj := mk_gdo None (Some a) (Some (AOne [112;114;101;115])) (Some (ATuple [PInt 500])) None None.
Example C92_example :
  option_map (map gl_no) (match snd (gd_call ex_info (with_levels (AList ex_levels))) with Ok m => Some m | Err _ => None end) = Some [0; 1; 2] /\
  option_map (map gl_no) (match snd (gd_call ex_info (with_times (AList ex_strings))) with Ok m => Some m | Err _ => None end) = Some [0; 2] /\
  o_time (fst (gd_call ex_info (with_times (AList ex_strings)))) =
    Some (AList [TDt (mk_dt 2024 2 29 0 0 0 0); TDt (mk_dt 2024 2 29 6 0 0 0); TDt (mk_dt 2024 2 29 12 0 0 0)]) /\
  (* a text that is no time: the items before it have been replaced when ValueError is raised *)
  gd_call ex_info (with_times (AList (ex_strings ++ [TStr [120]; TStr [50;48;50;52;48;50;50;57;48;48;48;48]]))) =
    (with_times (AList [TDt (mk_dt 2024 2 29 0 0 0 0); TDt (mk_dt 2024 2 29 6 0 0 0); TDt (mk_dt 2024 2 29 12 0 0 0); TStr [120]; TStr [50;48;50;52;48;50;50;57;48;48;48;48]]), Err ValueError).
Proof. vm_compute. repeat split. Qed.
Example C92_hypotheses : times_ok (o_time (with_times (AList ex_strings))) /\ again (o_level (with_times (AList ex_strings))).
Proof. split; [split; [intros l X; discriminate X|intros l X; discriminate X]|intros l X; discriminate X]. Qed.
(** An iterator of levels: a grid the list would give is silently left out. *)
Theorem C92_iterators_refuted : exists info o m all, (exists l, o_level o = Some (AIter l)) /\
  snd (gd_call info o) = Ok m /\ gd_select info (given_gd o) = Ok all /\ exists g, In g all /\ ~ In g m.
Proof.
  exists ex_info, (with_levels (AIter ex_levels)), [ex_grid 0 0 500; ex_grid 1 0 850], ex_info. split; [eexists; reflexivity|].
  split; [vm_compute; reflexivity|]. split; [vm_compute; reflexivity|]. exists (ex_grid 2 12 500). split; [right; right; left; reflexivity|].
  intros [X|[X|[]]]; discriminate X.
Qed.
Print Assumptions C92_iterators_refuted.
(** Times: a tuple of texts raises TypeError and an iterator of datetimes finds nothing, where the list returns. *)
Theorem C92_times_refuted : exists info l t all,
  gd_select info (given_gd (with_times (ATuple l))) = Ok all /\ snd (gd_call info (with_times (ATuple l))) = Err TypeError /\
  gd_select info (given_gd (with_times (AIter [TDt t]))) = Ok all /\ snd (gd_call info (with_times (AIter [TDt t]))) = Err KeyError.
Proof.
  exists ex_info, [TStr [50;48;50;52;48;50;50;57;48;48;48;48]], (mk_dt 2024 2 29 0 0 0 0), [ex_grid 0 0 500].
  split; [vm_compute; reflexivity|]. split; [vm_compute; reflexivity|]. split; vm_compute; reflexivity.
Qed.
Print Assumptions C92_times_refuted.
