(** Lemmas about Json.v: the objects of decoded elements. *)
From Coq Require Import ZArith Lia ZifyBool ZifyNat String SpecFloat.
From Verif Require Import Base BaseFacts Floats Strings StringsFacts Structs Tools VgfBase VgfTables Utf8Facts VgfRead VgfLoopFacts Tca Json SpecJson JsonFacts.
From Coq Require Import List.
Import ListNotations.
Open Scope string_scope.
Open Scope list_scope.
Open Scope Z_scope.

(** ** Elements whose attributes json.dumps knows *)
Definition plain_ok (v : pyval) : Prop := match v with VInt _ | VFloat _ => True | VText s => text s | _ => False end.
Definition plains (e : env) : Prop := Forall (fun p => plain_ok (snd p)) e.
Definition number (v : pyval) : Prop := match v with VFloat _ | VInt _ => True | _ => False end.
Definition attr_ok (kind : string) (p : string * pyval) : Prop :=
  match enumeration kind (fst p) with
  | None => plain_ok (snd p)
  | Some (lo, names) => exists k s, snd p = VInt (lo + Z.of_nat k) /\ nth_error names k = Some s
  end.
Definition subs_ok (kind : string) (subs : list (string * env)) : Prop :=
  match text_list kind with
  | Some name => Forall (fun s => exists k t, s = (name, [(k, VText t)]) /\ text t) subs
  | None => if String.eqb kind "TropicalCycloneAdvisoryElement"
            then exists ws, subs = watch_records ws /\ Forall (fun w => plains (fst w) /\ Forall plains (snd w)) ws
            else subs = []
  end.
Definition ready (e : velem) : Prop :=
  ve_kind e <> "JetElement" /\ Forall (attr_ok (ve_kind e)) (ve_attrs e) /\ subs_ok (ve_kind e) (ve_subs e) /\
  Forall (fun a => Forall number (snd a)) (ve_arrs e) /\ NoDup (map codes (names_of e)).

Lemma codes_text s : text (codes s).
Proof.
  unfold codes, text. induction s as [|a s IH]; cbn [list_ascii_of_string map]; constructor; [|exact IH]. left.
  pose proof (Ascii.nat_ascii_bounded a). lia.
Qed.
Lemma plain_tree v : plain_ok v -> said v (tree (plain v)).
Proof. destruct v; cbn; try reflexivity; intros []. Qed.

Section Good.
Variable shown_float : flt -> Prop.
Notation good := (good shown_float).
Lemma plain_good v : plain_ok v -> (forall x, v = VFloat x -> shown_float x) -> good (plain v).
Proof. destruct v; cbn; intros P F; try exact I; try exact P; auto; destruct P. Qed.
Fixpoint numbered (lo : Z) (l : list string) : list (Z * string) := match l with [] => [] | x :: r => (lo, x) :: numbered (lo + 1) r end.
Lemma numbered_in l : forall lo k s, nth_error l k = Some s -> In (lo + Z.of_nat k, s) (numbered lo l).
Proof.
  induction l as [|x l IH]; intros lo [|k] s H; cbn [nth_error numbered] in *; try discriminate.
  - injection H as ->. left. f_equal. lia.
  - right. replace (lo + Z.of_nat (S k)) with (lo + 1 + Z.of_nat k) by lia. exact (IH _ _ _ H).
Qed.
Lemma enumeration_members kind n : members_of kind n = option_map (fun x => numbered (fst x) (snd x)) (enumeration kind n).
Proof.
  unfold members_of, enumeration. cbn [find fst]. destruct (String.eqb n "line_style"); [destruct (String.eqb kind "SpecialLineElement"); reflexivity|].
  destruct (String.eqb n "front_type"); [reflexivity|]. destruct (String.eqb n "front_intensity"); [reflexivity|]. destruct (String.eqb n "front_character"); [reflexivity|].
  destruct (String.eqb n "list_type_name"); [reflexivity|]. destruct (String.eqb n "marker_name"); reflexivity.
Qed.
Lemma attr_good kind p : attr_ok kind p -> (forall x, snd p = VFloat x -> shown_float x) ->
  good (attr_value kind (fst p) (snd p)) /\ attr_said kind (fst p) (snd p) (tree (attr_value kind (fst p) (snd p))).
Proof.
  destruct p as [n v]. unfold attr_ok, attr_value, attr_said. cbn [fst snd]. rewrite enumeration_members. destruct (enumeration kind n) as [[lo names]|]; cbn [option_map fst snd].
  - intros (k & s & -> & N) _. replace (Z.to_nat (lo + Z.of_nat k - lo)) with k by lia. rewrite (nth_error_nth _ _ _ N). split; [apply codes_text|]. exists (lo + Z.of_nat k), s. repeat split. apply numbered_in. exact N.
  - intros P F. split; [apply plain_good; assumption|apply plain_tree; exact P].
Qed.

(** The watches *)
Lemma watch_dicts_app w bs r : fst (watch_dicts r) = [] ->
  watch_dicts ((("ww", w) :: map (fun b => ("break_point", b)) bs) ++ r) =
    ([], PDict (keyed (env_dict w ++ [("break_points", PList (map (fun b : env => PList (map (fun p => plain (snd p)) b)) bs))])) :: snd (watch_dicts r)).
Proof.
  intros N. assert (E : watch_dicts (map (fun b => ("break_point", b)) bs ++ r) = (map (fun b : env => PList (map (fun p => plain (snd p)) b)) bs, snd (watch_dicts r))).
  { induction bs as [|b bs IH]; cbn [map app watch_dicts]; [destruct (watch_dicts r); cbn in N |- *; congruence|]. rewrite IH. reflexivity. }
  cbn [app watch_dicts]. rewrite E. reflexivity.
Qed.
Definition watch_obj (w : env * list env) : pobj :=
  PDict (keyed (env_dict (fst w) ++ [("break_points", PList (map (fun b : env => PList (map (fun p => plain (snd p)) b)) (snd w)))])).
Lemma watch_dicts_all ws : watch_dicts (watch_records ws) = ([], map watch_obj ws).
Proof.
  induction ws as [|[w bs] ws IH]; [reflexivity|]. unfold watch_records in *. cbn [map concat fst snd]. rewrite watch_dicts_app; rewrite IH; reflexivity.
Qed.
Lemma said_all (b : env) : plains b -> Forall2 (fun a x => said (snd a) x) b (map tree (map (fun p => plain (snd p)) b)).
Proof. induction 1 as [|p b P _ IH]; cbn [map]; constructor; [exact (plain_tree _ P)|exact IH]. Qed.
Lemma good_all (b : env) : plains b -> (forall k x, In (k, VFloat x) b -> shown_float x) -> Forall good (map (fun p => plain (snd p)) b).
Proof.
  intros P F. apply Forall_forall. intros o O. apply in_map_iff in O as ([k v] & <- & I). unfold plains in P. rewrite Forall_forall in P. apply (plain_good v (P _ I)). cbn [snd]. intros x ->. exact (F _ _ I).
Qed.
Lemma watch_good w : plains (fst w) -> Forall plains (snd w) -> (forall k x, In (k, VFloat x) (fst w) -> shown_float x) ->
  (forall b k x, In b (snd w) -> In (k, VFloat x) b -> shown_float x) -> good (watch_obj w) /\ watch_said w (tree (watch_obj w)).
Proof.
  destruct w as [w bs]. cbn [fst snd]. intros P PB F FB. split.
  - unfold watch_obj. cbn [fst snd]. apply good_dict. unfold keyed, env_dict. rewrite map_app, map_map. apply Forall_app. split.
    + pose proof (good_all w P F) as G. clear -G. induction w as [|p w IH]; cbn [map fst snd] in *; constructor; [split; [apply codes_text|exact (Forall_inv G)]|exact (IH (Forall_inv_tail G))].
    + cbn [map fst snd]. constructor; [|constructor]. cbn [fst snd]. split; [apply codes_text|]. apply good_list. apply Forall_forall. intros o O. apply in_map_iff in O as (b & <- & I). apply good_list. rewrite Forall_forall in PB. apply good_all; [exact (PB b I)|]. intros k x X. exact (FB b k x I X).
  - unfold watch_said, watch_obj, keyed, env_dict. cbn [fst snd]. cbn [tree]. rewrite !map_app, !map_map. cbn [map fst snd].
    do 2 eexists. split; [reflexivity|]. split.
    + clear -P. induction P as [|p w P _ IH]; cbn [map]; constructor; [split; [reflexivity|exact (plain_tree _ P)]|exact IH].
    + cbn [tree]. rewrite map_map. clear -PB. induction PB as [|b bs P _ IH]; cbn [map]; constructor; [|exact IH]. cbn [tree]. eexists. split; [reflexivity|]. apply said_all. exact P.
Qed.

(** ** The object of an element *)
Lemma text_items name subs : Forall (fun s => exists k t, s = (name, [(k, VText t)]) /\ text t) subs ->
  exists l, first_values subs = map PText l /\ Forall text l /\ Forall2 (fun s t => exists k : string, s = (name, [(k, VText t)])) subs l.
Proof.
  induction 1 as [|s subs (k & t & -> & T) _ (l & E & G & F)]; [exists []; repeat constructor|]. exists (t :: l). unfold first_values in *. cbn [map snd plain]. rewrite E. repeat split; [constructor; assumption|]. constructor; [exists k; reflexivity|exact F].
Qed.
Lemma list_dict_names kind (subs : list (string * env)) h a arrs la lo : kind <> "JetElement" -> map fst (list_dict kind subs) = list_names (mk_velem kind h a subs arrs la lo).
Proof.
  intros NJ. unfold list_dict, list_names, text_list. cbn [ve_kind]. destruct (String.eqb kind "ListElement"), (String.eqb kind "TrackElement"), (String.eqb kind "GraphicalForecastAreaElement"), (String.eqb kind "TropicalCycloneAdvisoryElement"); try reflexivity.
  destruct (String.eqb_spec kind "JetElement"); [contradiction|reflexivity].
Qed.
Lemma array_dict_not kind arrs : kind <> "JetElement" -> array_dict kind arrs = map (fun a => (fst a, PArray (snd a))) arrs.
Proof. intros NJ. unfold array_dict. destruct (String.eqb_spec kind "JetElement"); [contradiction|reflexivity]. Qed.
Definition treed (l : list (string * pobj)) : list (str * jvalue) := map (fun p => (codes (fst p), tree (snd p))) l.
Definition parts (e : velem) : list (string * pobj) :=
  header_dict (ve_hdr e) ++ map (fun p => (fst p, attr_value (ve_kind e) (fst p) (snd p))) (ve_attrs e) ++
  list_dict (ve_kind e) (ve_subs e) ++ array_dict (ve_kind e) (ve_arrs e) ++ coord_dict "lat" (ve_lat e) ++ coord_dict "lon" (ve_lon e).
Lemma elem_tree e : tree (elem_dict e) = JObject (treed (parts e)).
Proof. unfold elem_dict, treed. fold (parts e). cbn [tree]. unfold keyed. rewrite map_map. reflexivity. Qed.
Lemma parts_names e : ve_kind e <> "JetElement" -> map fst (parts e) = names_of e.
Proof.
  intros NJ. unfold parts, names_of. rewrite !map_app, map_map. cbn [fst]. rewrite array_dict_not, map_map by exact NJ. destruct e as [kind h a subs arrs la lo]. cbn [ve_kind ve_hdr ve_attrs ve_subs ve_arrs ve_lat ve_lon] in *.
  rewrite (list_dict_names kind subs h a arrs la lo NJ). destruct la, lo; reflexivity.
Qed.
Lemma array_good (l : list pyval) : Forall number l -> (forall v, In v l -> shown_float (two_decimals v)) -> good (PArray l).
Proof. intros N F. cbn [JsonFacts.good]. rewrite Forall_forall in *. intros v V. split; [exact (N v V)|exact (F v V)]. Qed.
Lemma elem_good e : ready e -> (forall x, float_of e x -> shown_float x) -> good (elem_dict e) /\ says e (tree (elem_dict e)).
Proof.
  intros (NJ & AT & SU & AR & ND) F.
  assert (GS : Forall (fun p => good (snd p)) (list_dict (ve_kind e) (ve_subs e)) /\ lists_said e (treed (list_dict (ve_kind e) (ve_subs e)))).
  { unfold lists_said, list_dict, subs_ok, text_list in *. destruct (String.eqb (ve_kind e) "ListElement"); [|destruct (String.eqb (ve_kind e) "TrackElement"); [|destruct (String.eqb (ve_kind e) "GraphicalForecastAreaElement"); [|destruct (String.eqb (ve_kind e) "TropicalCycloneAdvisoryElement")]]].
    1-3: (destruct (text_items _ _ SU) as (l & E & G & F2); rewrite E; split;
      [repeat constructor; cbn [snd]; apply good_list; apply Forall_forall; intros o O; apply in_map_iff in O as (s & <- & I); rewrite Forall_forall in G; exact (G s I)
      |exists l; split; [left; unfold treed; cbn [map fst snd tree]; rewrite map_map; reflexivity|exact F2]]).
    - destruct SU as (ws & E & P). rewrite E, watch_dicts_all. cbn [snd].
      assert (G : Forall (fun w => good (watch_obj w) /\ watch_said w (tree (watch_obj w))) ws).
      { rewrite Forall_forall in *. intros w W. destruct (P w W) as (P1 & P2). apply watch_good; [exact P1|exact P2| |].
        - intros k x X. apply F. apply (Fl_sub e x "ww" (fst w) k); [|exact X]. rewrite E. apply in_concat. eexists. split; [apply in_map; exact W|]. left. reflexivity.
        - intros b k x B X. apply F. apply (Fl_sub e x "break_point" b k); [|exact X]. rewrite E. apply in_concat. eexists. split; [apply in_map; exact W|]. right. apply in_map_iff. exists b. auto. }
      split; [constructor; [|constructor]; cbn [snd]; apply good_list; rewrite Forall_forall in *; intros o O; apply in_map_iff in O as (w & <- & I); exact (proj1 (G w I))|].
      exists ws, (map tree (map watch_obj ws)). split; [reflexivity|]. split; [left; reflexivity|]. clear -G. induction G as [|w ws [_ G] _ IH]; cbn [map]; constructor; assumption.
    - destruct (String.eqb_spec (ve_kind e) "JetElement"); [contradiction|]. split; [constructor|exact SU]. }
  destruct GS as (GS & SS).
  assert (GC : forall name c, c = ve_lat e \/ c = ve_lon e -> Forall (fun p => good (snd p)) (coord_dict name c)).
  { intros name c C. destruct c as [l| |]; cbn [coord_dict]; repeat constructor. cbn [snd]. apply array_good; [apply Forall_forall; intros v V; apply in_map_iff in V as (x & <- & _); exact I|].
    intros v V. apply in_map_iff in V as (x & <- & X). apply F. apply (Fl_coord e _ l x); [destruct C as [C|C]; rewrite C; auto|exact X|reflexivity]. }
  split.
  - unfold elem_dict. fold (parts e). apply good_dict. apply Forall_forall. intros [k o] I. unfold keyed in I. apply in_map_iff in I as ([n o'] & E & I). cbn [fst snd] in E. injection E as <- ->. cbn [fst snd]. split; [apply codes_text|].
    unfold parts in I. apply in_app_or in I as [I|I].
    { cbn [header_dict In] in I. repeat (destruct I as [[= <- <-]|I]; [first [exact Logic.I|apply F; apply Fl_header; cbn; tauto]|]). destruct I. }
    apply in_app_or in I as [I|I].
    { apply in_map_iff in I as ([n' v] & E & I). cbn [fst snd] in E. injection E as <- <-. rewrite Forall_forall in AT. apply (attr_good (ve_kind e) (n', v) (AT _ I)). cbn [snd]. intros x ->. apply F. exact (Fl_attr e x _ I). }
    apply in_app_or in I as [I|I]; [rewrite Forall_forall in GS; exact (GS _ I)|]. apply in_app_or in I as [I|I].
    { rewrite array_dict_not in I by exact NJ. apply in_map_iff in I as ([n' l] & E & I). cbn [fst snd] in E. injection E as <- <-. rewrite Forall_forall in AR. apply array_good; [exact (AR _ I)|]. intros v V. apply F. exact (Fl_array e _ n' l v I V eq_refl). }
    apply in_app_or in I as [I|I]; [specialize (GC "lat" _ (or_introl eq_refl))|specialize (GC "lon" _ (or_intror eq_refl))]; rewrite Forall_forall in GC; exact (GC _ I).
  - assert (TI : forall n o, In (n, o) (parts e) -> In (codes n, tree o) (treed (parts e))) by (intros n o I; apply (in_map (fun p => (codes (fst p), tree (snd p)))) in I; exact I).
    exists (treed (parts e)). split; [apply elem_tree|]. assert (NM : map fst (treed (parts e)) = map codes (names_of e)) by (rewrite <- parts_names by exact NJ; unfold treed; rewrite !map_map; reflexivity).
    split; [exact NM|]. split; [rewrite NM; exact ND|]. repeat split.
    + intros n j I. cbn [header_said In] in I. repeat (destruct I as [[= <- <-]|I]; [apply (in_map (fun p => (codes (fst p), tree (snd p))) (parts e) (_, PInt _)) || apply (in_map (fun p => (codes (fst p), tree (snd p))) (parts e) (_, PFloat _)); unfold parts; apply in_or_app; left; cbn [header_dict In]; tauto|]). destruct I.
    + intros n v I. exists (tree (attr_value (ve_kind e) n v)). split.
      * apply TI. unfold parts. apply in_or_app; right. apply in_or_app; left. apply in_map_iff. exists (n, v). auto.
      * rewrite Forall_forall in AT. apply (attr_good (ve_kind e) (n, v) (AT _ I)). cbn [snd]. intros x ->. apply F. exact (Fl_attr e x _ I).
    + intros n l I. apply (TI n (PArray l)). unfold parts. rewrite array_dict_not by exact NJ. do 3 (apply in_or_app; right). apply in_or_app; left. apply in_map_iff. exists (n, l). auto.
    + intros n j I. apply in_app_or in I. assert (H : exists o, tree o = j /\ In (n, o) (coord_dict "lat" (ve_lat e) ++ coord_dict "lon" (ve_lon e))).
      { destruct I as [I|I]; [destruct (ve_lat e)|destruct (ve_lon e)]; cbn [coords_said In] in I; try contradiction; destruct I as [[= <- <-]|[]]; eexists; (split; [|apply in_or_app; (left; left; reflexivity) || (right; left; reflexivity)]); reflexivity. }
      destruct H as (o & <- & H). apply TI. unfold parts. do 4 (apply in_or_app; right). exact H.
    + assert (SB : forall x, In x (treed (list_dict (ve_kind e) (ve_subs e))) -> In x (treed (parts e))).
      { intros x X. unfold treed, parts in *. rewrite !map_app. do 2 (apply in_or_app; right). apply in_or_app; left. exact X. }
      clear -SS SB. unfold lists_said in *. destruct (text_list (ve_kind e)); [destruct SS as (l & I & F2); exists l; auto|]. destruct (String.eqb _ _); [|exact SS]. destruct SS as (ws & js & E & I & F2). exists ws, js. auto.
Qed.
End Good.
