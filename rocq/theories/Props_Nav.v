(** The projection and the coordinates of grid files. *)
From Coq Require Import String List Lia ZifyBool ZifyNat SpecFloat.
From Verif Require Import Base BaseFacts Floats FloatsFacts Strings StringsFacts DmFile DmHookFacts DmReadFacts Dates Station FileFacts Layout
  Grid GridRead SpecGrid GridFacts GridDataFacts GridHistoryFacts Nav SpecNav Props_GridFile.
Import ListNotations.
Local Open Scope string_scope.
Local Open Scope list_scope.
Open Scope Z_scope.

Lemma item_entry {A} (d : list (string * A)) k v : item d k = Ok v -> entry d k = Some v.
Proof.
  induction d as [|[k' v'] d IH]; cbn [item]; [discriminate|]. unfold entry. cbn [find fst].
  destruct (String.eqb k k'); [intros [= ->]; reflexivity|exact IH].
Qed.
Lemma cf_number_entry d k x : cf_number d k = Ok x -> entry d k = Some (CNum x).
Proof.
  unfold cf_number. destruct (item d k) as [v|] eqn:E; cbn [bind]; [|discriminate]. apply item_entry in E.
  destruct v; [intros [= ->]; exact E|discriminate].
Qed.
Lemma cf_two_entry d k a b : cf_two d k = Ok (a, b) -> entry d k = Some (CNums [a; b]).
Proof.
  unfold cf_two. destruct (item d k) as [v|] eqn:E; cbn [bind]; [|discriminate]. apply item_entry in E.
  destruct v as [|[|x [|y [|]]]]; try discriminate. intros [= -> ->]. exact E.
Qed.

(** The dictionary built from a navigation block written for the geometry [g] *)
Lemma crs_back fcos g dn gp proj ty : gm_proj g = gp -> proj_of gemproj_to_proj gp = Ok (proj, ty) -> gp <> [77;67;68] ->
  get_crs fcos (gnav_of g dn) = Ok
   (match ty with
    | Con => [("proj", KText proj); ("lon_0", KNum (np32 (gm_angle2 g))); ("lat_1", KNum (np32 (gm_angle1 g))); ("lat_2", KNum (np32 (gm_angle3 g)))]
    | _ => [("proj", KText proj); ("lat_0", KNum (np32 (gm_angle1 g))); ("lon_0", KNum (np32 (gm_angle2 g)))]
    end ++ [("ellps", KText "sphere"); ("R", KNum (of_Z 6371200))]).
Proof.
  intros HP HO HN. unfold get_crs. change (nv_projection (gnav_of g dn)) with (gm_proj g). rewrite HP, HO. cbn [bind].
  change (nav_float (gnav_of g dn) 10) with (Ok (np32 (gm_angle1 g))).
  change (nav_float (gnav_of g dn) 11) with (Ok (np32 (gm_angle2 g))).
  change (nav_float (gnav_of g dn) 12) with (Ok (np32 (gm_angle3 g))). cbn [bind].
  destruct ty; try reflexivity. destruct (str_eqb gp [77;67;68]) eqn:E; [|reflexivity]. apply str_eqb_spec in E. contradiction.
Qed.

(** What is stored for each kind of projection *)
Ltac step H := match type of H with
  | bind ?m _ = Ok _ => let E := fresh "E" in destruct m as [?|] eqn:E; cbn [bind] in H; [|discriminate H]
  end.
Lemma stored_kind p proj rot gp a1 a2 a3 : kind p proj -> projection_params p rot = Ok (gp, (a1, a2, a3)) ->
  In gp known_projections /\ gp <> [77;67;68] /\
  exists ty, proj_of gemproj_to_proj gp = Ok (proj, ty) /\
  forall k x, parameter p k x -> ~ In (proj, k) lost ->
    match ty with
    | Con => (k = "lon_0" /\ x = a2) \/ (k = "lat_1" /\ x = a1) \/ (k = "lat_2" /\ x = a3)
    | _ => (k = "lat_0" /\ x = a1) \/ (k = "lon_0" /\ x = a2)
    end.
Proof.
  intros K H.
  assert (CF : forall n pr ks, pj_cf_name p = Some n -> In (n, pr, ks) cf_kinds ->
    forall k x, parameter p k x -> (exists cf, In (cf, k) ks /\ entry (pj_cf p) cf = Some (CNum x)) \/
      (n = "lambert_conformal_conic"%string /\ exists a b, entry (pj_cf p) "standard_parallel" = Some (CNums [a; b]) /\ ((k = "lat_1"%string /\ x = a) \/ (k = "lat_2"%string /\ x = b)))).
  { intros n pr ks HN HI k x HP. destruct HP as [n' pr' ks' cf k x HN' HI' HK HE|a b HN' HE|a b HN' HE|m pr' ks' cf k x HN' _ _ _ _].
    - rewrite HN in HN'. injection HN' as <-. left. exists cf. split; [|exact HE]. cbn [In cf_kinds] in HI, HI'.
      repeat (destruct HI as [HI|HI]; [injection HI as <- <- <-;
        repeat (destruct HI' as [HI'|HI']; [try discriminate HI'; injection HI' as _ <-; exact HK|]); destruct HI'|]). destruct HI.
    - rewrite HN in HN'. injection HN' as ->. right. split; [reflexivity|]. eauto 10.
    - rewrite HN in HN'. injection HN' as ->. right. split; [reflexivity|]. eauto 10.
    - congruence. }
  assert (WK : forall m pr ks, pj_cf_name p = None -> pj_method p = m -> In (m, pr, ks) wkt_kinds ->
    forall k x, parameter p k x -> exists cf, In (cf, k) ks /\ entry (pj_operation p) cf = Some x).
  { intros m pr ks HN HM HI k x HP. destruct HP as [n' pr' ks' cf k x HN' HI' HK HE|a b HN' HE|a b HN' HE|m' pr' ks' cf k x _ HM' HI' HK HE]; try congruence.
    exists cf. split; [|exact HE]. rewrite HM in HM'. subst m'. clear HM. cbn [In wkt_kinds] in HI, HI'.
    repeat (destruct HI as [HI|HI]; [injection HI as <- <- <-;
        repeat (destruct HI' as [HI'|HI']; [try discriminate HI'; injection HI' as _ <-; exact HK|]); destruct HI'|]). destruct HI. }
  unfold projection_params, mapping_name in H.
  destruct K as [(n & ks & HN & HI)|(m & ks & HN & HM & HI)]; rewrite HN in H.
  - specialize (CF _ _ _ HN HI). clear WK. cbn [In cf_kinds] in HI.
    repeat (destruct HI as [HI|HI]; [injection HI as <- <- <-; cbn in H; repeat step H;
      try match type of H with (let (_, _) := ?q in _) = _ => destruct q end; repeat step H; injection H as <- <- <- <-;
      (split; [vm_compute; auto 20|]); (split; [discriminate|]); eexists; (split; [reflexivity|]);
      intros k x HP HL; cbn [In lost] in HL;
      repeat match goal with
        | E : cf_number _ _ = Ok _ |- _ => apply cf_number_entry in E
        | E : cf_two _ _ = Ok (_, _) |- _ => apply cf_two_entry in E
        end;
      destruct (CF k x HP) as [(cf & HC & HE)|(HC & u & v & HE & HQ)];
        [cbn [In] in HC; repeat (destruct HC as [HC|HC]; [injection HC as <- <-; first [exfalso; apply HL; auto 10; fail|rewrite HE in *; intuition congruence]|]); destruct HC
        |first [discriminate HC|rewrite HE in *; intuition congruence]]
      |]). destruct HI.
  - specialize (WK _ _ _ HN HM HI). clear CF. rewrite HM in H. clear HM. cbn [In wkt_kinds] in HI.
    repeat (destruct HI as [HI|HI]; [injection HI as <- <- <-; cbn in H; repeat step H; injection H as <- <- <- <-;
      (split; [vm_compute; auto 20|]); (split; [discriminate|]); eexists; (split; [reflexivity|]);
      intros k x HP HL; cbn [In lost] in HL;
      repeat match goal with E : item _ _ = Ok _ |- _ => apply item_entry in E end;
      destruct (WK k x HP) as (cf & HC & HE);
        cbn [In] in HC; repeat (destruct HC as [HC|HC]; [injection HC as <- <-; first [exfalso; apply HL; auto 10; fail|rewrite HE in *; intuition congruence]|]); destruct HC
      |]). destruct HI.
Qed.

(** The navigation block of a written file, read back *)
Lemma written_nav e g bits calls o o' b : geom_ok g -> (forall q, In q calls -> call_ok g q) ->
  add_grids (new_grid_file g) calls = Ok o -> save_grid e (set_precision bits o) = (o', Ok b) ->
  exists f dn, open_grid b = Ok f /\ gf_nav (rg_file f) = Some (gnav_of g dn).
Proof.
  intros HG HOK HADD HS. destruct (grid_round_exact _ _ _ _ _ _ _ HG HOK HADD HS) as (f & HF & _).
  destruct (gafter_all _ _ _ _ _ (gafter_new g) HADD) as (ops & _ & HA0). cbn [app] in HA0.
  assert (HA : gafter g ops (set_precision bits o)) by (destruct HA0; constructor; assumption).
  assert (EG : gd_geom (set_precision bits o) = g) by exact (ga_geom _ _ _ HA).
  destruct (gs_open _ _ _ _ (save_gsaved e _ o' b _ (gafter_coherent _ _ _ HA) ltac:(rewrite EG; exact HG) eq_refl HS)) as (nf & dn & _ & HO).
  exists f, dn. split; [exact HF|]. rewrite EG in HO. unfold open_grid in HF. rewrite HO in HF. cbn [bind] in HF.
  repeat step HF. injection HF as <-. reflexivity.
Qed.

Lemma new_geometry_stored xy inv lon lat p rot g : new_geometry xy inv lon lat p rot = Ok g ->
  projection_params p rot = Ok (gm_proj g, (gm_angle1 g, gm_angle2 g, gm_angle3 g)) /\ 0 <= gm_nx g /\ 0 <= gm_ny g.
Proof.
  unfold new_geometry. intros H. step H. destruct a as [gp [[a1 a2] a3]]. destruct xy.
  - unfold projected in H. destruct (fst lat) as [|? [|]]; try discriminate H. destruct (fst lon) as [|? [|]]; try discriminate H.
    repeat step H. injection H as <-. cbn [gm_proj gm_angle1 gm_angle2 gm_angle3 gm_nx gm_ny]. split; [reflexivity|]. unfold Zlen. lia.
  - unfold geographic in H.
    destruct (negb (shape_eqb (fst lat) (fst lon))) eqn:ES; [discriminate H|].
    assert (SE : fst lat = fst lon) by (apply str_eqb_spec; unfold shape_eqb in ES; destruct (str_eqb (fst lat) (fst lon)); [reflexivity|discriminate ES]).
    destruct (fst lat) as [|ny [|nx [|]]]; try discriminate H.
    destruct (cell lon 0 0) as [l0|] eqn:E0; cbn [bind] in H; [|discriminate H].
    unfold cell in E0. rewrite <- SE in E0. destruct (Z.ltb_spec 0 ny); [|discriminate E0]. destruct (Z.ltb_spec 0 nx); [|discriminate E0].
    repeat step H. injection H as <-. cbn [gm_proj gm_angle1 gm_angle2 gm_angle3 gm_nx gm_ny]. split; [reflexivity|lia].
Qed.
Lemma stored_ok p rot gp a1 a2 a3 : projection_params p rot = Ok (gp, (a1, a2, a3)) -> In gp known_projections /\ gp <> [77;67;68].
Proof.
  unfold projection_params. destruct (mapping_name p) as [name wkt]. intros H.
  repeat match type of H with (if ?c then _ else _) = _ => destruct c end; try discriminate H; repeat step H;
    try match type of H with (let (_, _) := ?q in _) = _ => destruct q end; repeat step H; injection H as <- <- <- <-;
    (split; [vm_compute; auto 20|discriminate]).
Qed.

(** ** C94 *)
(** [xy], [lon], [lat], [p], [rot]: the arguments of GridFile, [inv] the inverse of the projection; [calls]: the add_grid calls; [bits]: the
    precision; [e]: the byte order; [proj]: what PROJ calls a projection like [p].  The dictionary
    [d] is what the reader makes its coordinate reference system from. *)
Theorem C94_projection_partial : forall fcos e xy inv lon lat p rot g bits calls o o' b proj,
  kind p proj -> new_geometry xy inv lon lat p rot = Ok g -> gm_nx g < 2 ^ 24 -> gm_ny g < 2 ^ 24 ->
  (forall q, In q calls -> call_ok g q) -> add_grids (new_grid_file g) calls = Ok o ->
  save_grid e (set_precision bits o) = (o', Ok b) ->
  exists f nv d, open_grid b = Ok f /\ gf_nav (rg_file f) = Some nv /\ get_crs fcos nv = Ok d /\
    entry d "proj" = Some (KText proj) /\
    forall k x, parameter p k x -> ~ In (proj, k) lost -> entry d k = Some (KNum (np32 x)).
Proof.
  intros fcos e xy inv lon lat p rot g bits calls o o' b proj K HN GX GY HOK HADD HS.
  destruct (new_geometry_stored _ _ _ _ _ _ _ HN) as (HP & X0 & Y0).
  destruct (stored_kind _ _ _ _ _ _ _ K HP) as (IN & NM & ty & HT & HV).
  destruct (written_nav e g bits calls o o' b) as (f & dn & HF & HNV); try assumption.
  { split; [exact IN|lia]. }
  exists f, (gnav_of g dn). eexists. split; [exact HF|]. split; [exact HNV|].
  split; [exact (crs_back fcos g dn _ _ _ eq_refl HT NM)|]. split; [destruct ty; reflexivity|].
  intros k x HK HL. specialize (HV k x HK HL).
  destruct ty; repeat (destruct HV as [HV|HV]); destruct HV as [-> ->]; reflexivity.
Qed.
Print Assumptions C94_projection_partial.

(** False in full: a standard parallel of a Mercator, polar stereographic or equidistant
    cylindrical projection and the latitude of origin of a Lambert conformal one are never in the
    dictionary, and a Mercator standard parallel comes back as the latitude of origin. *)
Theorem C94_lost_refuted : forall fcos e xy inv lon lat p rot g bits calls o o' b proj k,
  kind p proj -> In (proj, k) lost -> new_geometry xy inv lon lat p rot = Ok g -> gm_nx g < 2 ^ 24 -> gm_ny g < 2 ^ 24 ->
  (forall q, In q calls -> call_ok g q) -> add_grids (new_grid_file g) calls = Ok o ->
  save_grid e (set_precision bits o) = (o', Ok b) ->
  exists f nv d, open_grid b = Ok f /\ gf_nav (rg_file f) = Some nv /\ get_crs fcos nv = Ok d /\ entry d k = None /\
    (pj_cf_name p = Some "mercator" -> forall x, entry (pj_cf p) "standard_parallel" = Some (CNum x) ->
       entry d "lat_0" = Some (KNum (np32 x))).
Proof.
  intros fcos e xy inv lon lat p rot g bits calls o o' b proj k K HL HN GX GY HOK HADD HS.
  destruct (new_geometry_stored _ _ _ _ _ _ _ HN) as (HP & X0 & Y0).
  destruct (stored_kind _ _ _ _ _ _ _ K HP) as (IN & NM & ty & HT & _).
  destruct (written_nav e g bits calls o o' b) as (f & dn & HF & HNV); try assumption.
  { split; [exact IN|lia]. }
  exists f, (gnav_of g dn). eexists. split; [exact HF|]. split; [exact HNV|].
  split; [exact (crs_back fcos g dn _ _ _ eq_refl HT NM)|].
  assert (TY : (proj = "lcc" -> ty = Con) /\ (proj <> "lcc" -> ty <> Con)).
  { cbn [In known_projections] in IN. destruct IN as [E|IN]; [rewrite <- E in HT; injection HT as <- <-; split; intros; congruence|].
    repeat (destruct IN as [E|IN]; [rewrite <- E in HT; injection HT as <- <-; split; intros; congruence|]). destruct IN. }
  split.
  - cbn [In lost] in HL. destruct TY as [TC TN].
    repeat (destruct HL as [HL|HL]; [injection HL as <- <-; first [rewrite (TC eq_refl); reflexivity|
      destruct ty; try reflexivity; exfalso; apply TN; first [discriminate|reflexivity]]|]). destruct HL.
  - intros HM x HX. assert (PM : proj = "merc").
    { destruct K as [(n & ks & KN & KI)|(m & ks & KN & _)]; [|congruence]. rewrite HM in KN. injection KN as <-. cbn [In cf_kinds] in KI.
      destruct KI as [KI|KI]; [injection KI as <- _; reflexivity|]. repeat (destruct KI as [KI|KI]; [discriminate KI|]). destruct KI. }
    subst proj. destruct TY as [_ TN]. specialize (TN ltac:(discriminate)).
    assert (A1 : gm_angle1 g = x).
    { unfold projection_params, mapping_name in HP. rewrite HM in HP. cbn in HP. repeat step HP. injection HP as _ <- _ _.
      apply cf_number_entry in E. congruence. }
    rewrite A1. destruct ty; try reflexivity. contradiction.
Qed.
Print Assumptions C94_lost_refuted.

(** The rotation makes no difference to what is read: two files made alike but for the rotation
    give the same dictionary. *)
Lemma rotation_kept p rot rot' gp a1 a2 a3 : projection_params p rot = Ok (gp, (a1, a2, a3)) ->
  exists a3', projection_params p rot' = Ok (gp, (a1, a2, a3')) /\ (gp = [76;67;67] -> a3' = a3).
Proof.
  unfold projection_params. destruct (mapping_name p) as [name wkt]. intros H.
  repeat match type of H with (if ?c then _ else _) = _ => destruct c end; try discriminate H; repeat step H;
    try match type of H with (let (_, _) := ?q in _) = _ => destruct q end; repeat step H; injection H as <- <- <- <-;
    cbn [bind]; eexists; (split; [reflexivity|]); intros HG; first [discriminate HG|reflexivity].
Qed.
Theorem C94_rotation_refuted : forall fcos e e' xy inv lon lat p rot rot' g g' bits bits' calls calls' o o' o1 o1' b b',
  new_geometry xy inv lon lat p rot = Ok g -> new_geometry xy inv lon lat p rot' = Ok g' -> gm_nx g < 2 ^ 24 -> gm_ny g < 2 ^ 24 ->
  (forall q, In q calls -> call_ok g q) -> (forall q, In q calls' -> call_ok g' q) ->
  add_grids (new_grid_file g) calls = Ok o -> add_grids (new_grid_file g') calls' = Ok o1 ->
  save_grid e (set_precision bits o) = (o', Ok b) -> save_grid e' (set_precision bits' o1) = (o1', Ok b') ->
  exists f f' nv nv' d, open_grid b = Ok f /\ open_grid b' = Ok f' /\ gf_nav (rg_file f) = Some nv /\ gf_nav (rg_file f') = Some nv' /\
    get_crs fcos nv = Ok d /\ get_crs fcos nv' = Ok d.
Proof.
  intros fcos e e' xy inv lon lat p rot rot' g g' bits bits' calls calls' o o' o1 o1' b b' HN HN' GX GY HOK HOK' HADD HADD' HS HS'.
  destruct (new_geometry_stored _ _ _ _ _ _ _ HN) as (HP & X0 & Y0). destruct (new_geometry_stored _ _ _ _ _ _ _ HN') as (HP' & X0' & Y0').
  destruct (stored_ok _ _ _ _ _ _ HP) as [IN NM]. destruct (rotation_kept _ _ rot' _ _ _ _ HP) as (a3' & HR & HL).
  rewrite HP' in HR. injection HR as RP R1 R2 R3.
  assert (SZ : gm_nx g' = gm_nx g /\ gm_ny g' = gm_ny g).
  { unfold new_geometry in HN, HN'. rewrite HP in HN. rewrite HP' in HN'. cbn [bind] in HN, HN'. destruct xy.
    - unfold projected in HN, HN'. destruct (fst lat) as [|? [|]]; try discriminate HN. destruct (fst lon) as [|? [|]]; try discriminate HN.
      repeat step HN. cbn [bind] in HN'. injection HN as <-. injection HN' as <-. auto.
    - unfold geographic in HN, HN'. destruct (negb _); [discriminate HN|]. destruct (fst lat) as [|? [|? [|]]]; try discriminate HN.
      repeat step HN. cbn [bind] in HN'. injection HN as <-. injection HN' as <-. auto. }
  destruct SZ as [SX SY].
  destruct (written_nav e g bits calls o o' b) as (f & dn & HF & HNV); try assumption. { split; [exact IN|lia]. }
  destruct (written_nav e' g' bits' calls' o1 o1' b') as (f' & dn' & HF' & HNV'); try assumption. { split; [rewrite RP; exact IN|lia]. }
  assert (PO : exists q, proj_of gemproj_to_proj (gm_proj g) = Ok q).
  { cbn [In known_projections] in IN. repeat (destruct IN as [<-|IN]; [eexists; reflexivity|]). destruct IN. }
  destruct PO as ([pj ty] & PO). exists f, f', (gnav_of g dn), (gnav_of g' dn'). eexists.
  split; [exact HF|]. split; [exact HF'|]. split; [exact HNV|]. split; [exact HNV'|].
  split; [exact (crs_back fcos g dn _ _ _ eq_refl PO NM)|].
  rewrite (crs_back fcos g' dn' _ _ _ RP PO NM), R1, R2. destruct ty; try reflexivity.
  (* conic: only LCC is ever written *)
  rewrite R3, HL; [reflexivity|].
  clear - PO HP. unfold projection_params in HP. destruct (mapping_name p) as [name wkt].
  repeat match type of HP with (if ?c then _ else _) = _ => destruct c end; try discriminate HP; repeat step HP;
    try match type of HP with (let (_, _) := ?q in _) = _ => destruct q end; repeat step HP;
    injection HP as HG _ _ _; rewrite <- HG in PO |- *; first [discriminate PO|reflexivity].
Qed.
Print Assumptions C94_rotation_refuted.

(** The documentation lists transverse Mercator, universal transverse Mercator (the same CF name)
    and Lambert azimuthal equal area; a projection whose CF name is one of those is refused.  So
    are a Lambert conformal projection with one standard parallel and a Mercator projection
    given by its scale factor. *)
Theorem C94_documented_refuted : forall xy inv lon lat p rot g,
  pj_cf_name p = Some "transverse_mercator" \/ pj_cf_name p = Some "lambert_azimuthal_equal_area" \/
  (pj_cf_name p = Some "lambert_conformal_conic" /\ exists x, entry (pj_cf p) "standard_parallel" = Some (CNum x)) \/
  (pj_cf_name p = Some "mercator" /\ entry (pj_cf p) "standard_parallel" = None) ->
  new_geometry xy inv lon lat p rot <> Ok g.
Proof.
  intros xy inv lon lat p rot g HC HN. destruct (new_geometry_stored _ _ _ _ _ _ _ HN) as (HP & _).
  unfold projection_params, mapping_name in HP.
  destruct HC as [HC|[HC|[[HC (x & HX)]|[HC HX]]]]; rewrite HC in HP; cbn in HP; try discriminate HP; repeat step HP.
  - destruct a as [u v]. apply cf_two_entry in E. congruence.
  - apply cf_number_entry in E. congruence.
Qed.
Print Assumptions C94_documented_refuted.

(** Every other documented projection is taken, with any longitudes and latitudes of one shape. *)
Lemma entry_item {A} (d : list (string * A)) k v : entry d k = Some v -> item d k = Ok v.
Proof.
  induction d as [|[k' v'] d IH]; cbn [item]; unfold entry; cbn [find fst]; [discriminate|].
  destruct (String.eqb k k'); [intros [= ->]; reflexivity|exact IH].
Qed.
Lemma entry_number d k x : entry d k = Some (CNum x) -> cf_number d k = Ok x.
Proof. intros H. unfold cf_number. rewrite (entry_item _ _ _ H). reflexivity. Qed.
Lemma cell_ok lon ny nx i j : fst lon = [ny; nx] -> Zlen (snd lon) = ny * nx -> 0 <= i < ny -> 0 <= j < nx -> exists x, cell lon i j = Ok x.
Proof.
  intros HS HL HI HJ. unfold cell. rewrite HS. destruct (Z.ltb_spec i ny); [|lia]. destruct (Z.ltb_spec j nx); [|lia]. cbn [andb].
  assert (R : 0 <= i * nx + j < Zlen (snd lon)) by nia.
  assert (L : (Z.to_nat (i * nx + j) < length (snd lon))%nat) by (unfold Zlen in R; lia).
  destruct (nth_error (snd lon) (Z.to_nat (i * nx + j))) as [x|] eqn:E; [|apply nth_error_None in E; lia].
  exists x. unfold py_index. destruct (Z.ltb_spec (i * nx + j) 0); [lia|]. rewrite E. destruct (Z.ltb_spec (i * nx + j) 0); [lia|reflexivity].
Qed.
Lemma index_ends {A} (l : list A) : 0 < Zlen l -> exists a b, py_index l 0 = Ok a /\ py_index l (-1) = Ok b.
Proof.
  intros H. destruct l as [|a l]; [exact (False_rect _ (Z.lt_irrefl 0 H))|]. exists a.
  destruct (exists_last (l := a :: l) ltac:(discriminate)) as (l' & b & E). exists b. split; [reflexivity|].
  rewrite E. unfold py_index, Zlen. rewrite app_length. cbn [length]. change (-1 <? 0) with true. cbv iota.
  destruct (Z.ltb_spec (-1 + Z.of_nat (length l' + 1)) 0); [lia|].
  replace (Z.to_nat (-1 + Z.of_nat (length l' + 1))) with (length l') by lia. rewrite nth_error_app2 by lia. rewrite Nat.sub_diag. reflexivity.
Qed.
Theorem C94_accepted : forall (xy : bool) inv lon lat p rot proj ny nx, kind p proj -> complete p -> 0 < ny -> 0 < nx ->
  (if xy then fst lon = [nx] /\ fst lat = [ny] /\ Zlen (snd lon) = nx /\ Zlen (snd lat) = ny
   else fst lon = [ny; nx] /\ fst lat = [ny; nx] /\ Zlen (snd lon) = ny * nx /\ Zlen (snd lat) = ny * nx) ->
  exists g, new_geometry xy inv lon lat p rot = Ok g.
Proof.
  intros xy inv lon lat p rot proj ny nx K [CC CW] NY NX SH.
  assert (HP : exists q, projection_params p rot = Ok q).
  { unfold projection_params, mapping_name.
    destruct K as [(n & ks & HN & HI)|(m & ks & HN & HM & HI)]; rewrite HN.
    - destruct (CC _ _ _ HN HI) as [C1 C2]. clear CC CW. cbn [In cf_kinds] in HI.
      repeat (destruct HI as [HI|HI]; [injection HI as <- <- <-; cbn;
        repeat match goal with
          | C2 : "lambert_conformal_conic" = "lambert_conformal_conic" -> _ |- _ => destruct (C2 eq_refl) as (? & ? & CT); clear C2;
              unfold cf_two; rewrite (entry_item _ _ _ CT); cbn [bind]
          | |- context [cf_number _ ?k] => first
              [destruct (C1 k "lat_ts" ltac:(cbn; auto)) as (? & CN)|destruct (C1 k "lon_0" ltac:(cbn; auto)) as (? & CN)|destruct (C1 k "lat_0" ltac:(cbn; auto)) as (? & CN)];
              rewrite (entry_number _ _ _ CN); cbn [bind]; clear CN
          end; eexists; reflexivity|]). destruct HI.
    - specialize (CW _ _ _ HN HM HI). rewrite HM. clear CC HM. cbn [In wkt_kinds] in HI.
      repeat (destruct HI as [HI|HI]; [injection HI as <- <- <-; cbn;
        destruct (CW "latitude_of_natural_origin" "lat_0" ltac:(cbn; auto)) as (? & D1);
        destruct (CW "longitude_of_natural_origin" "lon_0" ltac:(cbn; auto)) as (? & D2);
        rewrite (entry_item _ _ _ D1), (entry_item _ _ _ D2); eexists; reflexivity|]). destruct HI. }
  destruct HP as ([gp [[a1 a2] a3]] & HP). unfold new_geometry. rewrite HP. cbn [bind].
  destruct xy; destruct SH as (SL & SA & LL & LA).
  { unfold projected. rewrite SL, SA.
    destruct (index_ends (snd lon) ltac:(lia)) as (u0 & u1 & -> & ->). destruct (index_ends (snd lat) ltac:(lia)) as (v0 & v1 & -> & ->).
    eexists. reflexivity. }
  unfold geographic. rewrite SL, SA.
  replace (shape_eqb [ny; nx] [ny; nx]) with true by (symmetry; apply str_eqb_spec; reflexivity). cbn [negb].
  destruct (cell_ok lon ny nx 0 0 SL LL ltac:(lia) ltac:(lia)) as (? & ->). destruct (cell_ok lat ny nx 0 0 SA LA ltac:(lia) ltac:(lia)) as (? & ->).
  destruct (cell_ok lon ny nx (ny - 1) (nx - 1) SL LL ltac:(lia) ltac:(lia)) as (? & ->). destruct (cell_ok lat ny nx (ny - 1) (nx - 1) SA LA ltac:(lia) ltac:(lia)) as (? & ->).
  eexists. reflexivity.
Qed.
Print Assumptions C94_accepted.

(** A Lambert conformal 3 x 3 grid *)
Definition ex_lcc : projection :=
  mk_projection (Some "lambert_conformal_conic")
    [("standard_parallel", CNums [of_Z 25; of_Z 45]); ("latitude_of_projection_origin", CNum (of_Z 40)); ("longitude_of_central_meridian", CNum (of_Z (-95)))]
    "Lambert Conic Conformal (2SP)" [].
Definition ex_lcc_geom : geom :=
  mk_geom 3 3 (ex_nd [0;1;2;0;1;2;0;1;2]) (ex_nd [0;0;0;1;1;1;2;2;2])
    (of_Z 0) (of_Z 0) (of_Z 2) (of_Z 2) [76;67;67] (of_Z 25) (of_Z (-95)) (of_Z 45).
Definition ex_lcc_file : gridfile := ok_or (new_grid_file ex_lcc_geom) (add_grids (new_grid_file ex_lcc_geom) ex_calls).
Definition ex_lcc_bytes : bytes := ok_or [] (snd (save_grid BE (set_precision 12 ex_lcc_file))).
Example C94_ex : complete ex_lcc /\ kind ex_lcc "lcc" /\ parameter ex_lcc "lat_1" (of_Z 25) /\ parameter ex_lcc "lat_2" (of_Z 45) /\ parameter ex_lcc "lon_0" (of_Z (-95)) /\
  In ("lcc", "lat_0") lost /\ parameter ex_lcc "lat_0" (of_Z 40) /\
  new_geometry false (fun q => q) (ex_nd [0;1;2;0;1;2;0;1;2]) (ex_nd [0;0;0;1;1;1;2;2;2]) ex_lcc (of_Z 0) = Ok ex_lcc_geom /\
  new_geometry true (fun q => q) ([3], map of_Z [0;1;2]) ([3], map of_Z [0;1;2]) ex_lcc (of_Z 0) = Ok ex_lcc_geom /\
  (forall q, In q ex_calls -> call_ok ex_lcc_geom q) /\ add_grids (new_grid_file ex_lcc_geom) ex_calls = Ok ex_lcc_file /\
  snd (save_grid BE (set_precision 12 ex_lcc_file)) = Ok ex_lcc_bytes /\
  (exists f nv d, open_grid ex_lcc_bytes = Ok f /\ gf_nav (rg_file f) = Some nv /\ get_crs (fun x => x) nv = Ok d /\
     entry d "lon_0" = Some (KNum (np32 (of_Z (-95)))) /\ entry d "lat_0" = None).
Proof.
  split.
  { split; [|discriminate]. intros n pr ks [= <-] HI. cbn [In cf_kinds] in HI.
    repeat (destruct HI as [HI|HI]; [try discriminate HI|]); [|destruct HI]. injection HI as <- <-. split.
    - intros cf k HK. cbn [In] in HK. destruct HK as [HK|[HK|[]]]; injection HK as <- <-; eexists; reflexivity.
    - intros _. eexists _, _. reflexivity. }
  split. { left. exists "lambert_conformal_conic". eexists. split; [reflexivity|]. cbn. auto 10. }
  split; [eapply first_parallel; reflexivity|]. split; [eapply second_parallel; reflexivity|].
  assert (BY : forall cf k x, In (cf, k) [("longitude_of_central_meridian", "lon_0"); ("latitude_of_projection_origin", "lat_0")] ->
     entry (pj_cf ex_lcc) cf = Some (CNum x) -> parameter ex_lcc k x).
  { intros cf k x HI HE. eapply by_cf with (proj := "lcc"); [reflexivity| |exact HI|exact HE]. cbn. auto 10. }
  split; [eapply BY; [left; reflexivity|reflexivity]|]. split; [cbn; auto|]. split; [eapply BY; [right; left; reflexivity|reflexivity]|].
  split; [vm_compute; reflexivity|]. split; [vm_compute; reflexivity|].
  split.
  { intros q Hq. destruct (proj1 (proj2 C06_example) q Hq) as (A & B & C). split; [exact A|]. split; [exact B|]. exact C. }
  split; [vm_compute; reflexivity|]. split; [vm_compute; reflexivity|].
  destruct (open_grid ex_lcc_bytes) as [f|] eqn:EO; [|vm_compute in EO; discriminate EO]. exists f.
  destruct (gf_nav (rg_file f)) as [nv|] eqn:EN.
  - exists nv. assert (NV : nv = ok_or nv (f <- open_grid ex_lcc_bytes ;; match gf_nav (rg_file f) with Some nv => Ok nv | None => Err KeyError end))
      by (rewrite EO; cbn [bind]; rewrite EN; reflexivity).
    vm_compute in NV. rewrite NV. eexists. split; [reflexivity|]. split; [reflexivity|]. split; [reflexivity|]. split; reflexivity.
  - exfalso. assert (X : (f <- open_grid ex_lcc_bytes ;; Ok (match gf_nav (rg_file f) with Some _ => true | None => false end)) = Ok true) by (vm_compute; reflexivity).
    rewrite EO in X. cbn [bind] in X. rewrite EN in X. discriminate X.
Qed.
