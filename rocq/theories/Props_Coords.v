(** The coordinates of grid files. *)
From Coq Require Import String List Lia ZifyBool ZifyNat SpecFloat.
From Verif Require Import Base BaseFacts Floats FloatsFacts Strings StringsFacts Real DmFile Grid GridRead SpecGrid GridFacts GridHistoryFacts
  Nav SpecNav Props_GridFile Props_Nav.
Import ListNotations.
Local Open Scope string_scope.
Local Open Scope list_scope.
Open Scope Z_scope.

(** ** Shapes *)
Lemma linspace_length a b n l : linspace a b n = Ok l -> 0 <= n /\ Zlen l = n.
Proof.
  unfold linspace. destruct (Z.ltb_spec n 0); [discriminate|]. intros [= <-]. split; [lia|].
  unfold Zlen. rewrite map_length, seq_length. lia.
Qed.
Lemma cells_length {A} (h : flt -> flt -> A) x y : Zlen (flat_map (fun yy => map (fun xx => h xx yy) x) y) = Zlen y * Zlen x.
Proof.
  induction y as [|yy y IH]; [reflexivity|]. cbn [flat_map]. unfold Zlen in *. rewrite app_length, map_length. cbn [length]. nia.
Qed.
Lemma coords_inv fcos pr iv nv c : set_coordinates fcos pr iv nv = Ok c ->
  exists d lllat lllon urlat urlon, get_crs fcos nv = Ok d /\
    nav_float nv 6 = Ok lllat /\ nav_float nv 7 = Ok lllon /\ nav_float nv 8 = Ok urlat /\ nav_float nv 9 = Ok urlon /\
    linspace (fst (pr d (lllon, lllat))) (fst (pr d (urlon, urlat))) (nv_kx nv) = Ok (co_x c) /\
    linspace (snd (pr d (lllon, lllat))) (snd (pr d (urlon, urlat))) (nv_ky nv) = Ok (co_y c) /\
    co_lon c = map (fun q => np32 (fst q)) (flat_map (fun yy => map (fun xx => iv d (xx, yy)) (co_x c)) (co_y c)) /\
    co_lat c = map (fun q => np32 (snd q)) (flat_map (fun yy => map (fun xx => iv d (xx, yy)) (co_x c)) (co_y c)).
Proof.
  unfold set_coordinates. intros H.
  destruct (get_crs fcos nv) as [d|] eqn:E1; cbn [bind] in H; [|discriminate H].
  destruct (nav_float nv 6) as [b1|] eqn:E2; cbn [bind] in H; [|discriminate H].
  destruct (nav_float nv 7) as [b2|] eqn:E3; cbn [bind] in H; [|discriminate H].
  destruct (nav_float nv 8) as [b3|] eqn:E4; cbn [bind] in H; [|discriminate H].
  destruct (nav_float nv 9) as [b4|] eqn:E5; cbn [bind] in H; [|discriminate H].
  destruct (pr d (b2, b1)) as [llx lly] eqn:P1. destruct (pr d (b4, b3)) as [urx ury] eqn:P2.
  destruct (linspace llx urx (nv_kx nv)) as [x|] eqn:E6; cbn [bind] in H; [|discriminate H].
  destruct (linspace lly ury (nv_ky nv)) as [y|] eqn:E7; cbn [bind] in H; [|discriminate H]. injection H as <-.
  exists d, b1, b2, b3, b4. rewrite P1, P2. cbn [fst snd co_x co_y co_lon co_lat]. auto 12.
Qed.

Lemma diff_row_length m buf : forall kx iword ibit s r, diff_row m buf kx iword ibit s = Ok r -> length (snd r) = kx.
Proof.
  induction kx as [|k IH]; intros iword ibit s r H; cbn [diff_row] in H; [injection H as <-; reflexivity|].
  destruct (diff_code m buf iword ibit); cbn [bind] in H; [|discriminate H].
  destruct (diff_advance m iword ibit) as [i' b']. destruct (diff_value m s a) as [s' v].
  destruct (diff_row m buf k i' b' s') as [[[[i2 b2] s2] vs]|] eqn:E; cbn [bind] in H; [|discriminate H].
  injection H as <-. apply IH in E. cbn [snd length] in *. lia.
Qed.
Lemma diff_rows_length m buf kx : forall ky iword ibit s r, diff_rows m buf ky kx iword ibit s = Ok r ->
  length r = ky /\ Forall (fun row => length row = kx) r.
Proof.
  induction ky as [|k IH]; intros iword ibit s r H; cbn [diff_rows] in H; [injection H as <-; auto|].
  destruct (diff_row _ _ _ _ _ _) as [[[[i2 b2] s2] vs]|] eqn:E; cbn [bind] in H; [|discriminate H].
  destruct (diff_rows _ _ _ _ _ _ _) as [rest|] eqn:E2; cbn [bind] in H; [|discriminate H]. injection H as <-.
  apply IH in E2 as [L F]. apply diff_row_length in E. cbn [snd length] in *. split; [lia|constructor; assumption].
Qed.
Lemma reshape_length {A} (l l' : list A) kx ky : reshape l kx ky = Ok l' -> Zlen l' = ky * kx.
Proof.
  unfold reshape. destruct (Z.ltb_spec kx 0); [discriminate|]. destruct (Z.ltb_spec ky 0); [discriminate|].
  cbn [orb]. destruct (Z.eqb_spec (Zlen l) (ky * kx)); [|discriminate]. intros [= <-]. assumption.
Qed.
Ltac bstep H := match type of H with
  | bind ?m _ = Ok _ => let E := fresh "E" in destruct m as [?|] eqn:E; cbn [bind] in H; [|discriminate H]
  end.
Lemma read_at_fits g h kx ky ptr a : 0 <= kx -> 0 <= ky -> read_grid_at g h kx ky ptr = Ok (Some a) -> fits kx ky a.
Proof.
  intros HX HY H. unfold read_grid_at in H.
  set (p1 := rd_next _ _ + _) in H. clearbody p1.
  destruct (rd_uint (gf_endian g) (gf_data g) p1 =? 0).
  { destruct (_ >? 1); [|discriminate H]. repeat bstep H. injection H as <-. eapply reshape_length; eassumption. }
  destruct ((_ =? 1) || (_ =? 4)).
  { repeat bstep H. match type of H with match ?o with _ => _ end = _ => destruct o end; [|discriminate H].
    repeat bstep H. injection H as <-. eapply reshape_length; eassumption. }
  destruct (_ =? 3).
  { repeat bstep H. match type of H with Ok (match ?o with _ => _ end) = _ => destruct o as [r|] end; [|discriminate H]. injection H as <-.
    match goal with E : unpack_diff _ _ _ _ = Ok (Some r) |- _ => unfold unpack_diff in E; destruct (_ >? 1) in E; [|discriminate E]; bstep E;
      injection E as ->; match goal with D : diff_rows _ _ _ _ _ _ _ = Ok r |- _ => apply diff_rows_length in D as [L F] end end.
    cbn [fits]. split; [unfold Zlen; lia|]. eapply Forall_impl; [|exact F]. intros row HR. unfold Zlen. cbn beta in HR. lia. }
  destruct ((_ =? 2) || (_ =? 5)); discriminate H.
Qed.

Lemma mapM_In {A B} (f : A -> res B) : forall l ys y, mapM f l = Ok ys -> In y ys -> exists a, In a l /\ f a = Ok y.
Proof.
  induction l as [|a l IH]; intros ys y H HI; cbn [mapM] in H; [injection H as <-; destruct HI|].
  destruct (f a) as [b|] eqn:E; cbn [bind] in H; [|discriminate H].
  destruct (mapM f l) as [bs|] eqn:E2; cbn [bind] in H; [|discriminate H]. injection H as <-.
  destruct HI as [<-|HI]; [exists a; cbn; auto|]. destruct (IH bs y eq_refl HI) as (a' & HA & HF). exists a'. cbn. auto.
Qed.

(** ** C95 *)
(** Whatever is in the file: x, y and the two-dimensional longitudes and latitudes have the sizes
    the header gives, and every array read has the shape of its coordinates. *)
Theorem C95_shapes : forall fcos pr iv f nv c n arrays,
  gf_nav (rg_file f) = Some nv -> set_coordinates fcos pr iv nv = Ok c -> read_grid f n = Ok arrays ->
  Zlen (co_x c) = nv_kx nv /\ Zlen (co_y c) = nv_ky nv /\
  Zlen (co_lon c) = Zlen (co_y c) * Zlen (co_x c) /\ Zlen (co_lat c) = Zlen (co_y c) * Zlen (co_x c) /\
  Forall (fits (Zlen (co_x c)) (Zlen (co_y c))) arrays.
Proof.
  intros fcos pr iv f nv c n arrays HN HC HR.
  destruct (coords_inv _ _ _ _ _ HC) as (d & ? & ? & ? & ? & _ & _ & _ & _ & _ & LX & LY & EL & EA).
  apply linspace_length in LX as [X0 LX]. apply linspace_length in LY as [Y0 LY]. split; [exact LX|]. split; [exact LY|].
  split; [rewrite EL, Zlen_map; apply cells_length|]. split; [rewrite EA, Zlen_map; apply cells_length|].
  rewrite LX, LY. unfold read_grid in HR. rewrite HN in HR. cbn [bind] in HR. bstep HR. injection HR as <-.
  apply Forall_forall. intros z Hx. apply in_flat_map in Hx as (r & Hr & Hx). destruct r as [r|]; [|destruct Hx]. destruct Hx as [<-|[]].
  destruct (mapM_In _ _ _ _ E Hr) as ([i pt] & _ & HA). exact (read_at_fits _ _ _ _ _ _ X0 Y0 HA).
Qed.
Print Assumptions C95_shapes.

(** ** Corners *)
Lemma add_zero step v : fadd (fmul (of_Z 0) step) v <> S754_nan -> v <> S754_zero true -> fadd (fmul (of_Z 0) step) v = v.
Proof.
  change (of_Z 0) with (S754_zero false). intros HN HZ.
  destruct step as [s|s| |s m e]; destruct v as [t|t| |t m' e']; try reflexivity; try (exfalso; apply HN; reflexivity).
  - destruct t; [congruence|]. destruct s; reflexivity.
  - destruct t; [congruence|]. destruct s; reflexivity.
Qed.
Lemma np32_nan x : x = S754_nan -> np32 x = S754_nan.
Proof. intros ->. reflexivity. Qed.
Lemma linspace_last a b n l : linspace a b n = Ok l -> 2 <= n -> nth_error l (Z.to_nat (n - 1)) = Some (np32 b).
Proof.
  unfold linspace. destruct (Z.ltb_spec n 0); [discriminate|]. intros [= <-] H2.
  erewrite map_nth_error; [|rewrite nth_error_nth' with (d := O); [rewrite seq_nth by lia; reflexivity|rewrite seq_length; lia]].
  cbn [plus]. rewrite Z2Nat.id by lia. destruct (Z.ltb_spec 0 (n - 1)); [|lia]. rewrite Z.eqb_refl. reflexivity.
Qed.
Lemma head_seq (F : nat -> flt) k v : nth_error (map F (seq 0 k)) 0 = Some v -> v = F O.
Proof. destruct k; [discriminate|]. intros H. inversion H. reflexivity. Qed.
Lemma linspace_first a b n l v : linspace a b n = Ok l -> nth_error l 0 = Some v -> v <> S754_nan -> a <> S754_zero true -> v = np32 a.
Proof.
  unfold linspace. destruct (Z.ltb_spec n 0); [discriminate|]. intros [= <-].
  intros HV HN HA. apply head_seq in HV. subst v. change (Z.of_nat 0) with 0 in *. f_equal. set (div := n - 1) in *. destruct (Z.ltb_spec 0 div).
  - cbn [andb] in *. destruct (Z.eqb_spec 0 div); [lia|]. destruct (float_is _ 0).
    + assert (E : fdiv (of_Z 0) (of_Z div) = of_Z 0 \/ fdiv (of_Z 0) (of_Z div) = S754_nan \/ fdiv (of_Z 0) (of_Z div) = S754_zero true).
      { change (of_Z 0) with (S754_zero false). destruct (of_Z div) as [s|s| |s m e]; cbn; auto; destruct s; auto. }
      destruct E as [E|[E|E]]; rewrite E in HN |- *; clear E.
      * apply add_zero; [|exact HA]. intros X. apply HN, np32_nan, X.
      * exfalso. apply HN. reflexivity.
      * set (delta := fsub b a) in *. destruct delta as [s|s| |s m e]; destruct a as [t|t| |t m' e']; try reflexivity;
          try (exfalso; apply HN; reflexivity); (destruct t; [congruence|]; destruct s; reflexivity).
    + apply add_zero; [|exact HA]. intros X. apply HN, np32_nan, X.
  - cbn [andb] in *. apply add_zero; [|exact HA]. intros X. apply HN, np32_nan, X.
Qed.
(** Row [j], column [i] *)
Lemma cells_nth {A} (h : flt -> flt -> A) x : forall y i j xi yj, nth_error x i = Some xi -> nth_error y j = Some yj ->
  nth_error (flat_map (fun yy => map (fun xx => h xx yy) x) y) (j * length x + i) = Some (h xi yj).
Proof.
  induction y as [|yy y IH]; intros i j xi yj HI HJ; [destruct j; discriminate HJ|].
  assert (LI : (i < length x)%nat) by (apply nth_error_Some; congruence). cbn [flat_map]. destruct j as [|j]; cbn [nth_error] in HJ.
  - injection HJ as ->. cbn [Nat.mul plus]. rewrite nth_error_app1 by (rewrite map_length; exact LI).
    exact (map_nth_error (fun xx => h xx yj) i x HI).
  - rewrite nth_error_app2 by (rewrite map_length; lia). rewrite map_length.
    replace (S j * length x + i - length x)%nat with (j * length x + i)%nat by lia. apply IH; assumption.
Qed.

Lemma coords_written fcos pr iv e g bits calls o o' b : In (gm_proj g) known_projections -> gm_proj g <> [77;67;68] ->
  0 <= gm_nx g < 2 ^ 24 -> 0 <= gm_ny g < 2 ^ 24 ->
  (forall q, In q calls -> call_ok g q) -> add_grids (new_grid_file g) calls = Ok o ->
  save_grid e (set_precision bits o) = (o', Ok b) ->
  exists f nv d c, open_grid b = Ok f /\ gf_nav (rg_file f) = Some nv /\ get_crs fcos nv = Ok d /\ set_coordinates fcos pr iv nv = Ok c /\
    let ll := pr d (np32 (gm_ll_lon g), np32 (gm_ll_lat g)) in
    let ur := pr d (np32 (gm_ur_lon g), np32 (gm_ur_lat g)) in
    Zlen (co_x c) = gm_nx g /\ Zlen (co_y c) = gm_ny g /\
    (2 <= gm_nx g -> nth_error (co_x c) (Z.to_nat (gm_nx g - 1)) = Some (np32 (fst ur))) /\
    (2 <= gm_ny g -> nth_error (co_y c) (Z.to_nat (gm_ny g - 1)) = Some (np32 (snd ur))) /\
    (forall v, nth_error (co_x c) 0 = Some v -> v <> S754_nan -> fst ll <> S754_zero true -> v = np32 (fst ll)) /\
    (forall v, nth_error (co_y c) 0 = Some v -> v <> S754_nan -> snd ll <> S754_zero true -> v = np32 (snd ll)) /\
    (forall i j xi yj, nth_error (co_x c) i = Some xi -> nth_error (co_y c) j = Some yj ->
       nth_error (co_lon c) (j * Z.to_nat (gm_nx g) + i) = Some (np32 (fst (iv d (xi, yj)))) /\
       nth_error (co_lat c) (j * Z.to_nat (gm_nx g) + i) = Some (np32 (snd (iv d (xi, yj))))).
Proof.
  intros IN NM X0 Y0 HOK HADD HS.
  destruct (written_nav e g bits calls o o' b) as (f & dn & HF & HNV); try assumption.
  { split; [exact IN|lia]. }
  assert (HD : exists d, get_crs fcos (gnav_of g dn) = Ok d).
  { assert (PO : exists q, proj_of gemproj_to_proj (gm_proj g) = Ok q).
    { cbn [In known_projections] in IN. repeat (destruct IN as [<-|IN]; [eexists; reflexivity|]). destruct IN. }
    destruct PO as ([pj ty] & PO). eexists. exact (crs_back fcos g dn _ _ _ eq_refl PO NM). }
  destruct HD as (d & HD). exists f, (gnav_of g dn), d.
  assert (HC : exists c, set_coordinates fcos pr iv (gnav_of g dn) = Ok c).
  { unfold set_coordinates. rewrite HD. cbn [bind].
    change (nav_float (gnav_of g dn) 6) with (Ok (np32 (gm_ll_lat g))). change (nav_float (gnav_of g dn) 7) with (Ok (np32 (gm_ll_lon g))).
    change (nav_float (gnav_of g dn) 8) with (Ok (np32 (gm_ur_lat g))). change (nav_float (gnav_of g dn) 9) with (Ok (np32 (gm_ur_lon g))).
    cbn [bind]. destruct (pr d (np32 (gm_ll_lon g), np32 (gm_ll_lat g))) as [a1 a2]. destruct (pr d (np32 (gm_ur_lon g), np32 (gm_ur_lat g))) as [b1 b2].
    change (nv_kx (gnav_of g dn)) with (gm_nx g). change (nv_ky (gnav_of g dn)) with (gm_ny g).
    unfold linspace. destruct (Z.ltb_spec (gm_nx g) 0); [lia|]. destruct (Z.ltb_spec (gm_ny g) 0); [lia|]. eexists. reflexivity. }
  destruct HC as (c & HC). exists c. split; [exact HF|]. split; [exact HNV|]. split; [exact HD|]. split; [exact HC|].
  destruct (coords_inv _ _ _ _ _ HC) as (d' & q1 & q2 & q3 & q4 & ED & F1 & F2 & F3 & F4 & LX & LY & EL & EA).
  rewrite HD in ED. injection ED as <-.
  change (nav_float (gnav_of g dn) 6) with (Ok (np32 (gm_ll_lat g))) in F1. change (nav_float (gnav_of g dn) 7) with (Ok (np32 (gm_ll_lon g))) in F2.
  change (nav_float (gnav_of g dn) 8) with (Ok (np32 (gm_ur_lat g))) in F3. change (nav_float (gnav_of g dn) 9) with (Ok (np32 (gm_ur_lon g))) in F4.
  injection F1 as <-. injection F2 as <-. injection F3 as <-. injection F4 as <-.
  change (nv_kx (gnav_of g dn)) with (gm_nx g) in LX. change (nv_ky (gnav_of g dn)) with (gm_ny g) in LY. cbv zeta.
  destruct (linspace_length _ _ _ _ LX) as [_ NX]. destruct (linspace_length _ _ _ _ LY) as [_ NY].
  split; [exact NX|]. split; [exact NY|].
  split; [exact (linspace_last _ _ _ _ LX)|]. split; [exact (linspace_last _ _ _ _ LY)|].
  split; [intros v; exact (linspace_first _ _ _ _ v LX)|]. split; [intros v; exact (linspace_first _ _ _ _ v LY)|].
  intros i j xi yj HI HJ.
  assert (NL : length (co_x c) = Z.to_nat (gm_nx g)) by (unfold Zlen in NX; lia).
  pose proof (cells_nth (fun xx yy => iv d (xx, yy)) (co_x c) (co_y c) i j xi yj HI HJ) as HCELL. rewrite NL in HCELL.
  rewrite EL, EA. split; [exact (map_nth_error (fun q => np32 (fst q)) _ _ HCELL)|exact (map_nth_error (fun q => np32 (snd q)) _ _ HCELL)].
Qed.

(** A file written from longitudes and latitudes [lon], [lat]: as many x and y as columns and rows,
    the first and last being the corners' projections, and each cell's longitude and latitude
    belonging to its x and y.  [pr], [iv]: the projection in both directions, any functions. *)
Theorem C95_written : forall fcos pr iv e inv lon lat p rot g bits calls o o' b ny nx l0 p0 l1 p1,
  new_geometry false inv lon lat p rot = Ok g -> fst lon = [ny; nx] -> nx < 2 ^ 24 -> ny < 2 ^ 24 ->
  cell lon 0 0 = Ok l0 -> cell lat 0 0 = Ok p0 -> cell lon (ny - 1) (nx - 1) = Ok l1 -> cell lat (ny - 1) (nx - 1) = Ok p1 ->
  (forall q, In q calls -> call_ok g q) -> add_grids (new_grid_file g) calls = Ok o ->
  save_grid e (set_precision bits o) = (o', Ok b) ->
  exists f nv d c, open_grid b = Ok f /\ gf_nav (rg_file f) = Some nv /\ get_crs fcos nv = Ok d /\ set_coordinates fcos pr iv nv = Ok c /\
    let ll := pr d (np32 l0, np32 p0) in
    let ur := pr d (np32 l1, np32 p1) in
    Zlen (co_x c) = nx /\ Zlen (co_y c) = ny /\
    (2 <= nx -> nth_error (co_x c) (Z.to_nat (nx - 1)) = Some (np32 (fst ur))) /\
    (2 <= ny -> nth_error (co_y c) (Z.to_nat (ny - 1)) = Some (np32 (snd ur))) /\
    (forall v, nth_error (co_x c) 0 = Some v -> v <> S754_nan -> fst ll <> S754_zero true -> v = np32 (fst ll)) /\
    (forall v, nth_error (co_y c) 0 = Some v -> v <> S754_nan -> snd ll <> S754_zero true -> v = np32 (snd ll)) /\
    (forall i j xi yj, nth_error (co_x c) i = Some xi -> nth_error (co_y c) j = Some yj ->
       nth_error (co_lon c) (j * Z.to_nat nx + i) = Some (np32 (fst (iv d (xi, yj)))) /\
       nth_error (co_lat c) (j * Z.to_nat nx + i) = Some (np32 (snd (iv d (xi, yj))))).
Proof.
  intros fcos pr iv e inv lon lat p rot g bits calls o o' b ny nx l0 p0 l1 p1 HN HL GX GY C1 C2 C3 C4 HOK HADD HS.
  destruct (new_geometry_stored _ _ _ _ _ _ _ HN) as (HP & X0 & Y0). destruct (stored_ok _ _ _ _ _ _ HP) as [IN NM].
  assert (GG : gm_nx g = nx /\ gm_ny g = ny /\ gm_ll_lon g = l0 /\ gm_ll_lat g = p0 /\ gm_ur_lon g = l1 /\ gm_ur_lat g = p1).
  { unfold new_geometry in HN. rewrite HP in HN. cbn [bind] in HN. unfold geographic in HN.
    destruct (negb (shape_eqb (fst lat) (fst lon))) eqn:ES; [discriminate HN|].
    assert (SE : fst lat = fst lon) by (apply str_eqb_spec; unfold shape_eqb in ES; destruct (str_eqb (fst lat) (fst lon)); [reflexivity|discriminate ES]).
    rewrite SE, HL in HN. rewrite C1, C2, C3, C4 in HN. cbn [bind] in HN. injection HN as <-. auto 10. }
  destruct GG as (<- & <- & <- & <- & <- & <-).
  exact (coords_written fcos pr iv e g bits calls o o' b IN NM (conj X0 GX) (conj Y0 GY) HOK HADD HS).
Qed.
Print Assumptions C95_written.

(** The same for a file made from projected coordinates [x], [y] (use_xy), whose corners the given
    projection's inverse [inv] maps to longitudes and latitudes *)
Theorem C95_written_xy : forall fcos pr iv e inv x y p rot g bits calls o o' b nx ny x0 y0 x1 y1,
  new_geometry true inv x y p rot = Ok g -> Zlen (snd x) = nx -> Zlen (snd y) = ny -> nx < 2 ^ 24 -> ny < 2 ^ 24 ->
  nth_error (snd x) 0 = Some x0 -> nth_error (snd y) 0 = Some y0 ->
  nth_error (snd x) (Z.to_nat (nx - 1)) = Some x1 -> nth_error (snd y) (Z.to_nat (ny - 1)) = Some y1 ->
  (forall q, In q calls -> call_ok g q) -> add_grids (new_grid_file g) calls = Ok o ->
  save_grid e (set_precision bits o) = (o', Ok b) ->
  exists f nv d c, open_grid b = Ok f /\ gf_nav (rg_file f) = Some nv /\ get_crs fcos nv = Ok d /\ set_coordinates fcos pr iv nv = Ok c /\
    let ll := pr d (np32 (fst (inv (x0, y0))), np32 (snd (inv (x0, y0)))) in
    let ur := pr d (np32 (fst (inv (x1, y1))), np32 (snd (inv (x1, y1)))) in
    Zlen (co_x c) = nx /\ Zlen (co_y c) = ny /\
    (2 <= nx -> nth_error (co_x c) (Z.to_nat (nx - 1)) = Some (np32 (fst ur))) /\
    (2 <= ny -> nth_error (co_y c) (Z.to_nat (ny - 1)) = Some (np32 (snd ur))) /\
    (forall v, nth_error (co_x c) 0 = Some v -> v <> S754_nan -> fst ll <> S754_zero true -> v = np32 (fst ll)) /\
    (forall v, nth_error (co_y c) 0 = Some v -> v <> S754_nan -> snd ll <> S754_zero true -> v = np32 (snd ll)) /\
    (forall i j xi yj, nth_error (co_x c) i = Some xi -> nth_error (co_y c) j = Some yj ->
       nth_error (co_lon c) (j * Z.to_nat nx + i) = Some (np32 (fst (iv d (xi, yj)))) /\
       nth_error (co_lat c) (j * Z.to_nat nx + i) = Some (np32 (snd (iv d (xi, yj))))).
Proof.
  intros fcos pr iv e inv x y p rot g bits calls o o' b nx ny x0 y0 x1 y1 HN <- <- GX GY N1 N2 N3 N4 HOK HADD HS.
  destruct (new_geometry_stored _ _ _ _ _ _ _ HN) as (HP & X0 & Y0). destruct (stored_ok _ _ _ _ _ _ HP) as [IN NM].
  assert (LAST : forall (l : list flt) z, nth_error l (Z.to_nat (Zlen l - 1)) = Some z -> py_index l (-1) = Ok z).
  { intros l z Hz. unfold py_index. change (-1 <? 0) with true. cbv iota. replace (-1 + Zlen l) with (Zlen l - 1) by lia.
    destruct (Z.ltb_spec (Zlen l - 1) 0) as [HB|HB]; [|rewrite Hz; reflexivity].
    destruct l; [discriminate Hz|]. unfold Zlen in HB. cbn [length] in HB. lia. }
  assert (FIRST : forall (l : list flt) z, nth_error l 0 = Some z -> py_index l 0 = Ok z).
  { intros l z Hz. destruct l; [discriminate Hz|]. injection Hz as ->. reflexivity. }
  assert (GG : gm_nx g = Zlen (snd x) /\ gm_ny g = Zlen (snd y) /\ (gm_ll_lon g = fst (inv (x0, y0)) /\ gm_ll_lat g = snd (inv (x0, y0))) /\
     gm_ur_lon g = fst (inv (x1, y1)) /\ gm_ur_lat g = snd (inv (x1, y1))).
  { unfold new_geometry in HN. rewrite HP in HN. cbn [bind] in HN. unfold projected in HN.
    destruct (fst y) as [|? [|]]; try discriminate HN. destruct (fst x) as [|? [|]]; try discriminate HN.
    rewrite (FIRST _ _ N1), (FIRST _ _ N2), (LAST _ _ N3), (LAST _ _ N4) in HN. cbn [bind] in HN. injection HN as <-. auto 10. }
  destruct GG as (G1 & G2 & (G3 & G4) & G5 & G6). rewrite <- G1 in GX. rewrite <- G2 in GY. rewrite <- G1, <- G2, <- G3, <- G4, <- G5, <- G6.
  exact (coords_written fcos pr iv e g bits calls o o' b IN NM (conj X0 GX) (conj Y0 GY) HOK HADD HS).
Qed.
Print Assumptions C95_written_xy.

(** Plate carree with a scale: x is twice the longitude, y twice the latitude *)
Example C95_ex : let twice (_ : list (string * crs_value)) (q : flt * flt) := (fadd (fst q) (fst q), fadd (snd q) (snd q)) in
  exists f nv c arrays, open_grid ex_lcc_bytes = Ok f /\ gf_nav (rg_file f) = Some nv /\
    set_coordinates (fun x => x) twice twice nv = Ok c /\ read_grid f 0 = Ok arrays /\
    co_x c = map np32 (map of_Z [0; 2; 4]) /\ length arrays = 1%nat /\ Zlen (co_lon c) = 9.
Proof.
  intros twice.
  set (all := f <- open_grid ex_lcc_bytes ;; nv <- match gf_nav (rg_file f) with Some nv => Ok nv | None => Err KeyError end ;;
     c <- set_coordinates (fun x => x) twice twice nv ;; a <- read_grid f 0 ;;
     Ok (co_x c, length a, Zlen (co_lon c))).
  assert (A : all = Ok (map np32 (map of_Z [0; 2; 4]), 1%nat, 9)) by (vm_compute; reflexivity). unfold all in A.
  destruct (open_grid ex_lcc_bytes) as [f|]; cbn [bind] in A; [|discriminate A].
  destruct (gf_nav (rg_file f)) as [nv|] eqn:EN; cbn [bind] in A; [|discriminate A].
  destruct (set_coordinates (fun x => x) twice twice nv) as [c|] eqn:EC; cbn [bind] in A; [|discriminate A].
  destruct (read_grid f 0) as [a|] eqn:ER; cbn [bind] in A; [|discriminate A].
  exists f, nv, c, a. split; [reflexivity|]. split; [exact EN|]. split; [exact EC|]. split; [exact ER|].
  assert (A' := f_equal (fun r => match r with Ok q => q | Err _ => ([], O, 0) end) A). cbn iota in A'.
  split; [exact (f_equal (fun q => fst (fst q)) A')|]. split; [exact (f_equal (fun q => snd (fst q)) A')|exact (f_equal snd A')].
Qed.
