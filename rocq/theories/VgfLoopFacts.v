(** Every decoder leaves the cursor at or after the place where its record's body starts, as
    long as its counts are in range. *)
From Coq Require Import Lia ZifyBool ZifyNat.
From Verif Require Import Base BaseFacts Floats Strings Structs StructsFacts Tools ToolsFacts VgfBase VgfTables VgfRead SpecVgf SpecVgfLoop.
From Coq Require Import List.
Import ListNotations.
Open Scope string_scope.
Open Scope list_scope.
Open Scope Z_scope.

(** [m] keeps the data and moves the cursor by at least [k]. *)
Definition fwd {A} (k : Z) (m : rd A) : Prop :=
  forall b a b', 0 <= io_offset b -> m b = Ok (a, b') ->
    io_data b' = io_data b /\ io_offset b + k <= io_offset b' /\ exists l, io_marks b' = io_marks b ++ l.

Lemma fwd_weaken {A} k k' (m : rd A) : k' <= k -> fwd k m -> fwd k' m.
Proof. intros L F b a b' O H. destruct (F b a b' O H) as (D & P & M). repeat split; auto; lia. Qed.
Lemma fwd_ret {A} (a : A) : fwd 0 (retR a).
Proof. intros b x b' O [= <- <-]. repeat split; auto; try lia. exists []. rewrite app_nil_r. reflexivity. Qed.
Lemma fwd_lift {A} (r : res A) : fwd 0 (liftR r).
Proof.
  intros b x b' O H. unfold liftR in H. destruct r; [|discriminate]. injection H as <- <-. repeat split; auto; try lia.
  exists []. rewrite app_nil_r. reflexivity.
Qed.
Lemma fwd_err {A} k x : fwd k (errR (A:=A) x).
Proof. intros b a b' O H. discriminate. Qed.
Lemma fwd_bind {A B} k k1 (m : rd A) (f : A -> rd B) : 0 <= k1 -> fwd k1 m -> (forall a, fwd (k - k1) (f a)) -> fwd k (bindR m f).
Proof.
  intros N F G b x b' O H. unfold bindR in H. destruct (m b) as [[a b1]|] eqn:E; [|discriminate].
  destruct (F _ _ _ O E) as (D1 & P1 & l1 & M1). destruct (G a b1 x b' ltac:(lia) H) as (D2 & P2 & l2 & M2).
  repeat split; [congruence|lia|]. exists (l1 ++ l2). rewrite M2, M1, app_assoc. reflexivity.
Qed.
Lemma fwd_skip n : fwd n (r_skip n).
Proof.
  intros b a b' O H. injection H as <- <-. cbn. repeat split; [lia|]. exists []. rewrite app_nil_r. reflexivity.
Qed.
Lemma fwd_read n : fwd 0 (r_read n).
Proof.
  intros b a b' O H. unfold r_read, io_read in H. injection H as <- <-. cbn [io_skip io_data io_offset io_marks].
  match goal with |- context[_ + Zlen ?r] => pose proof (Zlen_nonneg r) end. repeat split; [lia|]. exists []. rewrite app_nil_r. reflexivity.
Qed.
Lemma fwd_struct e f : fwd (Z.of_nat (calcsize f)) (r_struct e f).
Proof.
  intros b a b' O H. unfold r_struct, io_read_struct in H. destruct (struct_unpack_from _ _ _ _); [|discriminate].
  injection H as <- <-. cbn [io_skip io_data io_offset io_marks]. repeat split; [lia|]. exists []. rewrite app_nil_r. reflexivity.
Qed.
Lemma fwd_named_size e v t : fwd (Z.of_nat (calcsize (formats t))) (r_named e v t).
Proof.
  unfold r_named. eapply fwd_bind; [|apply fwd_struct|]; [lia|]. intros a. rewrite Z.sub_diag. apply fwd_lift.
Qed.
Lemma fwd_named e v t : fwd 0 (r_named e v t).
Proof. eapply fwd_weaken; [|apply fwd_named_size]. lia. Qed.
Lemma fwd_array {A} (c : bytes -> A) n : fwd (4 * Z.max n 0) (r_array c n).
Proof.
  intros b a b' O H. unfold r_array, io_read_array in H.
  destruct (n <? 0) eqn:N.
  - destruct ((io_offset b <? 0) || (Zlen (io_data b) <? io_offset b)) eqn:R; [discriminate|].
    destruct (true && _); [discriminate|]. destruct (_ <? 4 * _); [discriminate|].
    assert (E : b' = io_skip (Some (4 * ((Zlen (io_data b) - io_offset b) / 4))) b) by congruence. subst b'. clear H.
    cbn [io_skip io_data io_offset io_marks]. repeat split; [|exists []; rewrite app_nil_r; reflexivity].
    assert (0 <= (Zlen (io_data b) - io_offset b) / 4) by (apply Z.div_pos; lia). lia.
  - destruct ((io_offset b <? 0) || _); [discriminate|]. cbn [andb] in H. destruct (_ <? 4 * n); [discriminate|].
    assert (E : b' = io_skip (Some (4 * n)) b) by congruence. subst b'. clear H. cbn [io_skip io_data io_offset io_marks]. repeat split; [lia|]. exists []. rewrite app_nil_r. reflexivity.
Qed.
Lemma fwd_array0 {A} (c : bytes -> A) n : fwd 0 (r_array c n).
Proof. eapply fwd_weaken; [|apply fwd_array]. lia. Qed.
Lemma fwd_uint n : fwd 0 (r_uint n).
Proof.
  intros b a b' O H. unfold r_uint, io_read_int, io_read in H. injection H as <- <-. cbn [io_skip io_data io_offset io_marks].
  match goal with |- context[_ + Zlen ?r] => pose proof (Zlen_nonneg r) end. repeat split; [lia|]. exists []. rewrite app_nil_r. reflexivity.
Qed.
Lemma fwd_repeat {A} k (m : rd A) n : 0 <= k -> fwd k m -> fwd (k * Z.of_nat n) (repeatR n m).
Proof.
  intros K F. induction n as [|n IH]; cbn [repeatR].
  - replace (k * Z.of_nat 0) with 0 by lia. apply fwd_ret.
  - eapply fwd_bind; [|exact F|]; [lia|]. intros a. replace (k * Z.of_nat (S n) - k) with (k * Z.of_nat n) by lia.
    eapply fwd_bind; [|exact IH|]; [lia|]. intros r. rewrite Z.sub_diag. apply fwd_ret.
Qed.
Lemma fwd_latlon n : fwd (8 * Z.max n 0) (get_latlon n).
Proof.
  unfold get_latlon. destruct (_ <? n); [apply fwd_err|]. destruct (Z.leb_spec 1 n).
  - eapply fwd_bind; [|apply fwd_array|]; [lia|]. intros lat. eapply fwd_bind; [|apply fwd_array|]; [lia|]. intros lon.
    eapply fwd_weaken; [|apply fwd_ret]. lia.
  - eapply fwd_weaken; [|apply fwd_ret]. lia.
Qed.
Lemma fwd_raw n : fwd (4 * Z.max n 0) (raw_array n).
Proof. unfold raw_array. eapply fwd_bind; [|apply fwd_array|]; [lia|]. intros l. eapply fwd_weaken; [|apply fwd_ret]. lia. Qed.
Lemma fwd_text n : fwd 0 (read_text n).
Proof. unfold read_text. eapply fwd_bind; [|apply fwd_read|]; [lia|]. intros l. rewrite Z.sub_0_r. apply fwd_lift. Qed.

(** Close a goal [fwd k m] of straight-line code; leaves arithmetic. *)
Ltac step0 := first
  [ eapply fwd_bind; [|apply fwd_named|]; [lia|intros ?]
  | eapply fwd_bind; [|apply fwd_latlon|]; [lia|intros [? ?]]
  | eapply fwd_bind; [|apply fwd_raw|]; [lia|intros ?]
  | eapply fwd_bind; [|apply fwd_text|]; [lia|intros ?]
  | eapply fwd_bind; [|apply fwd_read|]; [lia|intros ?]
  | eapply fwd_bind; [|apply fwd_lift|]; [lia|intros ?]
  | eapply fwd_weaken; [|apply fwd_ret] ; lia
  | eapply fwd_weaken; [|apply fwd_lift] ; lia
  | apply fwd_err ].

Lemma fwd_file_header h : fwd 0 (dec_file_header h).
Proof. unfold dec_file_header. repeat step0. Qed.
Lemma fwd_fronts h : fwd 0 (dec_fronts h).
Proof. unfold dec_fronts. repeat step0. Qed.
Lemma fwd_symbols h : fwd 0 (dec_symbols h).
Proof. unfold dec_symbols. repeat step0. Qed.
Lemma fwd_circles h : fwd 0 (dec_circles h).
Proof. unfold dec_circles. repeat step0. Qed.
Lemma fwd_if {A} k (c : bool) (m1 m2 : rd A) : fwd k m1 -> fwd k m2 -> fwd k (if c then m1 else m2).
Proof. destruct c; auto. Qed.
Lemma fwd_close k (c : bool) lat lon (f : coords * coords -> rd (list velem)) : (forall p, fwd k (f p)) ->
  fwd k (bindR (if c then bindR (liftR (close_coords lat)) (fun x => bindR (liftR (close_coords lon)) (fun y => retR (x, y))) else retR (lat, lon)) f).
Proof.
  intros F. eapply fwd_bind with (k1 := 0); [lia| |intros a; rewrite Z.sub_0_r; apply F]. apply fwd_if; [repeat step0|apply fwd_ret].
Qed.
Lemma fwd_flip k (c : bool) lat lon (f : coords * coords -> rd (list velem)) : (forall p, fwd k (f p)) ->
  fwd k (bindR (if c then bindR (liftR (flip_coords lat)) (fun x => bindR (liftR (flip_coords lon)) (fun y => retR (x, y))) else retR (lat, lon)) f).
Proof.
  intros F. eapply fwd_bind with (k1 := 0); [lia| |intros a; rewrite Z.sub_0_r; apply F]. apply fwd_if; [repeat step0|apply fwd_ret].
Qed.
Lemma fwd_lines h : fwd 0 (dec_lines h).
Proof.
  unfold dec_lines. cbv zeta. step0. step0. destruct c; [|repeat step0|]; apply fwd_close; intros [? ?]; repeat step0.
Qed.
Lemma fwd_special_lines h : fwd 0 (dec_special_lines h).
Proof.
  unfold dec_special_lines. cbv zeta. step0. step0. destruct c; [|repeat step0|]; apply fwd_close; intros [? ?]; apply fwd_flip; intros [? ?]; repeat step0.
Qed.
Lemma fwd_dtext h : fwd 0 (dec_text h).
Proof. unfold dec_text. repeat step0. Qed.
Lemma fwd_special_text h : fwd 0 (dec_special_text h).
Proof. unfold dec_special_text. repeat step0. Qed.
Lemma fwd_sigmet h : fwd 0 (dec_sigmet h).
Proof.
  unfold dec_sigmet. eapply fwd_bind with (k1 := 0); [lia| |intros e; repeat step0].
  repeat (apply fwd_if; [apply fwd_named|]). apply fwd_err.
Qed.
Ltac step1 := first
  [ step0
  | eapply fwd_bind; [|apply fwd_uint|]; [lia|intros ?]
  | eapply fwd_weaken; [|apply fwd_skip]; lia ].
(** [m] moves by [k1] and then the skip by [n]: together by at least [k]. *)
Lemma fwd_then_skip {A B} k k1 n (m : rd A) (f : A -> unit -> rd B) : 0 <= k1 + n -> fwd k1 m -> (forall a u, fwd (k - (k1 + n)) (f a u)) ->
  fwd k (bindR m (fun a => bindR (r_skip n) (f a))).
Proof.
  intros N F G b x b' O H. unfold bindR, r_skip in H. destruct (m b) as [[a b1]|] eqn:E; [|discriminate].
  destruct (F _ _ _ O E) as (D1 & P1 & l1 & M1).
  destruct (G a tt (io_skip (Some n) b1) x b' ltac:(cbn [io_skip io_offset]; lia) H) as (D2 & P2 & l2 & M2).
  cbn [io_skip io_data io_offset io_marks] in *. repeat split; [congruence|lia|]. exists (l1 ++ l2). rewrite M2, M1, app_assoc. reflexivity.
Qed.
Lemma fwd_lift_skip {A B} k n (r : res A) k0 (m : rd (coords * coords)) (g : coords -> coords -> A -> unit -> rd B) :
  0 <= k0 -> 0 <= k0 + n -> fwd k0 m -> (forall p q a u, fwd (k - (k0 + n)) (g p q a u)) ->
  fwd k (bindR m (fun '(p, q) => bindR (liftR r) (fun a => bindR (r_skip n) (g p q a)))).
Proof.
  intros N0 N F G b x b' O H. unfold bindR, r_skip, liftR in H. destruct (m b) as [[[p q] b1]|] eqn:E; [|discriminate].
  destruct r as [a|]; [|discriminate]. destruct (F _ _ _ O E) as (D1 & P1 & l1 & M1).
  destruct (G p q a tt (io_skip (Some n) b1) x b' ltac:(cbn [io_skip io_offset]; lia) H) as (D2 & P2 & l2 & M2).
  cbn [io_skip io_data io_offset io_marks] in *. repeat split; [congruence|lia|]. exists (l1 ++ l2). rewrite M2, M1, app_assoc. reflexivity.
Qed.

Lemma fwd_pair_skip {B} k k1 n m (f : coords -> coords -> unit -> rd B) : 0 <= k1 + n -> fwd k1 m -> (forall a c u, fwd (k - (k1 + n)) (f a c u)) ->
  fwd k (bindR m (fun '(a, c) => bindR (r_skip n) (f a c))).
Proof.
  intros N F G b x b' O H. unfold bindR, r_skip in H. destruct (m b) as [[[a c] b1]|] eqn:E; [|discriminate].
  destruct (F _ _ _ O E) as (D1 & P1 & l1 & M1).
  destruct (G a c tt (io_skip (Some n) b1) x b' ltac:(cbn [io_skip io_offset]; lia) H) as (D2 & P2 & l2 & M2).
  cbn [io_skip io_data io_offset io_marks] in *. repeat split; [congruence|lia|]. exists (l1 ++ l2). rewrite M2, M1, app_assoc. reflexivity.
Qed.

Lemma fwd_winds h : fwd 0 (dec_winds h).
Proof. unfold dec_winds. repeat step0. Qed.
Lemma fwd_volcanoes h : fwd 0 (dec_volcanoes h).
Proof. unfold dec_volcanoes. repeat step0. Qed.
Lemma fwd_gfa h : fwd 0 (dec_gfa h).
Proof.
  unfold dec_gfa. step0. eapply fwd_bind with (k1 := 0 * Z.of_nat (Z.to_nat (geti a "gfa.number_blocks"))); [lia|apply fwd_repeat; [lia|apply fwd_named]|].
  intros ?. repeat step0.
Qed.
Lemma fwd_tc_error h : fwd 0 (dec_tc_error h).
Proof. unfold dec_tc_error. step0. step0. eapply fwd_bind; [|apply fwd_latlon|]; [lia|intros ?]. apply fwd_err. Qed.
Lemma err_fwd {A} k (m : rd A) : (forall b, exists x, m b = Err x) -> fwd k m.
Proof. intros H b a b' O E. destruct (H b) as [x X]. congruence. Qed.
Lemma bind_err {A B} (m : rd A) (f : A -> rd B) : (forall a b, exists x, f a b = Err x) -> forall b, exists x, bindR m f b = Err x.
Proof. intros H b. unfold bindR. destruct (m b) as [[a b']|x]; [apply H|eauto]. Qed.
Lemma tc_error_err h b : exists x, dec_tc_error h b = Err x.
Proof. unfold dec_tc_error. revert b. repeat (apply bind_err; intros ? b; revert b). intros b. eexists. reflexivity. Qed.
Lemma tc_track_err h b : exists x, dec_tc_track h b = Err x.
Proof. unfold dec_tc_track. revert b. repeat (apply bind_err; intros ? b; revert b). intros b. eexists. reflexivity. Qed.
Lemma tc_break_point_err h b : exists x, dec_tc_break_point h b = Err x.
Proof. unfold dec_tc_break_point. revert b. repeat (apply bind_err; intros ? b; revert b). intros b. eexists. reflexivity. Qed.

Lemma create_keys var fs : forall vals e k, create var fs vals = Ok e -> ~ In k (map (fun f => (var ++ "." ++ fst (fst f))%string) fs) -> lookup k e = None.
Proof.
  induction fs as [|[[n f] c] fs IH]; intros vals e k H N; cbn [create] in H.
  - injection H as <-. reflexivity.
  - destruct vals as [|v vals]; [injection H as <-; reflexivity|]. apply bind_ok in H as (x & X & H). apply bind_ok in H as (e' & E' & H).
    assert (EE : e = ((var ++ "." ++ n)%string, x) :: e') by congruence. subst e. cbn [lookup]. cbn [map fst In] in N. destruct (String.eqb_spec (var ++ "." ++ n) k) as [<-|_].
    + exfalso. apply N. left. reflexivity.
    + eapply IH; [exact E'|]. intros I. apply N. right. exact I.
Qed.
Lemma lookup_app k a : forall b, lookup k a = None -> lookup k (a ++ b) = lookup k b.
Proof. induction a as [|[n v] a IH]; intros b H; [reflexivity|]. cbn [app lookup] in *. destruct (String.eqb n k); [discriminate|]. apply IH, H. Qed.
Lemma named_keys e var t b x b' k : r_named e var t b = Ok (x, b') ->
  existsb (String.eqb k) (map (fun f => (var ++ "." ++ fst (fst f))%string) (named t)) = false -> lookup k x = None.
Proof.
  unfold r_named, bindR. destruct (r_struct _ _ _) as [[vals b1]|]; [|discriminate]. unfold liftR. destruct (create _ _ _) as [en|] eqn:C; [|discriminate].
  intros [= <- <-] N. eapply create_keys; [exact C|]. intros I. enough (existsb (String.eqb k) (map (fun f => (var ++ "." ++ fst (fst f))%string) (named t)) = true) by congruence.
  apply existsb_exists. exists k. split; [exact I|apply String.eqb_refl].
Qed.
Lemma select_missing s : forall e k n, In (n, Key k) s -> lookup k e = None -> exists x, select s e = Err x.
Proof.
  induction s as [|[m src] s IH]; intros e k n I L; [destruct I|]. cbn [select]. destruct I as [E|I].
  - injection E as -> ->. rewrite L. eexists. reflexivity.
  - destruct (IH e k n I L) as [x X]. rewrite X. destruct (match src with Key k0 => _ | KeyOr k0 d => _ end); eexists; reflexivity.
Qed.
Lemma sgwx_err h b : exists x, dec_sgwx h b = Err x.
Proof.
  unfold dec_sgwx, bindR at 1. destruct (r_named BE "sgwx" sgwx_info b) as [[e1 b1]|] eqn:E1; [|eauto].
  unfold bindR at 1. destruct (r_named BE "text" special_text_info b1) as [[e2 b2]|] eqn:E2; [|eauto].
  cbv zeta. unfold bindR at 1. destruct (get_latlon _ b2) as [[[lat lon] b3]|]; [|eauto].
  unfold bindR at 1, liftR.
  destruct (select_missing SignificantWeatherElement_sel (e1 ++ e2) "text.text_width" "text_width") as [x X].
  - unfold SignificantWeatherElement_sel. cbn. tauto.
  - rewrite lookup_app.
    + eapply named_keys; [exact E2|reflexivity].
    + eapply named_keys; [exact E1|reflexivity].
  - rewrite X. eauto.
Qed.

Lemma fwd_ccf h : fwd 0 (dec_ccf h).
Proof.
  unfold dec_ccf, MAX_SIGMET. cbv zeta. do 4 step0.
  eapply fwd_lift_skip; [| |apply fwd_latlon|]; [lia|lia|]. intros. repeat step0.
Qed.
Lemma fwd_ash_clouds h : fwd 0 (dec_ash_clouds h).
Proof.
  unfold dec_ash_clouds, MAX_ASH. cbv zeta. do 3 step0. eapply fwd_bind; [|apply fwd_skip|]; [lia|intros ?].
  eapply fwd_pair_skip; [|apply fwd_latlon|]; [lia|]. intros. repeat step0.
Qed.
Lemma fwd_jet h : fwd 0 (dec_jet h).
Proof.
  unfold dec_jet, MAX_POINTS, MAX_JET_POINTS. cbv zeta. step0.
  eapply fwd_lift_skip; [| |apply fwd_latlon|]; [lia|lia|]. intros. step1.
  set (zb := Z.of_nat (calcsize (formats jet_barb_info))). assert (0 <= zb) by lia.
  eapply fwd_then_skip with (k1 := zb * Z.of_nat (Z.to_nat a1)); [nia| |].
  { apply fwd_repeat; [lia|]. eapply fwd_bind; [|apply fwd_named_size|]; [lia|]. intros ?. rewrite Z.sub_diag. apply fwd_lift. }
  intros ? ?. step1. clearbody zb.
  set (zh := Z.of_nat (calcsize (formats jet_hash_info))). assert (0 <= zh) by lia.
  eapply fwd_then_skip with (k1 := zh * Z.of_nat (Z.to_nat a3)); [nia| |].
  { apply fwd_repeat; [lia|]. eapply fwd_bind; [|apply fwd_named_size|]; [lia|]. intros ?. rewrite Z.sub_diag. apply fwd_lift. }
  intros ? ?. clearbody zh. eapply fwd_weaken with (k := 0); [nia|]. repeat step0.
Qed.
Lemma fwd_counties v n : fwd 0 (watch_counties v n).
Proof.
  unfold watch_counties, int_array. cbv zeta. apply fwd_if; [apply fwd_ret|].
  set (most := if v <=? 4 then MAX_COUNTIES_LEGACY else MAX_COUNTIES).
  assert (M : 200 <= most) by (subst most; unfold MAX_COUNTIES, MAX_COUNTIES_LEGACY; destruct (v <=? 4); lia). clearbody most.
  eapply fwd_bind with (k1 := 0); [lia|apply fwd_if; [|apply fwd_ret]|].
  { eapply fwd_then_skip; [|apply fwd_array|]; [lia|]. intros ? ?. repeat step0. }
  intros ?. eapply fwd_bind with (k1 := 0); [lia|apply fwd_if; [|apply fwd_ret]|].
  { eapply fwd_then_skip; [|apply fwd_array|]; [lia|]. intros ? ?. repeat step0. }
  intros ?. unfold raw_array at 1 2.
  assert (R : fwd (8 * Z.max n 0) (bindR (raw_array n) (fun la => bindR (raw_array n) (fun lo => retR (la, lo))))).
  { eapply fwd_bind; [|apply fwd_raw|]; [lia|]. intros ?. eapply fwd_bind; [|apply fwd_raw|]; [lia|]. intros ?. step0. }
  intros b x b' O H. fold (raw_array n) in H. unfold bindR at 1 in H. destruct (raw_array n b) as [[la b1]|] eqn:E1; [|discriminate].
  unfold bindR at 1 in H. destruct (raw_array n b1) as [[lo b2]|] eqn:E2; [|discriminate].
  unfold bindR, r_skip, retR in H. assert (E : b' = io_skip (Some (8 * (most - n))) b2) by congruence. subst b'. destruct (R b (la, lo) b2 O) as (D & P & l & L).
  { unfold bindR. rewrite E1, E2. reflexivity. }
  repeat split; [exact D| |exists l; exact L]. cbn [io_skip io_offset]. lia.
Qed.
Lemma fwd_watches h : fwd 0 (dec_watches h).
Proof.
  unfold dec_watches. destruct (watch_info _); [|apply fwd_err]. step0.
  eapply fwd_bind with (k1 := 0); [lia|apply fwd_counties|]. intros ?. cbv zeta. step0. step0.
  apply fwd_close. intros [? ?]. repeat step0.
Qed.

(** ** Counts read from the file *)
Lemma named_from e var t b x b' : r_named e var t b = Ok (x, b') -> 0 <= io_offset b ->
  Z.of_nat (calcsize (formats t)) <= Zlen (io_data b) - io_offset b /\
  create var (named t) (unpack_vals e (formats t) (skipn (Z.to_nat (io_offset b)) (io_data b))) = Ok x /\
  b' = io_skip (Some (Z.of_nat (calcsize (formats t)))) b.
Proof.
  intros H O. unfold r_named, bindR, r_struct, io_read_struct, struct_unpack_from in H.
  destruct (Z.ltb_spec (io_offset b) 0); [lia|]. destruct (Z.ltb_spec (Zlen (io_data b) - io_offset b) (Z.of_nat (calcsize (formats t)))); [discriminate|].
  unfold liftR in H. destruct (create _ _ _) eqn:C; [|discriminate]. split; [lia|]. split; congruence.
Qed.
Lemma int_field l i : (i + 4 <= length l)%nat -> unpack_i32 BE (firstn 4 (skipn i l)) = i32_at l i.
Proof.
  intros H. assert (L : (4 <= length (skipn i l))%nat) by (rewrite skipn_length; lia).
  assert (E : forall k, nth (i + k) l 0 = nth k (skipn i l) 0).
  { intros k. rewrite <- (firstn_skipn i l) at 1. rewrite app_nth2; rewrite firstn_length_le by lia; [|lia]. f_equal. lia. }
  unfold i32_at, u32_at. pose proof (E 0%nat) as E0. rewrite Nat.add_0_r in E0. rewrite E0, !E.
  destruct (skipn i l) as [|a [|b [|c [|d r]]]]; cbn in L; try lia.
  cbn [firstn nth]. unfold unpack_i32.
  assert (dec_uint BE [a; b; c; d] = ((a * 256 + b) * 256 + c) * 256 + d) as -> by (cbn [dec_uint rev app le_dec]; lia). reflexivity.
Qed.

(** [fwd] from one buffer *)
Definition fwd_at {A} (k : Z) (m : rd A) (b : iobuf) : Prop :=
  forall a b', m b = Ok (a, b') ->
    io_data b' = io_data b /\ io_offset b + k <= io_offset b' /\ exists l, io_marks b' = io_marks b ++ l.
Lemma fwd_at_bind {A B} k k1 (m : rd A) (f : A -> rd B) b : 0 <= io_offset b -> 0 <= k1 -> fwd k1 m ->
  (forall a b1, m b = Ok (a, b1) -> 0 <= io_offset b1 -> fwd_at (k - k1) (f a) b1) -> fwd_at k (bindR m f) b.
Proof.
  intros O N F G x b' H. unfold bindR in H. destruct (m b) as [[a b1]|] eqn:E; [|discriminate].
  destruct (F _ _ _ O E) as (D1 & P1 & l1 & M1). destruct (G a b1 eq_refl ltac:(lia) x b' H) as (D2 & P2 & l2 & M2).
  repeat split; [congruence|lia|]. exists (l1 ++ l2). rewrite M2, M1, app_assoc. reflexivity.
Qed.
Lemma at_fwd {A} k (m : rd A) b : 0 <= io_offset b -> fwd k m -> fwd_at k m b.
Proof. intros O F a b' H. exact (F b a b' O H). Qed.

Lemma skipn_plus {A} n : forall m (l : list A), skipn n (skipn m l) = skipn (m + n) l.
Proof. intros m. induction m as [|m IH]; intros l; [reflexivity|]. destruct l; [rewrite !skipn_nil; reflexivity|]. cbn. apply IH. Qed.
Lemma geti_ok k (r : res env) x : r = Ok x -> geti x k = match r with Ok e => geti e k | Err _ => 0 end.
Proof. intros ->. reflexivity. Qed.
Lemma list_count b x b' : r_named BE "list_meta" list_info b = Ok (x, b') -> 0 <= io_offset b ->
  geti x "list_meta.number_items" = i32_at (io_data b) (Z.to_nat (io_offset b) + 16).
Proof.
  intros H O. apply named_from in H as (L & C & _); [|exact O]. change (Z.of_nat (calcsize (formats list_info))) with 20 in L.
  rewrite <- int_field by (unfold Zlen in L; lia). rewrite <- skipn_plus.
  apply (geti_ok "list_meta.number_items") in C. rewrite C. generalize (skipn (Z.to_nat (io_offset b)) (io_data b)). intros l. 
  change (named list_info) with list_info. change (formats list_info) with [FInt; FInt; FFloat; FInt; FInt].
  cbn [unpack_vals list_info create unpack_item convert bind geti lookup append String.eqb Ascii.eqb Bool.eqb fmtc_size].
  rewrite !skipn_plus. reflexivity.
Qed.
Lemma fwd_lists h b : 0 <= io_offset b -> i32_at (io_data b) (Z.to_nat (io_offset b) + 16) <= 500 -> fwd_at 0 (dec_lists h) b.
Proof.
  intros O N. unfold dec_lists. eapply fwd_at_bind; [exact O| |apply fwd_named|]; [lia|]. intros x b1 E O1.
  rewrite (list_count _ _ _ E O). cbv zeta. set (n := i32_at _ _) in *. clearbody n. apply at_fwd; [exact O1|].
  unfold MAX_POINTS, LIST_MEMBER_SIZE.
  eapply fwd_bind with (k1 := 0 * Z.of_nat (Z.to_nat n)); [lia|apply fwd_repeat; [lia|apply fwd_text]|]. intros ?.
  eapply fwd_bind; [|apply fwd_skip|]; [lia|]. intros ?.
  eapply fwd_then_skip; [|apply fwd_raw|]; [lia|]. intros ? ?.
  eapply fwd_then_skip; [|apply fwd_raw|]; [lia|]. intros ? ?. repeat step0.
Qed.

Lemma track_count t b x b' : In t [track_info_full; track_info_old; track_info_skip] ->
  r_named BE "track" t b = Ok (x, b') -> 0 <= io_offset b ->
  geti x "track.total_points" = i32_at (io_data b) (Z.to_nat (io_offset b) + 4).
Proof.
  intros I H O. apply named_from in H as (L & C & _); [|exact O].
  assert (T : exists r r', formats t = FInt :: FInt :: r /\ named t = ("track_type", FInt, CNone) :: ("total_points", FInt, CNone) :: r').
  { cbn in I. destruct I as [<-|[<-|[<-|[]]]]; eexists; eexists; split; reflexivity. }
  destruct T as (r & r' & F & N). rewrite F in *. rewrite N in C. cbn [calcsize fmtc_size fold_right map Nat.add] in L.
  rewrite <- int_field. 2: { unfold Zlen in L. cbn in L. lia. }
  rewrite <- skipn_plus. generalize dependent (skipn (Z.to_nat (io_offset b)) (io_data b)). intros l C.
  cbn [unpack_vals create unpack_item convert bind fmtc_size] in C.
  destruct (create "track" r' _) as [e|]; [|discriminate]. apply (geti_ok "track.total_points") in C. rewrite C. reflexivity.
Qed.
Lemma named_inv e v t b x b' : r_named e v t b = Ok (x, b') ->
  io_data b' = io_data b /\ io_marks b' = io_marks b /\ io_offset b' = io_offset b + Z.of_nat (calcsize (formats t)).
Proof.
  unfold r_named, bindR, r_struct, io_read_struct. destruct (struct_unpack_from _ _ _ _); [|discriminate].
  unfold liftR. destruct (create _ _ _); [|discriminate]. intros H.
  assert (E : b' = io_skip (Some (Z.of_nat (calcsize (formats t)))) b) by congruence. subst b'. auto.
Qed.
Lemma jump_back b b' : io_marks b' = io_marks b ++ [io_offset b] ->
  r_jump (Zlen (io_marks b)) b' = Ok (tt, mk_iobuf (io_data b') (io_offset b) (io_marks b')).
Proof.
  intros M. unfold r_jump, io_jump_to, py_index. rewrite M. pose proof (Zlen_nonneg (io_marks b)).
  cbv zeta. destruct (Z.ltb_spec (Zlen (io_marks b)) 0); [lia|]. destruct (Z.ltb_spec (Zlen (io_marks b)) 0); [lia|].
  rewrite nth_error_app2 by (unfold Zlen; lia). replace (Z.to_nat (Zlen (io_marks b)) - length (io_marks b))%nat with 0%nat by (unfold Zlen; lia).
  cbn [nth_error bind]. rewrite Z.add_0_r. reflexivity.
Qed.
Lemma fwd_tracks h b : 0 <= io_offset b -> i32_at (io_data b) (Z.to_nat (io_offset b) + 4) <= 50 -> fwd_at 0 (dec_tracks h) b.
Proof.
  intros O N a b' H. unfold dec_tracks in H. unfold bindR at 1 in H. unfold r_mark, io_set_mark in H.
  set (bm := mk_iobuf (io_data b) (io_offset b) (io_marks b ++ [io_offset b])) in H.
  unfold bindR at 1 in H. destruct (r_named BE "track" track_info_full bm) as [[e0 b1]|] eqn:E0; [|discriminate].
  unfold bindR at 1 in H. destruct (r_named LE _ _ b1) as [[sz b2]|] eqn:E1; [|discriminate].
  cbv zeta in H. 
  pose proof (named_inv _ _ _ _ _ _ E0) as (D1 & M1 & P1). pose proof (named_inv _ _ _ _ _ _ E1) as (D2 & M2 & P2).
  change (io_data bm) with (io_data b) in *. change (io_offset bm) with (io_offset b) in *. change (io_marks bm) with (io_marks b ++ [io_offset b]) in *.
  pose proof (track_count _ _ _ _ (or_introl eq_refl) E0 O) as C0. change (io_data bm) with (io_data b) in C0. change (io_offset bm) with (io_offset b) in C0.
  unfold bindR at 1 in H.
  match type of H with match ?m b2 with _ => _ end = _ => destruct (m b2) as [[[e size] b4]|] eqn:E4; [|discriminate] end.
  assert (R : geti e "track.total_points" <= 50 /\ io_data b4 = io_data b /\ io_offset b <= io_offset b4 /\ exists l, io_marks b4 = io_marks b ++ l).
  { assert (J : r_jump (Zlen (io_marks b)) b2 = Ok (tt, mk_iobuf (io_data b2) (io_offset b) (io_marks b2))) by (apply jump_back; congruence).
    destruct ((_ <? -3) || _) in E4; [|destruct ((_ <? 0) || _) in E4].
    - unfold bindR in E4. rewrite J in E4. destruct (r_named BE "track" track_info_old _) as [[x b5]|] eqn:E5; [|discriminate].
      pose proof (named_inv _ _ _ _ _ _ E5) as (D5 & M5 & P5). apply track_count in E5; [|cbn; tauto|exact O]. cbn [io_data io_offset io_marks] in *.
      assert (b4 = b5 /\ e = x) as [-> ->] by (unfold retR in E4; split; congruence).
      rewrite E5, D2, D1. repeat split; [exact N|congruence|lia|]. eexists. rewrite M5, M2, M1. reflexivity.
    - unfold bindR in E4. rewrite J in E4. destruct (r_named BE "track" track_info_skip _) as [[x b5]|] eqn:E5; [|discriminate].
      pose proof (named_inv _ _ _ _ _ _ E5) as (D5 & M5 & P5). apply track_count in E5; [|cbn; tauto|exact O]. cbn [io_data io_offset io_marks] in *.
      assert (b4 = b5 /\ e = x) as [-> ->] by (unfold retR in E4; split; congruence).
      rewrite E5, D2, D1. repeat split; [exact N|congruence|lia|]. eexists. rewrite M5, M2, M1. reflexivity.
    - assert (b4 = b2 /\ e = e0) as [-> ->] by (unfold retR in E4; split; congruence).
      rewrite C0. repeat split; [exact N|congruence|lia|]. eexists. rewrite M2, M1. reflexivity. }
  destruct R as (C4 & D4 & P4 & l4 & M4). set (n := geti e "track.total_points") in *. clearbody n.
  match type of H with ?m b4 = _ => assert (F : fwd 0 m) end.
  { unfold MAX_TRACKS, TRACK_DT_SIZE.
    eapply fwd_bind with (k1 := 0 * Z.of_nat (Z.to_nat n)); [lia|apply fwd_repeat; [lia|apply fwd_text]|]. intros ?.
    eapply fwd_bind; [|apply fwd_skip|]; [lia|]. intros ?.
    eapply fwd_pair_skip; [|apply fwd_latlon|]; [lia|]. intros ? ? ?. repeat step0. }
  destruct (F b4 a b' ltac:(lia) H) as (D & P & l & M). repeat split; [congruence|lia|]. exists (l4 ++ l). rewrite M, M4, app_assoc. reflexivity.
Qed.

(** ** One round *)
Lemma header_at b h b1 : read_header b = Ok (h, b1) -> 0 <= io_offset b ->
  io_data b1 = io_data b /\ io_offset b1 = io_offset b + 40 /\ io_offset b + 40 <= Zlen (io_data b) /\
  vh_class h = class_at (io_data b) (Z.to_nat (io_offset b)) /\ vh_record_size h = size_at (io_data b) (Z.to_nat (io_offset b)).
Proof.
  intros H O. unfold read_header, bindR in H. destruct (r_named BE "header" vgf_header_info b) as [[e b2]|] eqn:E; [|discriminate].
  assert (h = header_of e /\ b1 = b2) as [-> ->] by (unfold retR in H; split; congruence). clear H.
  pose proof (named_inv _ _ _ _ _ _ E) as (D & M & P). change (Z.of_nat (calcsize (formats vgf_header_info))) with 40 in P.
  apply named_from in E as (L & C & _); [|exact O]. change (Z.of_nat (calcsize (formats vgf_header_info))) with 40 in L.
  split; [exact D|]. split; [lia|]. split; [lia|]. unfold size_at, class_at.
  rewrite <- int_field by (unfold Zlen in L; lia). rewrite <- skipn_plus.
  assert (N : nth (Z.to_nat (io_offset b) + 2) (io_data b) 0 = nth 2 (skipn (Z.to_nat (io_offset b)) (io_data b)) 0).
  { rewrite <- (firstn_skipn (Z.to_nat (io_offset b)) (io_data b)) at 1.
    rewrite app_nth2; rewrite firstn_length_le by (unfold Zlen in L; lia); [|lia]. f_equal. lia. }
  rewrite N. assert (LL : (40 <= length (skipn (Z.to_nat (io_offset b)) (io_data b)))%nat) by (rewrite skipn_length; unfold Zlen in L; lia).
  cbn [header_of vh_class vh_record_size].
  rewrite (geti_ok "header.vg_class" _ _ C), (geti_ok "header.record_size" _ _ C). clear C N D L P M.
  generalize dependent (skipn (Z.to_nat (io_offset b)) (io_data b)). intros l LL.
  change (named vgf_header_info) with vgf_header_info.
  change (formats vgf_header_info) with [FUByte; FUByte; FUByte; FSByte; FUByte; FUByte; FUByte; FUByte; FInt; FInt; FInt; FInt; FFloat; FFloat; FFloat; FFloat].
  cbn [unpack_vals vgf_header_info create unpack_item convert bind geti lookup append String.eqb Ascii.eqb Bool.eqb fmtc_size].
  rewrite !skipn_plus. cbn [Nat.add]. split; [|reflexivity].
  destruct l as [|? [|? [|? ?]]]; cbn in LL; try lia. reflexivity.
Qed.

Lemma fwd_elems k m : fwd k m -> fwd k (elems m).
Proof. intros F. unfold elems. intros b a b' O H. unfold bindR in H. destruct (m b) as [[x b1]|] eqn:E; [|discriminate].
  unfold retR in H. assert (b' = b1) as -> by congruence. exact (F _ _ _ O E). Qed.
Lemma elems_at k m b : fwd_at k m b -> fwd_at k (elems m) b.
Proof. intros F. unfold elems. intros a b' H. unfold bindR in H. destruct (m b) as [[x b1]|] eqn:E; [|discriminate].
  unfold retR in H. assert (b' = b1) as -> by congruence. exact (F _ _ E). Qed.

Lemma dispatch_fwd tca h b : 0 <= io_offset b -> 1 <= vh_record_size h ->
  (vh_class h = 14 -> i32_at (io_data b) (Z.to_nat (io_offset b) + 16) <= 500) ->
  (vh_class h = 10 -> i32_at (io_data b) (Z.to_nat (io_offset b) + 4) <= 50) ->
  fwd_at (-39) (dispatch tca h) b.
Proof.
  intros O S L T. unfold dispatch. cbv zeta.
  assert (SK : fwd_at (-39) (bindR (r_skip (vh_record_size h - VGF_HEADER_SIZE)) (fun _ => retR (DElems []))) b).
  { intros a b' H. unfold bindR, r_skip, retR in H. assert (b' = io_skip (Some (vh_record_size h - VGF_HEADER_SIZE)) b) as -> by congruence.
    unfold VGF_HEADER_SIZE. cbn [io_skip io_data io_offset io_marks]. repeat split; [lia|]. exists []. rewrite app_nil_r. reflexivity. }
  assert (Z0 : forall m, fwd 0 m -> fwd_at (-39) (elems m) b).
  { intros m F. apply at_fwd; [exact O|]. eapply fwd_weaken; [|apply fwd_elems, F]. lia. }
  assert (ZE : forall m, (forall b, exists x, m b = Err x) -> fwd_at (-39) (elems m) b).
  { intros m F. apply Z0. apply err_fwd. exact F. }
  assert (ZA : forall m, fwd_at 0 m b -> fwd_at (-39) (elems m) b).
  { intros m F a b' H. destruct (elems_at _ _ _ F a b' H) as (D & P & M). repeat split; auto; lia. }
  destruct ((vh_class h =? 0) && (vh_type h =? 22)).
  { apply at_fwd; [exact O|]. eapply fwd_bind with (k1 := 0); [lia|apply fwd_file_header|]. intros ?. step0. }
  destruct (Z.eqb_spec (vh_class h) 1); [apply Z0, fwd_fronts|].
  destruct (Z.eqb_spec (vh_class h) 4); [apply Z0, fwd_symbols|].
  destruct (Z.eqb_spec (vh_class h) 12); [destruct (_ =? 4); [apply Z0, fwd_circles|exact SK]|].
  destruct (Z.eqb_spec (vh_class h) 3).
  { destruct (_ =? 1); [apply Z0, fwd_lines|]. destruct (_ =? 20); [apply Z0, fwd_special_lines|exact SK]. }
  destruct (Z.eqb_spec (vh_class h) 14); [apply ZA, fwd_lists; auto|].
  destruct (Z.eqb_spec (vh_class h) 5).
  { destruct (_ || _); [apply Z0, fwd_dtext|]. destruct (_ =? 21); [apply Z0, fwd_special_text|exact SK]. }
  destruct (Z.eqb_spec (vh_class h) 10); [apply ZA, fwd_tracks; auto|].
  destruct (Z.eqb_spec (vh_class h) 11).
  { destruct (between _ _ _); [apply Z0, fwd_sigmet|]. destruct (_ =? 32); [apply Z0, fwd_ccf|].
    destruct (_ =? 35); [apply Z0, fwd_volcanoes|]. destruct (_ =? 36); [apply Z0, fwd_ash_clouds|exact SK]. }
  destruct (Z.eqb_spec (vh_class h) 15).
  { destruct (_ =? 38); [apply Z0, fwd_gfa|]. destruct (_ =? 37); [apply Z0, fwd_jet|].
    destruct (_ =? 39).
    { apply Z0. unfold dec_tca. repeat step0. }
    destruct (_ =? 40); [apply ZE; intros; apply tc_error_err|]. destruct (_ =? 41); [apply ZE; intros; apply tc_track_err|].
    destruct (_ =? 42); [apply ZE; intros; apply tc_break_point_err|]. destruct (_ =? 43); [apply ZE; intros; apply sgwx_err|exact SK]. }
  destruct (Z.eqb_spec (vh_class h) 2); [apply Z0, fwd_watches|].
  destruct (Z.eqb_spec (vh_class h) 6); [apply Z0, fwd_winds|exact SK].
Qed.

Lemma step_fwd tca s s' : 0 <= io_offset (vs_buf s) -> sane (io_data (vs_buf s)) (Z.to_nat (io_offset (vs_buf s))) ->
  vstep tca s = Ok (inl s') ->
  io_data (vs_buf s') = io_data (vs_buf s) /\ io_offset (vs_buf s) + 1 <= io_offset (vs_buf s') /\
  io_offset (vs_buf s) < Zlen (io_data (vs_buf s)).
Proof.
  intros O (S1 & S2 & S3) H. unfold vstep in H. destruct (io_at_end (vs_buf s)) eqn:AE; [discriminate|].
  destruct (read_header (vs_buf s)) as [[h b1]|] eqn:RH; [|discriminate].
  destruct (header_at _ _ _ RH O) as (D & P & L & C & R).
  destruct (invalid_header _ _); [discriminate|].
  unfold list_items_at, track_points_at in *.
  assert (F : fwd_at (-39) (dispatch tca h) b1).
  { apply dispatch_fwd; [lia|lia| |]; intros E; rewrite D, P.
    - replace (Z.to_nat (io_offset (vs_buf s) + 40) + 16)%nat with (Z.to_nat (io_offset (vs_buf s)) + 40 + 16)%nat by lia. apply S2. congruence.
    - replace (Z.to_nat (io_offset (vs_buf s) + 40) + 4)%nat with (Z.to_nat (io_offset (vs_buf s)) + 40 + 4)%nat by lia. apply S3. congruence. }
  destruct (dispatch tca h b1) as [[d b2]|] eqn:DI; [|discriminate]. destruct (F _ _ DI) as (D2 & P2 & _).
  assert (B : vs_buf s' = b2) by (destruct d; injection H as <-; reflexivity). rewrite B. split; [congruence|]. split; lia.
Qed.

(** ** Lines *)
Lemma header_at2 b h b1 : read_header b = Ok (h, b1) -> 0 <= io_offset b ->
  vh_type h = type_at (io_data b) (Z.to_nat (io_offset b)) /\ vh_closed h = closed_at (io_data b) (Z.to_nat (io_offset b)).
Proof.
  intros H O. unfold read_header, bindR in H. destruct (r_named BE "header" vgf_header_info b) as [[e b2]|] eqn:E; [|discriminate].
  assert (h = header_of e /\ b1 = b2) as [-> ->] by (unfold retR in H; split; congruence). clear H.
  apply named_from in E as (L & C & _); [|exact O]. change (Z.of_nat (calcsize (formats vgf_header_info))) with 40 in L.
  unfold type_at, closed_at.
  assert (N : forall k, nth (Z.to_nat (io_offset b) + k) (io_data b) 0 = nth k (skipn (Z.to_nat (io_offset b)) (io_data b)) 0).
  { intros k. rewrite <- (firstn_skipn (Z.to_nat (io_offset b)) (io_data b)) at 1.
    rewrite app_nth2; rewrite firstn_length_le by (unfold Zlen in L; lia); [|lia]. f_equal. lia. }
  rewrite !N. assert (LL : (40 <= length (skipn (Z.to_nat (io_offset b)) (io_data b)))%nat) by (rewrite skipn_length; unfold Zlen in L; lia).
  cbn [header_of vh_type vh_closed].
  rewrite (geti_ok "header.vg_type" _ _ C), (geti_ok "header.closed" _ _ C). clear C N L.
  generalize dependent (skipn (Z.to_nat (io_offset b)) (io_data b)). intros l LL.
  change (named vgf_header_info) with vgf_header_info.
  change (formats vgf_header_info) with [FUByte; FUByte; FUByte; FSByte; FUByte; FUByte; FUByte; FUByte; FInt; FInt; FInt; FInt; FFloat; FFloat; FFloat; FFloat].
  cbn [unpack_vals vgf_header_info create unpack_item convert bind geti lookup append String.eqb Ascii.eqb Bool.eqb fmtc_size].
  rewrite !skipn_plus. cbn [Nat.add].
  destruct l as [|? [|? [|? [|? [|? ?]]]]]; cbn in LL; try lia. split; reflexivity.
Qed.

Lemma array_from n b l b' : r_array (unpack_f32 BE) n b = Ok (l, b') -> 0 <= n -> 0 <= io_offset b ->
  l = floats_at (io_data b) (Z.to_nat (io_offset b)) (Z.to_nat n) /\ b' = io_skip (Some (4 * n)) b.
Proof.
  intros H N O. unfold r_array, io_read_array in H. destruct (Z.ltb_spec n 0); [lia|]. cbn [andb] in H.
  destruct (Z.ltb_spec (io_offset b) 0); [lia|]. cbn [orb] in H. destruct (Z.ltb_spec (Zlen (io_data b)) (io_offset b)); [discriminate|].
  destruct (Z.ltb_spec (Zlen (io_data b) - io_offset b) (4 * n)); [discriminate|]. split; [|congruence].
  match type of H with Ok (?m, _) = _ => assert (l = m) as -> by congruence end. clear H. unfold floats_at. apply map_ext_in.
  intros k K. apply in_seq in K. unfold f32_at. rewrite py_slice_in by lia.
  replace (Z.to_nat (io_offset b + 4 * Z.of_nat k + 4 - (io_offset b + 4 * Z.of_nat k))) with 4%nat by lia.
  replace (Z.to_nat (io_offset b + 4 * Z.of_nat k)) with (Z.to_nat (io_offset b) + 4 * k)%nat by lia. reflexivity.
Qed.
Lemma latlon_from n b lat lon b' : get_latlon n b = Ok ((lat, lon), b') -> 1 <= n -> 0 <= io_offset b ->
  n <= 500 /\ lat = CoArr (coords_at (io_data b) (Z.to_nat (io_offset b)) n) /\
  lon = CoArr (coords_at (io_data b) (Z.to_nat (io_offset b + 4 * n)) n) /\ b' = io_skip (Some (4 * n)) (io_skip (Some (4 * n)) b).
Proof.
  intros H N O. unfold get_latlon in H. unfold MAX_POINTS in H. destruct (Z.ltb_spec 500 n); [discriminate|]. destruct (Z.leb_spec 1 n); [|lia].
  unfold bindR in H. destruct (r_array _ n b) as [[x b1]|] eqn:A1; [|discriminate]. destruct (r_array _ n b1) as [[y b2]|] eqn:A2; [|discriminate].
  apply array_from in A1 as (X & B1); [|lia|lia]. 
  assert (D1 : io_data b1 = io_data b) by (rewrite B1; reflexivity). assert (O1 : io_offset b1 = io_offset b + 4 * n) by (rewrite B1; reflexivity).
  apply array_from in A2 as (Y & B2); [|lia|lia]. rewrite D1, O1 in Y. unfold retR in H. subst x y. unfold coords_at.
  split; [lia|]. split; [congruence|]. split; [congruence|]. congruence.
Qed.

Lemma line_count b x b' : r_named BE "line" line_info b = Ok (x, b') -> 0 <= io_offset b ->
  geti x "line.number_points" = i32_at (io_data b) (Z.to_nat (io_offset b)) /\ b' = io_skip (Some 20) b.
Proof.
  intros H O. apply named_from in H as (L & C & B); [|exact O]. change (Z.of_nat (calcsize (formats line_info))) with 20 in L, B.
  split; [|exact B].
  rewrite <- int_field by (unfold Zlen in L; lia).
  apply (geti_ok "line.number_points") in C. rewrite C. generalize (skipn (Z.to_nat (io_offset b)) (io_data b)). intros l. 
  change (named line_info) with line_info. change (formats line_info) with [FInt; FInt; FInt; FInt; FInt].
  cbn [unpack_vals line_info create unpack_item convert bind geti lookup append String.eqb Ascii.eqb Bool.eqb fmtc_size].
  reflexivity.
Qed.
Lemma special_count b x b' : r_named BE "special_line" special_line_info b = Ok (x, b') -> 0 <= io_offset b ->
  geti x "special_line.number_points" = i32_at (io_data b) (Z.to_nat (io_offset b)) /\
  geti x "special_line.direction" = i32_at (io_data b) (Z.to_nat (io_offset b) + 12) /\ b' = io_skip (Some 24) b.
Proof.
  intros H O. apply named_from in H as (L & C & B); [|exact O]. change (Z.of_nat (calcsize (formats special_line_info))) with 24 in L, B.
  rewrite <- !int_field by (unfold Zlen in L; lia). rewrite <- skipn_plus.
  rewrite (geti_ok "special_line.number_points" _ _ C), (geti_ok "special_line.direction" _ _ C). clear C.
  generalize (skipn (Z.to_nat (io_offset b)) (io_data b)). intros l. 
  change (named special_line_info) with special_line_info. change (formats special_line_info) with [FInt; FInt; FInt; FInt; FFloat; FInt].
  cbn [unpack_vals special_line_info create unpack_item convert bind geti lookup append String.eqb Ascii.eqb Bool.eqb fmtc_size].
  rewrite !skipn_plus. split; [reflexivity|]. split; [reflexivity|exact B].
Qed.

Lemma closing_from (c : bool) l l' b b' x y : l <> [] -> l' <> [] ->
  (if c then bindR (liftR (close_coords (CoArr l))) (fun x => bindR (liftR (close_coords (CoArr l'))) (fun y => retR (x, y)))
   else retR (CoArr l, CoArr l')) b = Ok ((x, y), b') ->
  x = CoArr (if c then and_first l else l) /\ y = CoArr (if c then and_first l' else l') /\ b' = b.
Proof.
  intros N N' H. destruct c; [|unfold retR in H; repeat split; congruence]. destruct l as [|u l]; [congruence|]. destruct l' as [|u' l']; [congruence|].
  unfold bindR, liftR, close_coords, close_list, bind, retR in H. unfold and_first. cbn [firstn]. repeat split; congruence.
Qed.
Lemma flipping_from (c : bool) l l' b b' x y :
  (if c then bindR (liftR (flip_coords (CoArr l))) (fun x => bindR (liftR (flip_coords (CoArr l'))) (fun y => retR (x, y)))
   else retR (CoArr l, CoArr l')) b = Ok ((x, y), b') ->
  x = CoArr (if c then rev l else l) /\ y = CoArr (if c then rev l' else l') /\ b' = b.
Proof. intros H. destruct c; unfold bindR, liftR, flip_coords, flip_list, retR in H; repeat split; congruence. Qed.
Lemma coords_at_some d i n : 1 <= n -> coords_at d i n <> [].
Proof. intros N H. apply (f_equal (@length flt)) in H. unfold coords_at, floats_at in H. rewrite !map_length, seq_length in H. cbn in H. lia. Qed.

Lemma lines_from h b l b' : dec_lines h b = Ok (l, b') -> 0 <= io_offset b ->
  let n := i32_at (io_data b) (Z.to_nat (io_offset b)) in 1 <= n ->
  let f x := if negb (vh_closed h =? 0) && (2 <? n) then and_first x else x in
  exists e, l = [e] /\ ve_kind e = "LineElement" /\
    ve_lat e = CoArr (f (coords_at (io_data b) (Z.to_nat (io_offset b + 20)) n)) /\
    ve_lon e = CoArr (f (coords_at (io_data b) (Z.to_nat (io_offset b + 20 + 4 * n)) n)).
Proof.
  intros H O n N f. unfold dec_lines in H. unfold bindR at 1 in H. destruct (r_named _ _ _ b) as [[x b1]|] eqn:E; [|discriminate].
  apply line_count in E as (CN & B1); [|exact O]. rewrite CN in H. fold n in H. clearbody n. cbv zeta in H.
  unfold bindR at 1 in H. destruct (get_latlon n b1) as [[[la lo] b2]|] eqn:G; [|discriminate].
  apply latlon_from in G as (_ & LA & LO & B2); [|exact N|rewrite B1; cbn; lia].
  assert (D1 : io_data b1 = io_data b) by (rewrite B1; reflexivity). assert (O1 : io_offset b1 = io_offset b + 20) by (rewrite B1; reflexivity).
  rewrite D1, O1 in LA, LO. clear B1. subst la lo. cbv iota beta in H.
  unfold bindR at 1 in H. match type of H with match ?m b2 with _ => _ end = _ => destruct (m b2) as [[[u v] b3]|] eqn:C; [|discriminate] end.
  apply closing_from in C as (U & V & _); [|apply coords_at_some, N|apply coords_at_some, N]. cbv iota beta in H.
  unfold bindR at 1 in H. unfold liftR at 1 in H. destruct (select _ x) as [a|] eqn:SE; [|discriminate].
  unfold bindR at 1 in H. unfold liftR at 1 in H. destruct (line_properties _) as [p|] eqn:LP; [|discriminate].
  unfold retR in H. match type of H with Ok (?m, _) = _ => assert (l = m) as -> by congruence end.
  eexists. split; [reflexivity|]. cbn [ve_kind ve_lat ve_lon]. split; [reflexivity|]. unfold f. split; [exact U|exact V].
Qed.
Lemma special_lines_from h b l b' : dec_special_lines h b = Ok (l, b') -> 0 <= io_offset b ->
  let n := i32_at (io_data b) (Z.to_nat (io_offset b)) in 1 <= n ->
  let f x := if negb (vh_closed h =? 0) && (2 <? n) then and_first x else x in
  let g x := if i32_at (io_data b) (Z.to_nat (io_offset b) + 12) =? -1 then rev x else x in
  exists e, l = [e] /\ ve_kind e = "SpecialLineElement" /\
    ve_lat e = CoArr (g (f (coords_at (io_data b) (Z.to_nat (io_offset b + 24)) n))) /\
    ve_lon e = CoArr (g (f (coords_at (io_data b) (Z.to_nat (io_offset b + 24 + 4 * n)) n))).
Proof.
  intros H O n N f g. unfold dec_special_lines in H. unfold bindR at 1 in H. destruct (r_named _ _ _ b) as [[x b1]|] eqn:E; [|discriminate].
  apply special_count in E as (CN & CD & B1); [|exact O]. rewrite CN, CD in H. fold n in H. clearbody n. cbv zeta in H.
  unfold bindR at 1 in H. destruct (get_latlon n b1) as [[[la lo] b2]|] eqn:G; [|discriminate].
  apply latlon_from in G as (_ & LA & LO & B2); [|exact N|rewrite B1; cbn; lia].
  assert (D1 : io_data b1 = io_data b) by (rewrite B1; reflexivity). assert (O1 : io_offset b1 = io_offset b + 24) by (rewrite B1; reflexivity).
  rewrite D1, O1 in LA, LO. clear B1. subst la lo. cbv iota beta in H.
  unfold bindR at 1 in H. match type of H with match ?m b2 with _ => _ end = _ => destruct (m b2) as [[[u v] b3]|] eqn:C; [|discriminate] end.
  apply closing_from in C as (U & V & _); [|apply coords_at_some, N|apply coords_at_some, N]. cbv iota beta in H. subst u v.
  unfold bindR at 1 in H. match type of H with match ?m b3 with _ => _ end = _ => destruct (m b3) as [[[u v] b4]|] eqn:C; [|discriminate] end.
  apply flipping_from in C as (U & V & _). cbv iota beta in H.
  unfold bindR at 1 in H. unfold liftR at 1 in H. destruct (select _ x) as [a|] eqn:SE; [|discriminate].
  unfold bindR at 1 in H. unfold liftR at 1 in H. destruct (special_line_properties _) as [p|] eqn:LP; [|discriminate].
  unfold retR in H. match type of H with Ok (?m, _) = _ => assert (l = m) as -> by congruence end.
  eexists. split; [reflexivity|]. cbn [ve_kind ve_lat ve_lon]. split; [reflexivity|]. unfold f, g. split; [exact U|exact V].
Qed.

(** A round that decodes elements *)
Lemma step_elems tca s s' h b1 m l b2 : vstep tca s = Ok (inl s') -> read_header (vs_buf s) = Ok (h, b1) ->
  dispatch tca h b1 = elems m b1 -> m b1 = Ok (l, b2) -> vs_elements s' = vs_elements s ++ l.
Proof.
  intros H R D M. unfold vstep in H. destruct (io_at_end _); [discriminate|]. rewrite R in H. destruct (invalid_header _ _); [discriminate|].
  rewrite D in H. unfold elems, bindR in H. rewrite M in H. unfold retR in H. assert (s' = mk_vstate (vs_elements s ++ l) (note_group h (vs_groups s)) (vs_header s) b2) as -> by congruence.
  reflexivity.
Qed.

Lemma header_at3 b : 0 <= io_offset b -> (Z.to_nat (io_offset b) + 40 <= length (io_data b))%nat ->
  exists h b1, read_header b = Ok (h, b1) /\
  vh_delete h = nth (Z.to_nat (io_offset b)) (io_data b) 0 /\
  vh_major_color h = i32_at (io_data b) (Z.to_nat (io_offset b) + 12) /\
  vh_minor_color h = i32_at (io_data b) (Z.to_nat (io_offset b) + 16).
Proof.
  intros O L. unfold read_header, r_named, r_struct, io_read_struct, struct_unpack_from, bindR, liftR.
  change (Z.of_nat (calcsize (formats vgf_header_info))) with 40. destruct (Z.ltb_spec (io_offset b) 0); [lia|].
  destruct (Z.ltb_spec (Zlen (io_data b) - io_offset b) 40); [unfold Zlen in *; lia|].
  rewrite <- !int_field by lia. rewrite <- !skipn_plus.
  assert (N : nth (Z.to_nat (io_offset b)) (io_data b) 0 = nth 0 (skipn (Z.to_nat (io_offset b)) (io_data b)) 0).
  { rewrite <- (firstn_skipn (Z.to_nat (io_offset b)) (io_data b)) at 1.
    rewrite app_nth2; rewrite firstn_length_le by lia; [|lia]. f_equal. lia. }
  rewrite N. assert (LL : (40 <= length (skipn (Z.to_nat (io_offset b)) (io_data b)))%nat) by (rewrite skipn_length; lia).
  generalize dependent (skipn (Z.to_nat (io_offset b)) (io_data b)). intros l _ LL.
  change (named vgf_header_info) with vgf_header_info.
  change (formats vgf_header_info) with [FUByte; FUByte; FUByte; FSByte; FUByte; FUByte; FUByte; FUByte; FInt; FInt; FInt; FInt; FFloat; FFloat; FFloat; FFloat].
  cbn [unpack_vals vgf_header_info create unpack_item convert bind fmtc_size]. unfold retR. eexists. eexists. split; [reflexivity|].
  cbn [header_of vh_delete vh_major_color vh_minor_color geti lookup append String.eqb Ascii.eqb Bool.eqb].
  rewrite !skipn_plus. cbn [Nat.add]. split; [|split; reflexivity].
  destruct l as [|? [|? [|? [|? [|? ?]]]]]; cbn in LL; try lia. reflexivity.
Qed.

Lemma not_at_end b : 0 <= io_offset b -> (Z.to_nat (io_offset b) + 1 <= length (io_data b))%nat -> io_at_end b = false.
Proof. intros O L. unfold io_at_end, Zlen. rewrite Z.geb_leb. destruct (Z.leb_spec (Z.of_nat (length (io_data b))) (io_offset b)); [lia|reflexivity]. Qed.

Lemma refused_err tca s : 0 <= io_offset (vs_buf s) ->
  let d := io_data (vs_buf s) in let p := Z.to_nat (io_offset (vs_buf s)) in
  accepted d p -> class_at d p = 15 -> 40 <= type_at d p <= 43 -> exists x, vstep tca s = Err x.
Proof.
  intros O d p (L & DE & MA & MI & SZ) C T. destruct (header_at3 _ O L) as (h & b1 & RH & HD & HA & HI).
  destruct (header_at _ _ _ RH O) as (D & P & _ & HC & HR). destruct (header_at2 _ _ _ RH O) as (HT & _).
  fold d p in HD, HA, HI, HC, HR, HT, D. unfold vstep. rewrite not_at_end by (fold d p; lia). rewrite RH.
  assert (V : invalid_header h (io_len b1) = false).
  { unfold invalid_header. rewrite HD, HT, HC, HA, HI, HR, C. unfold io_len. rewrite D.
    unfold known_type, known_class, between. rewrite !Bool.orb_false_iff. repeat split; try lia. }
  rewrite V. assert (E : exists x, dispatch tca h b1 = Err x).
  { unfold dispatch. cbv zeta. rewrite HC, HT, C. cbn [Z.eqb Pos.eqb andb].
    assert (ER : forall m, (forall b, exists x, m b = Err x) -> exists x, elems m b1 = Err x).
    { intros m M. unfold elems, bindR. destruct (M b1) as [x ->]. eauto. }
    destruct (Z.eqb_spec (type_at d p) 38); [lia|]. destruct (Z.eqb_spec (type_at d p) 37); [lia|]. destruct (Z.eqb_spec (type_at d p) 39); [lia|].
    destruct (Z.eqb_spec (type_at d p) 40); [apply ER; intros; apply tc_error_err|].
    destruct (Z.eqb_spec (type_at d p) 41); [apply ER; intros; apply tc_track_err|].
    destruct (Z.eqb_spec (type_at d p) 42); [apply ER; intros; apply tc_break_point_err|].
    destruct (Z.eqb_spec (type_at d p) 43); [apply ER; intros; apply sgwx_err|lia]. }
  destruct E as [x ->]. eauto.
Qed.
