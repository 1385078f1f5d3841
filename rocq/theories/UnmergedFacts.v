(** Facts about reading unmerged soundings. *)
From Coq Require Import Lia ZifyBool ZifyNat QArith Ascii String Permutation Sorted.
From Verif Require Import Base BaseFacts Floats Structs Strings StringsFacts Dates Headers HeadersFacts Order OrderFacts DmFile DmHookFacts
  Station Text StationRead StationFacts HistoryFacts Query SpecQuery QueryFacts SnOut SpecSnOut SnOutFacts Unmerged SpecUnmerged.
From Verif Require Calc Merge CalcFacts MergeFacts SpecMerge SpecCalc.
From Coq Require Import List.
Open Scope Z_scope.

(** ** Names are ASCII *)
Lemma strip_ascii s : is_ascii s = true -> is_ascii (strip s) = true.
Proof.
  assert (L : forall s, is_ascii s = true -> is_ascii (lstrip s) = true).
  { induction s0 as [|c t IH]; [reflexivity|]. cbn [lstrip]. intros H. destruct (is_space c); [|exact H]. apply IH. unfold is_ascii in *. cbn [forallb] in H.
    apply andb_true_iff in H. apply H. }
  assert (R : forall s, is_ascii s = true -> is_ascii (rev s) = true).
  { intros t H. unfold is_ascii in *. rewrite forallb_forall in *. intros x Hx. apply H, in_rev, Hx. }
  intros H. unfold strip, rstrip. auto.
Qed.
Lemma decode_strip_ascii b s : decode_strip b = Ok s -> is_ascii s = true.
Proof.
  unfold decode_strip, bytes_str. destruct (is_ascii b) eqn:E; cbn [bind]; [|discriminate]. intros H. apply ok_inj in H. subst s. apply strip_ascii, E.
Qed.
Definition ascii_names (g : gfile) : Prop :=
  Forall (fun p => is_ascii (rp_name p) = true) (gf_parts g) /\ Forall (fun q => Forall (fun n => is_ascii n = true) (rq_name q)) (gf_parameters g).
Lemma mapM_forall {A B} (P : B -> Prop) (f : A -> res B) l l' : (forall x y, f x = Ok y -> P y) -> mapM f l = Ok l' -> Forall P l'.
Proof. intros H E. apply mapM_ok_Forall2 in E. induction E; constructor; eauto. Qed.
Lemma read_attr_forall {A} (P : A -> Prop) e c conv d : (forall v x, conv v = Ok x -> P x) -> forall counts pos l p,
  read_attr e c conv d pos counts = Ok (l, p) -> Forall (Forall P) l.
Proof.
  intros HP. induction counts as [|n counts IH]; intros pos l p H; cbn [read_attr] in H.
  - apply ok_inj in H. injection H as <- <-. constructor.
  - destruct (read_items e c d pos n) as [vs|]; cbn [bind] in H; [|discriminate H].
    destruct (mapM conv vs) as [xs|] eqn:E; cbn [bind] in H; [|discriminate H].
    destruct (read_attr e c conv d (pos + 4 * Z.max 0 n) counts) as [[rest p']|] eqn:E2; cbn [bind] in H; [|discriminate H].
    apply ok_inj in H. injection H as <- <-. constructor; [exact (mapM_forall _ _ _ _ HP E)|exact (IH _ _ _ E2)].
Qed.
Lemma open_ascii d g : open_gempak d = Ok g -> ascii_names g.
Proof.
  unfold open_gempak. intros H. repeat match type of H with
    | (_ <- ?m ;; _) = Ok _ => let x := fresh "x" in let E := fresh "E" in destruct m as [x|] eqn:E; cbn [bind] in H; [|discriminate H]
    | (let _ := _ in _) = Ok _ => cbv zeta in H
    | (if ?b then _ else _) = Ok _ => destruct b; try discriminate H
    end; apply ok_inj in H; subst g; split; cbn [gf_parts gf_parameters].
  all: try match goal with E : read_parts _ _ _ _ = Ok ?l |- Forall _ ?l => unfold read_parts in E; destruct (_ <? 1) in E; [discriminate E|];
    eapply mapM_forall; [|exact E]; cbv beta; clear; intros i p H; unfold read_part in H;
    destruct (rd_struct _ _ _ _) as [vs|]; cbn [bind] in H; [|discriminate H];
    destruct vs as [|[] [|[] [|[] [|[] []]]]]; try discriminate H; destruct (decode_strip _) as [nm|] eqn:E; cbn [bind] in H; [|discriminate H];
    destruct (is_data_type _); [|discriminate H]; apply ok_inj in H; subst p; cbn [rp_name]; exact (decode_strip_ascii _ _ E) end.
  all: match goal with E : read_parameters _ _ _ _ = Ok ?l |- _ => unfold read_parameters in E; cbv zeta in E;
    destruct (read_attr _ (FStr 4) _ _ _ _) as [[names p1]|] eqn:EN in E; cbn [bind] in E; [|discriminate E];
    destruct (read_attr _ FInt as_int _ p1 _) as [[scales p2]|] in E; cbn [bind] in E; [|discriminate E];
    destruct (read_attr _ FInt as_int _ p2 _) as [[offs p3]|] in E; cbn [bind] in E; [|discriminate E];
    destruct (read_attr _ FInt as_int _ p3 _) as [[bits p4]|] in E; cbn [bind] in E; [|discriminate E];
    apply ok_inj in E; subst l; apply (read_attr_forall (fun n => is_ascii n = true)) in EN end.
  all: try (intros v s Hv; destruct (as_bytes v) as [b|]; cbn [bind] in Hv; [|discriminate Hv]; exact (decode_strip_ascii _ _ Hv)).
  all: unfold zip4; apply Forall_forall; intros q Hq; apply in_map_iff in Hq as ([n [s [o t]]] & <- & Hq); cbn [rq_name];
    apply in_combine_l in Hq; rewrite Forall_forall in EN; exact (EN n Hq).
Qed.
Lemma open_station_ascii k d f : open_station k d = Ok f -> ascii_names (rf_file f).
Proof.
  unfold open_station. intros H. destruct (open_gempak d) as [g|] eqn:E; cbn [bind] in H; [|discriminate H].
  repeat match type of H with
    | (_ <- ?m ;; _) = Ok _ => destruct m; cbn [bind] in H; [|discriminate H]
    | (let _ := _ in _) = Ok _ => cbv zeta in H
    end. apply ok_inj in H. subst f. cbn [rf_file]. exact (open_ascii _ _ E).
Qed.
Lemma name_inj s : forall t, is_ascii s = true -> is_ascii t = true -> name_string s = name_string t -> s = t.
Proof.
  assert (C : forall c, (0 <=? c) && (c <? 128) = true -> Z.of_nat (nat_of_ascii (ascii_of_nat (Z.to_nat c))) = c).
  { intros c H. rewrite nat_ascii_embedding by lia. lia. }
  induction s as [|c s IH]; intros [|d t] Hs Ht H; [reflexivity|discriminate H|discriminate H|].
  unfold is_ascii in Hs, Ht. cbn [forallb] in Hs, Ht. apply andb_true_iff in Hs as [H1 H2]. apply andb_true_iff in Ht as [H3 H4].
  cbn [name_string fold_right] in H. injection H as E1 E2. f_equal.
  - rewrite <- (C c H1), <- (C d H3), E1. reflexivity.
  - apply IH; assumption.
Qed.
Lemma name_eqb s t : is_ascii s = true -> is_ascii t = true -> String.eqb (name_string s) (name_string t) = is_eq (str_cmp t s).
Proof.
  intros Hs Ht. destruct (String.eqb_spec (name_string s) (name_string t)) as [E|E].
  - apply name_inj in E; [|assumption|assumption]. subst t. rewrite (gc_refl good_str). reflexivity.
  - destruct (str_cmp t s) eqn:C; [|reflexivity|reflexivity]. apply str_cmp_eq in C. subst. congruence.
Qed.

(** ** Strides *)
Lemma stride_nth {A} n (l : list A) : (1 <= n)%nat -> forall skip k, nth_error (stride_aux l skip n) k = nth_error l (skip + k * n).
Proof.
  intros HN. induction l as [|x l IH]; intros skip k.
  - cbn [stride_aux]. destruct k, (skip + _)%nat; reflexivity.
  - destruct skip as [|skip]; cbn [stride_aux].
    + destruct k as [|k]; [reflexivity|]. cbn [nth_error]. rewrite IH.
      replace (0 + Datatypes.S k * n)%nat with (Datatypes.S (n - 1 + k * n)) by lia. reflexivity.
    + rewrite IH. reflexivity.
Qed.
Lemma nth_error_ext' {A} (a b : list A) : (forall k, nth_error a k = nth_error b k) -> a = b.
Proof.
  revert b. induction a as [|x a IH]; intros [|y b] H; [reflexivity|discriminate (H 0%nat)|discriminate (H 0%nat)|].
  pose proof (H 0%nat) as H0. injection H0 as ->. f_equal. apply IH. intros k. exact (H (Datatypes.S k)).
Qed.

(** ** Dictionaries filled one after the other: the last one counts *)
Lemma last_in {X} (P : X -> Prop) l x : last_with P l x -> In x l /\ P x.
Proof. intros (b & a & -> & H & _). split; [apply in_or_app; right; left; reflexivity|exact H]. Qed.
Lemma last_cons {X} (P : X -> Prop) y l x : (forall z, P z \/ ~ P z) ->
  (last_with P (y :: l) x <-> last_with P l x \/ (y = x /\ P y /\ forall z, In z l -> ~ P z)).
Proof.
  intros DEC. split.
  - intros ([|b0 b] & a & E & H & N); injection E as -> ->.
    + right. auto.
    + left. exists b, a. auto.
  - intros [(b & a & -> & H & N)|(-> & H & N)].
    + exists (y :: b), a. auto.
    + exists [], l. auto.
Qed.
Lemma last_some {X} (P : X -> Prop) l : (forall z, P z \/ ~ P z) -> (exists x, last_with P l x) \/ (forall z, In z l -> ~ P z).
Proof.
  intros DEC. induction l as [|y l [(x & IH)|IH]].
  - right. intros z [].
  - left. exists x. apply last_cons; [exact DEC|left; exact IH].
  - destruct (DEC y) as [H|H].
    + left. exists y. apply last_cons; [exact DEC|right; auto].
    + right. intros z [<-|Hz]; auto.
Qed.
Lemma fold_last {X V} (skip : X -> bool) (nm : X -> str) (rd : X -> res V) l : forall acc acc',
  foldM (fun acc x => if skip x then Ok acc else u <- rd x ;; Ok (dict_set str_cmp (nm x) u acc)) l acc = Ok acc' ->
  forall k v, dict_get str_cmp k acc' = Some v <->
    (exists x, last_with (fun x => nm x = k /\ skip x = false) l x /\ rd x = Ok v) \/
    (dict_get str_cmp k acc = Some v /\ forall x, In x l -> ~ (nm x = k /\ skip x = false)).
Proof.
  induction l as [|y l IH]; intros acc acc' H k v; cbn [foldM] in H.
  - apply ok_inj in H. subst acc'. split; [intros H; right; split; [exact H|intros x []]|].
    intros [(x & (b & a & E & _) & _)|[H _]]; [|exact H]. destruct b; discriminate E.
  - assert (DEC : forall z, (nm z = k /\ skip z = false) \/ ~ (nm z = k /\ skip z = false)).
    { intros z. destruct (list_eq_dec Z.eq_dec (nm z) k) as [E|E]; [|right; tauto]. destruct (skip z); [right|left]; intuition discriminate. }
    assert (GOAL : forall acc1, foldM (fun acc x => if skip x then Ok acc else u <- rd x ;; Ok (dict_set str_cmp (nm x) u acc)) l acc1 = Ok acc' ->
       (dict_get str_cmp k acc1 = Some v <-> (nm y = k /\ skip y = false /\ rd y = Ok v) \/ (~ (nm y = k /\ skip y = false) /\ dict_get str_cmp k acc = Some v)) ->
       (dict_get str_cmp k acc' = Some v <->
        (exists x, last_with (fun x => nm x = k /\ skip x = false) (y :: l) x /\ rd x = Ok v) \/
        (dict_get str_cmp k acc = Some v /\ forall x, In x (y :: l) -> ~ (nm x = k /\ skip x = false)))).
    { intros acc1 HF HK. rewrite (IH _ _ HF k v), HK. clear - DEC. split.
      - intros [(x & H1 & H2)|[[(H1 & H2 & H3)|[H1 H2]] H4]].
        + left. exists x. split; [|exact H2]. apply last_cons; [exact DEC|left; exact H1].
        + left. exists y. split; [|exact H3]. apply last_cons; [exact DEC|right; auto].
        + right. split; [exact H2|]. intros x [<-|Hx]; [exact H1|exact (H4 x Hx)].
      - intros [(x & H1 & H2)|[H1 H2]].
        + apply last_cons in H1 as [H1|(-> & H1 & H3)]; [|right; split; [left; tauto|exact H3]|exact DEC]. left. eauto.
        + right. split; [right; split; [exact (H2 y (or_introl eq_refl))|exact H1]|]. intros x Hx. exact (H2 x (or_intror Hx)). }
    destruct (skip y) eqn:ES; cbn [bind] in H.
    + apply GOAL with (1 := H). clear. split; [intros H; right; split; [intros [_ X0]; discriminate X0|exact H]|intros [(_ & X0 & _)|[_ X0]]; [discriminate X0|exact X0]].
    + destruct (rd y) as [u|] eqn:ER; cbn [bind] in H; [|discriminate H]. apply GOAL with (1 := H). rewrite (dict_set_get _ good_str).
      destruct (str_cmp k (nm y)) eqn:E; cbn [is_eq].
      * apply str_cmp_eq in E. subst k. split; [intros [= ->]; left; auto|intros [(_ & _ & X0)|[X0 _]]; [congruence|tauto]].
      * assert (nm y <> k) by (intros <-; rewrite (gc_refl good_str) in E; discriminate E). tauto.
      * assert (nm y <> k) by (intros <-; rewrite (gc_refl good_str) in E; discriminate E). tauto.
Qed.
Lemma fold_left_M {X S} (g : S -> X -> S) l : forall s, foldM (fun s x => Ok (g s x)) l s = Ok (fold_left g l s).
Proof. induction l as [|x l IH]; intros s; [reflexivity|]. cbn [foldM bind fold_left]. apply IH. Qed.

(** ** The parts *)
Section Parts.
Variable of_q : Q -> flt.
Variable W : Calc.arith.
Variable num_of : flt -> Calc.num W.
Variable flt_of : Calc.num W -> flt.
Variable fuel : nat.

Definition arrays_of (q : rparams) (l : list flt) : list (str * list flt) :=
  fold_left (fun acc '(i, nm) => dict_set str_cmp nm (stride (Z.to_nat i) (length (rq_name q)) l) acc) (indexed (rq_name q)) [].
Lemma arrays_get q l k a : dict_get str_cmp k (arrays_of q l) = Some a <->
  exists m, last_with (fun x => snd x = k) (indexed (rq_name q)) (m, k) /\ a = stride (Z.to_nat m) (length (rq_name q)) l.
Proof.
  unfold arrays_of.
  pose proof (fold_last (fun _ : Z * str => false) snd (fun x => Ok (stride (Z.to_nat (fst x)) (length (rq_name q)) l)) (indexed (rq_name q)) []) as F.
  specialize (F (fold_left (fun acc '(i, nm) => dict_set str_cmp nm (stride (Z.to_nat i) (length (rq_name q)) l) acc) (indexed (rq_name q)) [])).
  rewrite F; clear F.
  - split.
    + intros [([m k'] & (b & c & E & [H1 _] & H2) & H)|[H _]]; [|discriminate H]. cbn [snd] in H1. subst k'. exists m. apply ok_inj in H. split; [|symmetry; exact H].
      exists b, c. split; [exact E|]. split; [reflexivity|]. intros y Hy HE. apply (H2 y Hy). auto.
    + intros (m & (b & c & E & H1 & H2) & ->). left. exists (m, k). split; [|reflexivity]. exists b, c. split; [exact E|]. split; [auto|].
      intros y Hy [HE _]. exact (H2 y Hy HE).
  - cbn [bind]. rewrite <- fold_left_M. generalize (@nil (str * list flt)) as acc. induction (indexed (rq_name q)) as [|[i nm] r IH]; intros acc; [reflexivity|].
    cbn [foldM bind fst snd]. apply IH.
Qed.
Lemma arrays_keys q l : keys_ok (arrays_of q l).
Proof.
  unfold arrays_of. assert (G : forall acc, keys_ok acc -> keys_ok (fold_left (fun acc '(i, nm) => dict_set str_cmp nm (stride (Z.to_nat i) (length (rq_name q)) l) acc) (indexed (rq_name q)) acc)).
  { induction (indexed (rq_name q)) as [|[i nm] r IH]; intros acc K; [exact K|]. cbn [fold_left]. apply IH, set_keys, K. }
  apply G, keys_nil.
Qed.
Lemma read_upart_arrays f part q ptr a : read_upart of_q f part q ptr = Ok (UArrays a) <-> exists vals, numbers of_q f part q ptr vals /\ a = arrays_of q vals.
Proof.
  unfold read_upart, numbers. cbv zeta. fold (arrays_of q). destruct (rp_data_type part =? 3) eqn:E3.
  - apply Z.eqb_eq in E3. split; [|intros (? & [X _] & _); tauto]. destruct (_ <? 0); [discriminate|].
    repeat match goal with |- (_ <- ?m ;; _) = Ok _ -> _ => destruct m; cbn [bind]; [|discriminate] end. discriminate.
  - apply Z.eqb_neq in E3. destruct (read_block f part q ptr) as [[l|l|l]|]; cbn [bind].
    + split.
      * intros H. apply ok_inj in H. injection H as <-. exists l. split; [auto|reflexivity].
      * intros (vals & [_ [H|(l' & H & _)]] & ->); [|discriminate H]. apply ok_inj in H. injection H as ->. reflexivity.
    + split.
      * intros H. apply ok_inj in H. injection H as <-. eexists. split; [split; [exact E3|right; exists l; split; reflexivity]|]. reflexivity.
      * intros (vals & [_ [H|(l' & H & ->)]] & ->); [discriminate H|]. apply ok_inj in H. injection H as ->. reflexivity.
    + split; [discriminate|]. intros (vals & [_ [H|(l' & H & _)]] & _); discriminate H.
    + split; [discriminate|]. intros (vals & [_ [H|(l' & H & _)]] & _); discriminate H.
Qed.
Lemma read_uparts_any f i j l name u : read_uparts of_q f i j = Ok l ->
  (dict_get str_cmp name l = Some u <->
   exists iprt part q, last_with (stored_at f i j name) (file_parts f) (iprt, (part, q)) /\ read_upart of_q f part q (data_ptr f i j iprt) = Ok u).
Proof.
  intros H. unfold read_uparts in H.
  rewrite (fold_last (fun x : Z * (rpart * rparams) => data_ptr f i j (fst x) =? 0) (fun x => rp_name (fst (snd x)))
     (fun x => read_upart of_q f (fst (snd x)) (snd (snd x)) (data_ptr f i j (fst x))) (file_parts f) [] l).
  - assert (EQ : forall x, last_with (fun x : Z * (rpart * rparams) => rp_name (fst (snd x)) = name /\ (data_ptr f i j (fst x) =? 0) = false) (file_parts f) x <->
                           last_with (stored_at f i j name) (file_parts f) x).
    { intros x. unfold last_with, stored_at. split; intros (b & c & E & H1 & H2); exists b, c; (split; [exact E|]).
      - rewrite Z.eqb_neq in H1. split; [exact H1|]. intros y Hy. rewrite <- Z.eqb_neq. exact (H2 y Hy).
      - rewrite Z.eqb_neq. split; [exact H1|]. intros y Hy. rewrite Z.eqb_neq. exact (H2 y Hy). }
    split.
    + intros [([iprt [part q]] & HL & HR)|[X _]]; [|discriminate X]. apply EQ in HL. exists iprt, part, q. split; [exact HL|exact HR].
    + intros (iprt & part & q & HL & HN). left. exists (iprt, (part, q)). split; [apply EQ, HL|exact HN].
  - rewrite <- H. clear H. unfold file_parts. generalize (@nil (str * upart)) as acc.
    induction (indexed (combine (gf_parts (rf_file f)) (gf_parameters (rf_file f)))) as [|[n [p q]] r IH]; intros acc; [reflexivity|].
    cbn [foldM fst snd]. destruct (data_ptr f i j n =? 0); cbn [bind]; [apply IH|]. destruct (read_upart of_q f p q (data_ptr f i j n)); cbn [bind]; [apply IH|reflexivity].
Qed.
Lemma read_uparts_get f i j l name a : read_uparts of_q f i j = Ok l ->
  (dict_get str_cmp name l = Some (UArrays a) <->
   exists iprt part q vals, last_with (stored_at f i j name) (file_parts f) (iprt, (part, q)) /\ numbers of_q f part q (data_ptr f i j iprt) vals /\ a = arrays_of q vals).
Proof.
  intros H. rewrite (read_uparts_any _ _ _ _ _ _ H). split.
  - intros (iprt & part & q & HL & HR). apply read_upart_arrays in HR as (vals & HN & ->). eauto 8.
  - intros (iprt & part & q & vals & HL & HN & ->). exists iprt, part, q. split; [exact HL|]. apply read_upart_arrays. eauto.
Qed.
Lemma one_string e n d pos vs : rd_struct e [FStr n] d pos = Ok vs -> exists b, vs = [VBytes b].
Proof.
  unfold rd_struct, struct_unpack_from. cbv zeta. destruct (pos <? 0).
  - destruct (0 <? _); [discriminate|]. destruct (_ <? 0); [discriminate|]. intros H. apply ok_inj in H. subst vs. eexists. reflexivity.
  - destruct (_ <? _); [discriminate|]. intros H. apply ok_inj in H. subst vs. eexists. reflexivity.
Qed.
Lemma read_upart_text f part q ptr s :
  (exists tx, read_upart of_q f part q ptr = Ok (UTexts tx) /\ dict_get str_cmp k_TEXTS tx = Some s) <->
  rp_data_type part = 3 /\ rq_name q = [[84;69;88;84]] /\ exists b,
    let pos := 4 * (ptr - 1) in
    let words := rd_uint (gf_endian (rf_file f)) (gf_data (rf_file f)) pos - rp_header_length part in
    let next := pos + Zlen (py_slice (gf_data (rf_file f)) pos (pos + 4)) in
    rd_struct (gf_endian (rf_file f)) [FStr (Z.to_nat (4 * words))] (gf_data (rf_file f)) (next + 4 * rp_header_length part) = Ok [VBytes b] /\
    0 <= words /\ decode_strip b = Ok s.
Proof.
  unfold read_upart, rd_next. cbv zeta. replace (Words.word_to_position ptr) with (4 * (ptr - 1)) by (unfold Words.word_to_position; lia).
  replace (Words.word_to_position (rp_header_length part + 1)) with (4 * rp_header_length part) by (unfold Words.word_to_position; lia).
  set (words := rd_uint _ _ _ - _). replace (words * 4) with (4 * words) by lia.
  destruct (rp_data_type part =? 3) eqn:E3.
  2: { apply Z.eqb_neq in E3. split; [|intros [X _]; contradiction]. intros (tx & H & _). destruct (read_block f part q ptr) as [[l|l|l]|]; discriminate H. }
  apply Z.eqb_eq in E3. destruct (words <? 0) eqn:EW; [split; [intros (? & X & _); discriminate X|intros (_ & _ & ? & _ & X & _); lia]|].
  split.
  - intros (tx & H & G). destruct (rd_struct _ _ _ _) as [vs|] eqn:ER; cbn [bind] in H; [|discriminate H].
    destruct (one_string _ _ _ _ _ ER) as (b & ->). cbn [py_index Z.ltb Z.compare Z.to_nat nth_error bind as_bytes] in H.
    split; [exact E3|]. destruct (rq_name q) as [|nm [|nm' r]] eqn:EQ.
    + apply ok_inj in H. injection H as <-. discriminate G.
    + change (indexed [nm]) with [(0, nm)] in H. cbn [foldM] in H. change (py_index [b] 0) with (Ok b) in H. cbn [bind] in H.
      destruct (decode_strip b) as [t|] eqn:ED; cbn [bind] in H; [|discriminate H]. apply ok_inj in H. injection H as <-.
      cbn [dict_set dict_get] in G. destruct (str_cmp k_TEXTS nm) eqn:EC; try discriminate G. cbn [is_eq] in G. injection G as ->. apply str_cmp_eq in EC. subst nm.
      split; [reflexivity|]. exists b. split; [reflexivity|]. split; [lia|exact ED].
    + exfalso. assert (X : exists r', indexed (nm :: nm' :: r) = (0, nm) :: (1, nm') :: r').
      { unfold indexed, zrange. rewrite Zlen_length. cbn [length seq map combine]. rewrite ?Nat2Z.id. eexists. reflexivity. }
      destruct X as (r' & X). rewrite X in H. cbn [foldM] in H. change (py_index [b] 0) with (Ok b) in H. change (py_index [b] 1) with (@Err bytes IndexError) in H. cbn [bind] in H.
      destruct (decode_strip b); discriminate H.
  - intros (_ & EQ & b & HR & _ & HD). exists [(k_TEXTS, s)]. rewrite HR, EQ. change (indexed [[84;69;88;84]]) with [(0, [84;69;88;84])]. cbn [bind foldM].
    change (py_index [VBytes b] 0) with (Ok (VBytes b)). cbn [bind as_bytes]. change (py_index [b] 0) with (Ok b). cbn [bind]. rewrite HD. split; reflexivity.
Qed.
Lemma stored_text_get f i j l name s : read_uparts of_q f i j = Ok l ->
  (exists tx, dict_get str_cmp name l = Some (UTexts tx) /\ dict_get str_cmp k_TEXTS tx = Some s) <-> stored_text f i j name s.
Proof.
  intros H. split.
  - intros (tx & G & T). apply (read_uparts_any _ _ _ _ _ _ H) in G as (iprt & part & q & HL & HR).
    destruct (proj1 (read_upart_text f part q (data_ptr f i j iprt) s)) as (A & B & b & C); [eauto|]. exists iprt, part, q, b. auto.
  - intros (iprt & part & q & b & HL & A & B & C). destruct (proj2 (read_upart_text f part q (data_ptr f i j iprt) s)) as (tx & D & E); [eauto|].
    exists tx. split; [|exact E]. apply (read_uparts_any _ _ _ _ _ _ H). eauto.
Qed.
Lemma read_uparts_keys f i j l : ascii_names (rf_file f) -> read_uparts of_q f i j = Ok l ->
  keys_ok l /\ Forall (fun e => is_ascii (fst e) = true /\ match snd e with UArrays a => keys_ok a /\ Forall (fun e => is_ascii (fst e) = true) a | UTexts _ => True end) l.
Proof.
  intros [A1 A2] H. unfold read_uparts in H.
  assert (AP : forall n p q, In (n, (p, q)) (indexed (combine (gf_parts (rf_file f)) (gf_parameters (rf_file f)))) -> is_ascii (rp_name p) = true /\ Forall (fun n => is_ascii n = true) (rq_name q)).
  { intros n p q HI. unfold indexed in HI. apply in_combine_r in HI. split.
    - apply in_combine_l in HI. rewrite Forall_forall in A1. exact (A1 p HI).
    - apply in_combine_r in HI. rewrite Forall_forall in A2. exact (A2 q HI). }
  revert H. generalize (@nil_cons) as junk. intros _.
  set (P := fun l : list (str * upart) => keys_ok l /\ Forall (fun e => is_ascii (fst e) = true /\ match snd e with UArrays a => keys_ok a /\ Forall (fun e => is_ascii (fst e) = true) a | UTexts _ => True end) l).
  assert (P0 : P []) by (split; constructor). revert P0. generalize (@nil (str * upart)) as acc.
  induction (indexed (combine (gf_parts (rf_file f)) (gf_parameters (rf_file f)))) as [|[n [p q]] r IH]; intros acc P0 H; cbn [foldM] in H.
  - apply ok_inj in H. subst l. exact P0.
  - destruct (data_ptr f i j n =? 0); cbn [bind] in H.
    + apply IH with (2 := P0); [intros n' p' q' HI; exact (AP n' p' q' (or_intror HI))|exact H].
    + destruct (read_upart of_q f p q (data_ptr f i j n)) as [u|] eqn:EU; cbn [bind] in H; [|discriminate H].
      refine (IH _ _ _ H); [intros n' p' q' HI; exact (AP n' p' q' (or_intror HI))|].
      destruct (AP n p q (or_introl eq_refl)) as [N1 N2]. destruct P0 as [K F]. split; [apply set_keys, K|].
      apply Forall_forall. intros [k v] HI. apply set_in in HI as [[-> ->]|HI]; [|rewrite Forall_forall in F; exact (F _ HI)].
      cbn [fst snd]. split; [exact N1|]. destruct u as [a|]; [|exact I]. apply read_upart_arrays in EU as (vals & _ & ->). split; [apply arrays_keys|].
      apply Forall_forall. intros [k v] HI. cbn [fst]. apply (dict_in_get _ good_str k v _ (arrays_keys q vals)) in HI.
      apply arrays_get in HI as (m & HL & _). apply last_in in HL as [HL _]. unfold indexed in HL. apply in_combine_r in HL.
      rewrite Forall_forall in N2. exact (N2 k HL).
Qed.

(** *** As the merging sees them *)
Lemma assoc_names {V B} (g : V -> B) (l : list (str * V)) k : is_ascii k = true -> Forall (fun e => is_ascii (fst e) = true) l ->
  Merge.assoc (name_string k) (map (fun '(k, v) => (name_string k, g v)) l) = match dict_get str_cmp k l with Some v => Some (g v) | None => None end.
Proof.
  intros HK F. induction F as [|[k' v] l H F IH]; [reflexivity|]. unfold Merge.assoc in *. cbn [map find fst dict_get].
  cbn [fst] in H. rewrite (name_eqb k' k H HK). destruct (is_eq (str_cmp k k')); [reflexivity|exact IH].
Qed.
Lemma assoc_parts (l : list (str * upart)) k : is_ascii k = true -> keys_ok l -> Forall (fun e => is_ascii (fst e) = true) l ->
  Merge.assoc (name_string k) (to_parts W num_of l) =
  match dict_get str_cmp k l with Some (UArrays a) => Some (map (fun '(k, v) => (name_string k, map num_of v)) a) | _ => None end.
Proof.
  intros HK KO F. induction F as [|[k' u] l H F IH]; [reflexivity|]. cbn [fst] in H. inversion KO as [|? ? D1 D2]; subst. specialize (IH D2).
  cbn [dict_get]. destruct u as [a|t]; unfold to_parts in *; cbn [flat_map app].
  - unfold Merge.assoc in *. cbn [find fst]. rewrite (name_eqb k' k H HK). destruct (is_eq (str_cmp k k')); [reflexivity|exact IH].
  - destruct (str_cmp k k') eqn:E; cbn [is_eq]; [|exact IH|exact IH]. apply str_cmp_eq in E. subst k'.
    rewrite IH. destruct (dict_get str_cmp k l) as [v|] eqn:G; [|reflexivity]. exfalso. apply get_in_str in G.
    rewrite Forall_forall in D1. apply (D1 k); [apply in_map_iff; exists (k, v); auto|apply (gc_refl good_str)].
Qed.
Lemma parts_read f i j l : ascii_names (rf_file f) -> read_uparts of_q f i j = Ok l -> parts_of num_of of_q f i j (to_parts W num_of l).
Proof.
  intros AN H name param N1 N2 a. destruct (read_uparts_keys f i j l AN H) as [K F].
  assert (FA : Forall (fun e : str * upart => is_ascii (fst e) = true) l) by (eapply Forall_impl; [|exact F]; intros e [X _]; exact X).
  rewrite (assoc_parts l name N1 K FA). split.
  - intros (p & E & EA). destruct (dict_get str_cmp name l) as [[arrs|]|] eqn:G; try discriminate E. injection E as <-.
    pose proof (get_in_str _ _ _ G) as GI. rewrite Forall_forall in F. destruct (F _ GI) as [_ [KA FAA]].
    rewrite (assoc_names (map num_of) arrs param N2 FAA) in EA. destruct (dict_get str_cmp param arrs) as [v|] eqn:GP; [|discriminate EA]. injection EA as <-.
    exists v. split; [|reflexivity]. apply (read_uparts_get _ _ _ _ _ _ H) in G as (iprt & part & q & vals & HL & HN & ->).
    apply arrays_get in GP as (m & HM & ->). exists iprt, part, q, vals, m. repeat (split; [assumption|]). intros level. unfold stride. rewrite stride_nth; [f_equal; lia|].
    apply last_in in HM as [HM _]. unfold indexed in HM. apply in_combine_r in HM. destruct (rq_name q); [destruct HM|cbn; lia].
  - intros (v & (iprt & part & q & vals & m & HL & HN & HM & HV) & ->).
    assert (G : dict_get str_cmp name l = Some (UArrays (arrays_of q vals))) by (apply (read_uparts_get _ _ _ _ _ _ H); eauto 8).
    rewrite G. eexists. split; [reflexivity|].
    pose proof (get_in_str _ _ _ G) as GI. rewrite Forall_forall in F. destruct (F _ GI) as [_ [KA FAA]].
    rewrite (assoc_names (map num_of) _ param N2 FAA). assert (GP : dict_get str_cmp param (arrays_of q vals) = Some v); [|rewrite GP; reflexivity].
    apply arrays_get. exists m. split; [exact HM|]. apply nth_error_ext'. intros k. rewrite HV. unfold stride. rewrite stride_nth; [f_equal; lia|].
    apply last_in in HM as [HM _]. unfold indexed in HM. apply in_combine_r in HM. destruct (rq_name q); [destruct HM|cbn; lia].
Qed.
Lemma name_NoDup {V B} (g : V -> B) (a : list (str * V)) : keys_ok a -> Forall (fun e => is_ascii (fst e) = true) a -> NoDup (map fst (map (fun '(k, v) => (name_string k, g v)) a)).
Proof.
  intros K F. rewrite map_map. induction F as [|[k v] a H F IH]; [constructor|]. cbn [map fst] in *. inversion K as [|? ? D1 D2]; subst. constructor; [|exact (IH D2)].
  intros HI. apply in_map_iff in HI as ([k' v'] & E & HI). cbn [fst] in E. rewrite Forall_forall in F, D1. pose proof (F _ HI) as HK. cbn [fst] in HK.
  apply name_inj in E; [|assumption|assumption]. subst k'. apply (D1 k); [apply in_map_iff; exists (k, v'); auto|apply (gc_refl good_str)].
Qed.
Lemma parts_dictionary f i j l name : ascii_names (rf_file f) -> is_ascii name = true -> read_uparts of_q f i j = Ok l -> SpecMerge.dictionary (to_parts W num_of l) (name_string name).
Proof.
  intros AN N1 H p HP. destruct (read_uparts_keys f i j l AN H) as [K F].
  assert (FA : Forall (fun e : str * upart => is_ascii (fst e) = true) l) by (eapply Forall_impl; [|exact F]; intros e [X _]; exact X).
  rewrite (assoc_parts l name N1 K FA) in HP. destruct (dict_get str_cmp name l) as [[arrs|]|] eqn:G; try discriminate HP. injection HP as <-.
  rewrite Forall_forall in F. destruct (F _ (get_in_str _ _ _ G)) as [_ [KA FAA]]. apply name_NoDup; assumption.
Qed.
End Parts.

(** ** Headers *)
Lemma open_sounding_type d f : open_station KSounding d = Ok f -> rf_type f = Sounding.
Proof.
  unfold open_station. intros H. repeat match type of H with
    | (_ <- ?m ;; _) = Ok _ => let E := fresh in destruct m eqn:E; cbn [bind] in H; [|discriminate H]
    | (let _ := _ in _) = Ok _ => cbv zeta in H
    end. apply ok_inj in H. subst f. cbn [rf_type]. reflexivity.
Qed.
Definition head_names : list str := [k_STID; k_STNM; k_SLAT; k_SLON; k_SELV; k_STAT; k_COUN; k_DATE; k_TIME].
Lemma head_shape f i j r : rf_type f = Sounding -> head_record f i j = Ok r ->
  exists th sh, time_head f i j = Ok th /\ station_head f i j = Ok sh /\
  Forall2 (fun k e => fst e = k /\ exists v, (if existsb (str_eqb k) [k_DATE; k_TIME] then attr th k else attr sh k) = Ok v /\ snd e = DHead v) head_names r.
Proof.
  intros T H. unfold head_record in H. rewrite T in H.
  destruct (time_head f i j) as [th|] eqn:E1; cbn [bind] in H; [|discriminate H].
  destruct (station_head f i j) as [sh|] eqn:E2; cbn [bind] in H; [|discriminate H].
  exists th, sh. do 2 (split; [reflexivity|]). cbn [record_keys app foldM bind] in H.
  repeat match type of H with
  | context [attr sh ?k] => let E := fresh "E" in destruct (attr sh k) eqn:E; cbn [bind] in H; [|discriminate H]
  | context [attr th ?k] => let E := fresh "E" in destruct (attr th k) eqn:E; cbn [bind] in H; [|discriminate H]
  end.
  cbv - [attr] in H. injection H as <-.
  unfold head_names. repeat (apply Forall2_cons; [split; [reflexivity|eexists; split; [eassumption|reflexivity]]|]). apply Forall2_nil.
Qed.
Lemma attr_as {X} (g : hval -> res X) th k x : (v <- attr th k ;; g v) = Ok x -> exists v, attr th k = Ok v /\ g v = Ok x.
Proof. destruct (attr th k) as [v|]; cbn [bind]; [eauto|discriminate]. Qed.
Lemma listing_reads f i j x r t : rf_type f = Sounding -> listing_of f i j = Ok x -> head_record f i j = Ok r -> reads_headers (r ++ t) x.
Proof.
  intros T HL HR. destruct (head_shape f i j r T HR) as (th & sh & ET & ES & F). unfold listing_of in HL. rewrite T, ET, ES in HL. cbn [bind] in HL.
  destruct (attr_date th k_DATE) as [d|] eqn:A1; cbn [bind] in HL; [|discriminate HL].
  destruct (attr_time th k_TIME) as [tm|] eqn:A2; cbn [bind] in HL; [|discriminate HL].
  destruct (attr_text sh k_STID) as [a3|] eqn:A3; cbn [bind] in HL; [|discriminate HL].
  destruct (attr_int sh k_STNM) as [a4|] eqn:A4; cbn [bind] in HL; [|discriminate HL].
  destruct (attr_flt sh k_SLAT) as [a5|] eqn:A5; cbn [bind] in HL; [|discriminate HL].
  destruct (attr_flt sh k_SLON) as [a6|] eqn:A6; cbn [bind] in HL; [|discriminate HL].
  destruct (attr_int sh k_SELV) as [a7|] eqn:A7; cbn [bind] in HL; [|discriminate HL].
  destruct (attr_text sh k_STAT) as [a8|] eqn:A8; cbn [bind] in HL; [|discriminate HL].
  destruct (attr_text sh k_COUN) as [a9|] eqn:A9; cbn [bind] in HL; [|discriminate HL].
  apply ok_inj in HL. subst x. unfold reads_headers. cbn [ls_id ls_number ls_lat ls_lon ls_elev ls_state ls_country ls_time].
  assert (G : forall k v, In k head_names -> (if existsb (str_eqb k) [k_DATE; k_TIME] then attr th k else attr sh k) = Ok v -> entry (r ++ t) k (DHead v)).
  { intros k v HI HV. apply in_or_app. left. destruct (Forall2_in_l' _ _ _ _ F HI) as ([k' v'] & HI' & E1 & w & E2 & E3). cbn [fst snd] in E1, E3. subst k' v'.
    rewrite HV in E2. apply ok_inj in E2. subst w. exact HI'. }
  assert (M : forall k, In k head_names -> True) by auto.
  apply attr_as in A1 as (v1 & B1 & C1). apply attr_as in A2 as (v2 & B2 & C2). apply attr_as in A3 as (v3 & B3 & C3). apply attr_as in A4 as (v4 & B4 & C4).
  apply attr_as in A5 as (v5 & B5 & C5). apply attr_as in A6 as (v6 & B6 & C6). apply attr_as in A7 as (v7 & B7 & C7). apply attr_as in A8 as (v8 & B8 & C8). apply attr_as in A9 as (v9 & B9 & C9).
  destruct v1; try discriminate C1; destruct v2; try discriminate C2; destruct v3; try discriminate C3; destruct v4; try discriminate C4; destruct v5; try discriminate C5;
    destruct v6; try discriminate C6; destruct v7; try discriminate C7; destruct v8; try discriminate C8; destruct v9; try discriminate C9.
  apply ok_inj in C1, C2, C3, C4, C5, C6, C7, C8, C9. subst.
  unfold head_names in G. cbn [In] in G.
  split; [apply (G k_STID); [auto 10|exact B3]|]. split; [apply (G k_STNM); [auto 10|exact B4]|]. split; [apply (G k_SLAT); [auto 10|exact B5]|].
  split; [apply (G k_SLON); [auto 10|exact B6]|]. split; [apply (G k_SELV); [auto 10|exact B7]|]. split; [apply (G k_STAT); [auto 10|exact B8]|].
  split; [apply (G k_COUN); [auto 10|exact B9]|]. apply combine_at; [apply (G k_DATE); [auto 10|exact B1]|apply (G k_TIME); [auto 12|exact B2]].
Qed.

(** ** Merged records *)
Section Cell.
Variable of_q : Q -> flt.
Variable W : Calc.arith.
Variable num_of : flt -> Calc.num W.
Variable flt_of : Calc.num W -> flt.
Variable fuel : nat.
Lemma texts_shape ps t : texts_of ps = Ok t -> exists b, map fst t = filter b text_keys /\ Forall (fun e => exists s, snd e = DStr s) t.
Proof.
  intros H. exists (fun k => match dict_get str_cmp k ps with Some _ => true | None => false end). unfold texts_of in H.
  assert (G : forall l acc t, foldM (fun acc k => match dict_get str_cmp k ps with
                      | None => Ok acc
                      | Some (UTexts t) => match dict_get str_cmp k_TEXTS t with Some s => Ok (acc ++ [(k, DStr s)]) | None => Err KeyError end
                      | Some (UArrays _) => Err NotImplementedError end) l acc = Ok t ->
     Forall (fun e => exists s, snd e = DStr s) acc ->
     map fst t = map fst acc ++ filter (fun k => match dict_get str_cmp k ps with Some _ => true | None => false end) l /\ Forall (fun e => exists s, snd e = DStr s) t).
  { clear. induction l as [|k l IH]; intros acc t H F; cbn [foldM filter] in *.
    - apply ok_inj in H. subst. rewrite app_nil_r. auto.
    - destruct (dict_get str_cmp k ps) as [[a|tx]|]; cbn [bind] in H; [discriminate H| |exact (IH _ _ H F)].
      destruct (dict_get str_cmp k_TEXTS tx) as [s|]; cbn [bind] in H; [|discriminate H].
      destruct (IH _ _ H) as [E1 E2]; [apply Forall_app; split; [exact F|repeat constructor; eexists; reflexivity]|].
      rewrite E1, map_app, <- app_assoc. auto. }
  destruct (G _ _ _ H) as [E1 E2]; [constructor|]. auto.
Qed.
Lemma texts_get ps t k s : texts_of ps = Ok t -> In k text_keys ->
  (In (k, DStr s) t <-> exists tx, dict_get str_cmp k ps = Some (UTexts tx) /\ dict_get str_cmp k_TEXTS tx = Some s).
Proof.
  unfold texts_of. intros H HK.
  assert (G : forall l acc t, foldM (fun acc k => match dict_get str_cmp k ps with
                      | None => Ok acc
                      | Some (UTexts t) => match dict_get str_cmp k_TEXTS t with Some s => Ok (acc ++ [(k, DStr s)]) | None => Err KeyError end
                      | Some (UArrays _) => Err NotImplementedError end) l acc = Ok t ->
     (In (k, DStr s) t <-> In (k, DStr s) acc \/ (In k l /\ exists tx, dict_get str_cmp k ps = Some (UTexts tx) /\ dict_get str_cmp k_TEXTS tx = Some s))).
  { clear. induction l as [|k' l IH]; intros acc t H; cbn [foldM] in H.
    - apply ok_inj in H. subst. cbn [In]. tauto.
    - destruct (dict_get str_cmp k' ps) as [[a|tx]|] eqn:E; cbn [bind] in H; [discriminate H| |].
      + destruct (dict_get str_cmp k_TEXTS tx) as [s'|] eqn:E2; cbn [bind] in H; [|discriminate H]. rewrite (IH _ _ H), in_app_iff. cbn [In].
        split.
        * intros [[X|[[= -> ->]|[]]]|[X Y]]; [auto| |auto]. right. split; [left; reflexivity|]. eauto.
        * intros [X|[[->|X] Y]]; [auto| |auto]. destruct Y as (tx' & Y1 & Y2). rewrite E in Y1. injection Y1 as <-. rewrite E2 in Y2. injection Y2 as ->. auto.
      + rewrite (IH _ _ H). cbn [In]. split; [intros [X|[X Y]]; auto|]. intros [X|[[->|X] Y]]; [auto| |auto]. destruct Y as (tx' & Y1 & _). congruence. }
  rewrite (G _ _ _ H). cbn [In]. tauto.
Qed.
Lemma cell_keys f i j r : rf_type f = Sounding -> unmerged_cell of_q W num_of flt_of fuel f i j = Ok (Some r) -> keys_ok r.
Proof.
  intros T H. unfold unmerged_cell in H. destruct (head_record f i j) as [h|] eqn:EH; cbn [bind] in H; [|discriminate H].
  destruct (read_uparts of_q f i j) as [ps|]; cbn [bind] in H; [|discriminate H].
  match type of H with (selv <- ?e ;; _) = _ => destruct e as [selv|]; cbn [bind] in H; [|discriminate H] end.
  destruct (Merge.merge_sounding _ _ _ _ _) as [[s|]|]; cbn [bind] in H; try discriminate H.
  destruct (texts_of ps) as [t|] eqn:EX; cbn [bind] in H; [|discriminate H]. apply ok_inj in H. injection H as <-.
  apply texts_shape in EX as (b & EX & _). apply head_shape in EH as (th & sh & _ & _ & F); [|exact T].
  assert (EH : map fst h = head_names). { clear - F. induction F as [|k e l l' [H _] F IH]; [reflexivity|]. cbn [map]. rewrite H, IH. reflexivity. }
  unfold keys_ok. rewrite map_app, EH. cbn [map app fst]. rewrite EX. cbn [text_keys filter].
  destruct (b [84;88;84;65]), (b [84;88;84;66]), (b [84;88;84;67]), (b [84;88;80;66]); cbn [app head_names];
    repeat (apply FOP_cons; [repeat (apply Forall_cons; [discriminate|]); apply Forall_nil|]); apply FOP_nil.
Qed.
Lemma cell_merged f x o : ascii_names (rf_file f) -> rf_type f = Sounding -> listing_of f (ls_row x) (ls_col x) = Ok x ->
  unmerged_cell of_q W num_of flt_of fuel f (ls_row x) (ls_col x) = Ok o -> merged_of num_of flt_of of_q fuel f x o.
Proof.
  intros AN T HL H. unfold unmerged_cell in H. destruct (head_record f _ _) as [h|] eqn:EH; cbn [bind] in H; [|discriminate H].
  destruct (read_uparts of_q f _ _) as [ps|] eqn:EP; cbn [bind] in H; [|discriminate H].
  assert (ES : get k_SELV h = Some (DHead (HInt (ls_elev x)))).
  { apply entry_get; [exact (head_keys_ok _ _ _ _ EH)|]. pose proof (listing_reads f _ _ x h [] T HL EH) as R. rewrite app_nil_r in R. apply R. }
  rewrite ES in H. cbn [bind] in H.
  destruct (Merge.merge_sounding _ _ _ _ _) as [m|] eqn:EM; cbn [bind] in H; [|discriminate H].
  exists (to_parts W num_of ps), m. split; [exact (parts_read _ _ _ _ _ _ _ AN EP)|]. split; [exact EM|].
  destruct m as [s|].
  - destruct (texts_of ps) as [t|] eqn:EX; cbn [bind] in H; [|discriminate H]. apply ok_inj in H. subst o. split; [exact (listing_reads f _ _ x h _ T HL EH)|].
    split; [intros k name HI; apply in_or_app; right; apply in_or_app; left; apply in_map_iff; exists (name, k); split; [reflexivity|exact HI]|].
    intros k tx HK. rewrite <- (stored_text_get of_q _ _ _ _ _ _ EP), <- (texts_get ps t k tx EX HK).
    match goal with |- entry (h ++ ?r) _ _ <-> _ => change r with (map (fun '(nm, k) => (nm, DArr (map flt_of (Calc.get s k)))) level_keys ++ t) end.
    unfold entry. split; [|intros HI; apply in_or_app; right; apply in_or_app; right; exact HI].
    intros HI. apply in_app_or in HI as [HI|HI]; [|apply in_app_or in HI as [HI|HI]; [|exact HI]]; exfalso.
    + apply head_shape in EH as (th & sh & _ & _ & F); [|exact T]. apply (Forall2_in_r _ _ _ _ F) in HI as (k' & _ & _ & v & _ & X). discriminate X.
    + apply in_map_iff in HI as ([nm k'] & X & _). discriminate X.
  - apply ok_inj in H. subst o. exact I.
Qed.

(** *** A merged sounding has levels *)
Lemma merge_levels fuel' m (ps : Merge.parts_t W) selv s : Merge.merge_sounding W m fuel' ps selv = Ok (Some s) -> Calc.s_pres s <> [].
Proof.
  intros H. unfold Merge.merge_sounding in H. do 12 (apply CalcFacts.bind_inv in H as (? & _ & H)).
  destruct (_ =? 0)%nat in H; [discriminate H|].
  repeat match type of H with
  | (_ <- Merge.below_ground _ _ _ _ _ _ _ ;; _) = _ => fail 1
  | (let _ := _ in _) = _ => cbv zeta in H
  | _ => let y := fresh in apply CalcFacts.bind_inv in H as (y & _ & H); cbv beta zeta in H; try destruct y as [? ?]
  end.
  apply CalcFacts.bind_inv in H as (s' & HB & H). apply ok_inj in H. injection H as ->.
  unfold Merge.below_ground in HB. apply CalcFacts.bind_inv in HB as (pbase & H0 & HB).
  destruct (_ && _) in HB; [|apply ok_inj in HB; subst; intros E; rewrite E in H0; discriminate H0].
  apply CalcFacts.bind_inv in HB as ([s2 z] & HF & HB). apply ok_inj in HB. subst s2.
  assert (G : forall (ps : Merge.parts_t W) l st st', foldM (Merge.below_step W ps) l st = Ok st' -> Calc.s_pres (fst st) <> [] -> Calc.s_pres (fst st') <> []).
  { clear. induction l as [|i l IH]; intros st st' H N; cbn [foldM] in H; [apply ok_inj in H; subst; exact N|].
    apply CalcFacts.bind_inv in H as (st1 & H1 & H). apply (IH _ _ H). clear - H1 N. unfold Merge.below_step in H1. destruct st as [s n].
    do 2 (apply CalcFacts.bind_inv in H1 as (? & _ & H1)). destruct (Calc.n_lt _ _ _) in H1; [|apply ok_inj in H1; subst; exact N].
    apply CalcFacts.bind_inv in H1 as (? & _ & H1). cbv zeta in H1. do 5 (apply CalcFacts.bind_inv in H1 as (? & _ & H1)). apply ok_inj in H1. subst st1.
    cbn [fst Merge.insert_level Calc.s_pres]. unfold Merge.insert_. intros E. apply app_eq_nil in E as [_ E]. discriminate E. }
  refine (G _ _ _ _ HF _). cbn [fst Calc.s_pres] in *. intros E; rewrite E in H0; discriminate H0.
Qed.
Definition level_names : list str := [k_PRES; k_HGHT; [84;69;77;80]; [68;87;80;84]; [68;82;67;84]; [83;80;69;68]].
Definition n_TTCC : str := [84;84;67;67].
Lemma stores_complete f i j ps : ascii_names (rf_file f) -> stores_all f n_TTCC -> read_uparts of_q f i j = Ok ps ->
  SpecMerge.complete (to_parts W num_of ps) "TTCC".
Proof.
  intros AN HS H p k HP. destruct (read_uparts_keys of_q f i j ps AN H) as [K F].
  assert (FA : Forall (fun e : str * upart => is_ascii (fst e) = true) ps) by (eapply Forall_impl; [|exact F]; intros e [X _]; exact X).
  change "TTCC"%string with (name_string n_TTCC) in HP. rewrite (assoc_parts W num_of ps n_TTCC eq_refl K FA) in HP.
  destruct (dict_get str_cmp n_TTCC ps) as [[arrs|]|] eqn:G; try discriminate HP. injection HP as <-.
  apply (read_uparts_get _ _ _ _ _ _ _ H) in G as (iprt & part & q & vals & HL & HN & ->). apply last_in in HL as [HI [HE _]].
  assert (HK : exists nm, In nm level_names /\ Merge.key_name k = name_string nm).
  { destruct k; [exists k_PRES|exists k_HGHT|exists [84;69;77;80]|exists [68;87;80;84]|exists [68;82;67;84]|exists [83;80;69;68]]; (split; [cbn; auto 10|reflexivity]). }
  destruct HK as (nm & HN1 & ->). pose proof (HS _ _ _ HI HE nm HN1) as HQ.
  assert (EX : exists m, last_with (fun x => snd x = nm) (indexed (rq_name q)) (m, nm)).
  { destruct (last_some (fun x : Z * str => snd x = nm) (indexed (rq_name q))) as [([m n'] & X)|X].
    - intros z. destruct (list_eq_dec Z.eq_dec (snd z) nm); [left|right]; assumption.
    - exists m. pose proof (last_in _ _ _ X) as [_ E]. cbn [snd] in E. subst n'. exact X.
    - exfalso. apply In_nth_error in HQ as (n & HQ). apply (X (Z.of_nat n, nm)); [|reflexivity]. apply indexed_in. rewrite Nat2Z.id. split; [lia|exact HQ]. }
  destruct EX as (m & EX). assert (GA : dict_get str_cmp nm (arrays_of q vals) = Some (stride (Z.to_nat m) (length (rq_name q)) vals)) by (apply arrays_get; eauto).
  apply get_in_str in GA. apply in_map_iff. eexists. split; [|apply in_map_iff; eexists; split; [|exact GA]; reflexivity]. reflexivity.
Qed.
Lemma cell_complete f x r : ascii_names (rf_file f) -> rf_type f = Sounding -> stores_all f n_TTCC -> listing_of f (ls_row x) (ls_col x) = Ok x ->
  unmerged_cell of_q W num_of flt_of fuel f (ls_row x) (ls_col x) = Ok (Some r) -> complete r.
Proof.
  intros AN T HS HL H. pose proof (cell_keys _ _ _ _ T H) as KO. unfold unmerged_cell in H. destruct (head_record f _ _) as [h|] eqn:EH; cbn [bind] in H; [|discriminate H].
  destruct (read_uparts of_q f _ _) as [ps|] eqn:EP; cbn [bind] in H; [|discriminate H].
  match type of H with (selv <- ?e ;; _) = _ => destruct e as [selv|]; cbn [bind] in H; [|discriminate H] end.
  destruct (Merge.merge_sounding _ _ _ _ _) as [[s|]|] eqn:EM; cbn [bind] in H; try discriminate H.
  destruct (texts_of ps) as [t|] eqn:EX; cbn [bind] in H; [|discriminate H]. apply ok_inj in H. injection H as <-.
  set (lv := map (fun '(nm, k) => (nm, DArr (map flt_of (Calc.get s k)))) level_keys) in *.
  destruct (listing_reads f _ _ x h (lv ++ t) T HL EH) as (R1 & R2 & R3 & R4 & R5 & R6 & R7 & R8).
  pose proof (merge_levels _ _ _ _ _ EM) as NE.
  apply MergeFacts.merge_EL in EM as (n & AL); [|exact (parts_dictionary _ _ _ _ _ _ _ [84;84;65;65] AN eq_refl EP)|exact (parts_dictionary _ _ _ _ _ _ _ n_TTCC AN eq_refl EP)|exact (stores_complete _ _ _ _ AN HS EP)].
  assert (EN : forall k nm, In (nm, k) level_keys -> entry (h ++ lv ++ t) nm (DArr (map flt_of (Calc.get s k)))).
  { intros k nm HI. apply in_or_app. right. apply in_or_app. left. apply in_map_iff. exists (nm, k). auto. }
  split; [|split; [exists (ls_time x); exact R8|]].
  - intros k HI. cbn [In] in HI. destruct HI as [<-|[<-|[<-|[<-|[<-|[<-|[<-|[]]]]]]]]; eauto.
  - exists VPres, (DArr (map flt_of (Calc.get s Calc.PRES))), (map (fun v => LF (flt_of v)) (Calc.get s Calc.PRES)).
    assert (AR : forall l : list (Calc.num W), array (DArr (map flt_of l)) (map (fun v => LF (flt_of v)) l)).
    { intros l. left. split; [f_equal; rewrite map_map; apply map_ext; reflexivity|]. apply Forall_forall. intros y Hy. apply in_map_iff in Hy as (v & <- & _). eauto. }
    assert (PE : entry (h ++ lv ++ t) k_PRES (DArr (map flt_of (Calc.get s Calc.PRES)))) by (apply EN; cbn; auto).
    split; [split; [intros _; eauto|reflexivity]|]. split; [exact PE|]. split; [apply AR|]. split; [cbn [Calc.get]; intros E; apply map_eq_nil in E; contradiction|].
    intros k v HE NV. change (In (k, v) (h ++ lv ++ t)) in HE. apply in_app_or in HE as [HE|HE]; [|apply in_app_or in HE as [HE|HE]].
    + exfalso. apply NV. apply head_shape in EH as (th & sh & _ & _ & F); [|exact T]. apply (Forall2_in_r _ _ _ _ F) in HE as (k' & HI & HE & _). cbn [fst] in HE. subst k'.
      apply in_or_app. left. exact HI.
    + apply in_map_iff in HE as ([nm k'] & [= <- <-] & HI). eexists. split; [apply AR|]. rewrite !map_length, !AL. reflexivity.
    + exfalso. apply NV. apply texts_shape in EX as (b & EX & _). apply in_or_app. right. apply in_or_app. left.
      assert (HK : In k (map fst t)) by (apply in_map_iff; exists (k, v); auto). rewrite EX in HK. apply filter_In in HK. apply HK.
Qed.
End Cell.
