(** Every decoder gives elements whose attributes json.dumps knows, or a jet. *)
From Coq Require Import ZArith Lia ZifyBool ZifyNat String SpecFloat.
From Verif Require Import Base BaseFacts Floats Strings StringsFacts Structs Tools VgfBase VgfTables Utf8Facts VgfRead VgfLoopFacts Tca Json SpecJson JsonFacts JsonElemFacts.
From Coq Require Import List.
Import ListNotations.
Open Scope string_scope.
Open Scope list_scope.
Open Scope Z_scope.

(** ** Texts *)
Definition bytes_ok (l : bytes) : Prop := Forall (fun b => 0 <= b < 256) l.
Lemma valid_ok l : valid_bytes l = true -> bytes_ok l.
Proof. unfold valid_bytes, bytes_ok. rewrite forallb_forall. intros H. apply Forall_forall. intros b B. specialize (H b B). unfold is_byte in H. lia. Qed.
Lemma firstn_all {A} (P : A -> Prop) l : Forall P l -> forall n, Forall P (firstn n l).
Proof. induction 1; intros [|n]; cbn [firstn]; constructor; auto. Qed.
Lemma skipn_all {A} (P : A -> Prop) l : Forall P l -> forall n, Forall P (skipn n l).
Proof. induction 1; intros [|n]; cbn [skipn]; auto. Qed.
Lemma slice_all {A} (P : A -> Prop) l a b : Forall P l -> Forall P (py_slice l a b).
Proof. intros F. unfold py_slice. apply firstn_all, skipn_all, F. Qed.
Lemma upto_all {A} (P : A -> Prop) l a : Forall P l -> Forall P (py_upto l a).
Proof. intros F. unfold py_upto. first [apply slice_all, F|apply firstn_all, F]. Qed.
Lemma step_scalar b r c n : bytes_ok (b :: r) -> utf8_step b r = UChar c n -> scalar c.
Proof.
  intros V H. pose proof (Forall_inv V) as B. cbv beta in B. unfold utf8_step in H. unfold between, cont, second_ok, scalar in *.
  destruct (b <? 128) eqn:?; [injection H as <- <-; left; lia|].
  destruct ((194 <=? b) && (b <=? 223)) eqn:?.
  { destruct r as [|b1 r]; [discriminate|]. destruct ((128 <=? b1) && (b1 <=? 191)) eqn:?; [|discriminate]. assert (c = (b - 192) * 64 + (b1 - 128)) by congruence. left. lia. }
  destruct ((224 <=? b) && (b <=? 239)) eqn:?.
  { destruct r as [|b1 [|b2 r]]; try discriminate; [destruct (if b =? 224 then _ else _); discriminate|].
    match type of H with (if ?x then _ else _) = _ => destruct x eqn:S; [|discriminate] end.
    destruct ((128 <=? b2) && (b2 <=? 191)) eqn:?; [|discriminate]. assert (c = (b - 224) * 4096 + (b1 - 128) * 64 + (b2 - 128)) by congruence.
    unfold between, cont in S. destruct (Z.eqb_spec b 224); [left; lia|]. destruct (Z.eqb_spec b 237); [left; lia|]. replace (b =? 240) with false in S by lia. replace (b =? 244) with false in S by lia. destruct (Z.ltb_spec b 237); [left; lia|right; lia]. }
  destruct ((240 <=? b) && (b <=? 244)) eqn:?; [|discriminate].
  destruct r as [|b1 r]; [discriminate|]. match type of H with (if ?x then _ else _) = _ => destruct x eqn:S; [|discriminate] end.
  destruct r as [|b2 r]; [discriminate|]. destruct ((128 <=? b2) && (b2 <=? 191)) eqn:?; [|discriminate].
  destruct r as [|b3 r]; [discriminate|]. destruct ((128 <=? b3) && (b3 <=? 191)) eqn:?; [|discriminate].
  assert (c = (b - 240) * 262144 + (b1 - 128) * 4096 + (b2 - 128) * 64 + (b3 - 128)) by congruence.
  unfold between, cont in S. replace (b =? 224) with false in S by lia. replace (b =? 237) with false in S by lia. right. destruct (Z.eqb_spec b 240); [lia|]. destruct (Z.eqb_spec b 244); lia.
Qed.
Lemma strict_text f : forall l s, bytes_ok l -> utf8_strict f l = Ok s -> text s.
Proof.
  induction f as [|f IH]; intros [|b r] s V H; cbn [utf8_strict] in H; try (injection H as <-; constructor).
  destruct (utf8_step b r) eqn:E; [|discriminate]. destruct (utf8_strict f (skipn len (b :: r))) eqn:T; cbn [bind] in H; [|discriminate]. injection H as <-. constructor; [exact (step_scalar _ _ _ _ V E)|]. eapply IH; [|exact T]. apply skipn_all, V.
Qed.
Lemma ignore_text f : forall l, bytes_ok l -> text (utf8_ignore f l).
Proof.
  induction f as [|f IH]; intros [|b r] V; cbn [utf8_ignore]; try constructor.
  destruct (utf8_step b r) eqn:E; [constructor; [exact (step_scalar _ _ _ _ V E)|]|]; apply IH; apply skipn_all, V.
Qed.
Lemma lstrip_text s : text s -> text (ulstrip s).
Proof. induction 1 as [|c s C F IH]; cbn [ulstrip]; [constructor|]. destruct (uspace c); [exact IH|constructor; assumption]. Qed.
Lemma strip_text s : text s -> text (ustrip s).
Proof. intros T. unfold ustrip, text. apply Forall_rev. apply lstrip_text. apply Forall_rev. apply lstrip_text. exact T. Qed.
Lemma null_text l : bytes_ok l -> text (decode_strip_null l).
Proof. intros V. unfold decode_strip_null. apply strip_text. apply upto_all. apply ignore_text. exact V. Qed.
Lemma dollars_text n : forall s, (length s <= n)%nat -> text s -> text (replace_dollars s).
Proof.
  induction n as [|n IH]; intros [|c s] L T; try constructor; [cbn in L; lia|]. cbn [replace_dollars length] in *. pose proof (Forall_inv T) as C. pose proof (Forall_inv_tail T) as T'.
  destruct (c =? 36); [|constructor; [exact C|apply IH; [lia|exact T']]]. destruct s as [|d s]; [exact T|]. cbn [length] in L.
  destruct (d =? 36); constructor; [left; lia| |exact C|]; apply IH; cbn [length]; try lia; [exact (Forall_inv_tail T')|exact T'].
Qed.
Lemma clean_ok s : text s -> text (clean_text s).
Proof. intros T. unfold clean_text. apply strip_text. apply (dollars_text (length s)); [lia|exact T]. Qed.
Lemma before_ok l : bytes_ok l -> bytes_ok (before_nul l).
Proof. induction 1 as [|b l B F IH]; cbn [before_nul]; [constructor|]. destruct (b =? 0); constructor; assumption. Qed.

(** ** What reading gives *)
Definition post {A} (m : rd A) (P : A -> Prop) : Prop :=
  forall b a b', bytes_ok (io_data b) -> m b = Ok (a, b') -> bytes_ok (io_data b') /\ P a.
Lemma post_bind {A B} (m : rd A) (f : A -> rd B) P Q : post m P -> (forall a, P a -> post (f a) Q) -> post (bindR m f) Q.
Proof. intros M F b x b' V H. unfold bindR in H. destruct (m b) as [[a b1]|] eqn:E; [|discriminate]. destruct (M _ _ _ V E) as (V1 & PA). exact (F a PA b1 x b' V1 H). Qed.
Lemma post_ret {A} (a : A) (P : A -> Prop) : P a -> post (retR a) P.
Proof. intros H b x b' V [= <- <-]. auto. Qed.
Lemma post_err {A} x (P : A -> Prop) : post (errR x) P.
Proof. intros b a b' V H. discriminate. Qed.
Lemma post_lift {A} (r : res A) (P : A -> Prop) : (forall a, r = Ok a -> P a) -> post (liftR r) P.
Proof. intros H b a b' V E. unfold liftR in E. destruct r as [x|]; [|discriminate]. injection E as <- <-. auto. Qed.
Lemma post_any {A} (m : rd A) (P : A -> Prop) : post m P -> post m (fun _ => True).
Proof. intros M b a b' V H. destruct (M _ _ _ V H). auto. Qed.
Lemma post_weaken {A} (m : rd A) (P Q : A -> Prop) : post m P -> (forall a, P a -> Q a) -> post m Q.
Proof. intros M W b a b' V H. destruct (M _ _ _ V H). auto. Qed.
Lemma post_skip n : post (r_skip n) (fun _ => True).
Proof. intros b a b' V [= <- <-]. auto. Qed.
Lemma post_read n : post (r_read n) bytes_ok.
Proof. intros b a b' V H. unfold r_read, io_read in H. injection H as <- <-. split; [exact V|]. unfold io_get_next. apply slice_all. exact V. Qed.
Lemma post_mark : post r_mark (fun _ => True).
Proof. intros b a b' V H. unfold r_mark, io_set_mark in H. injection H as <- <-. auto. Qed.
Lemma post_jump m : post (r_jump m) (fun _ => True).
Proof. intros b a b' V H. unfold r_jump, io_jump_to in H. destruct (py_index (io_marks b) m) eqn:E; cbn [bind] in H; [|discriminate]. injection H as <- <-. auto. Qed.
Lemma post_uint n : post (r_uint n) (fun _ => True).
Proof. intros b a b' V H. unfold r_uint, io_read_int, io_read in H. injection H as <- <-. auto. Qed.
Lemma post_array {A} (c : bytes -> A) n : post (r_array c n) (Forall (fun x => exists l, x = c l)).
Proof.
  intros b a b' V H. unfold r_array, io_read_array in H. destruct ((_ <? 0) || _); [discriminate|]. destruct (_ && _); [discriminate|]. destruct (_ <? _); [discriminate|].
  injection H as <- <-. split; [exact V|]. apply Forall_forall. intros x X. apply in_map_iff in X as (i & <- & _). eexists. reflexivity.
Qed.
Lemma post_repeat {A} n (m : rd A) P : post m P -> post (repeatR n m) (Forall P).
Proof. intros M. induction n as [|n IH]; cbn [repeatR]; [apply post_ret; constructor|]. eapply post_bind; [exact M|]. intros a PA. eapply post_bind; [exact IH|]. intros r PR. apply post_ret. constructor; assumption. Qed.
Lemma post_text n : post (read_text n) text.
Proof. unfold read_text. eapply post_bind; [apply post_read|]. intros l V. apply post_lift. intros s E. unfold decode_strict in E. eapply strict_text; [apply before_ok, V|exact E]. Qed.

(** Named structs *)
Definition shaped (c : fmtc) (v : pyval) : Prop :=
  match c with FInt | FUByte | FSByte => exists z, v = VInt z | FFloat => exists x, v = VFloat x | FStr _ => exists l, v = VBytes l /\ bytes_ok l | FPad _ => False end.
Lemma unpack_shaped e t : forall l, bytes_ok l -> Forall2 (fun f v => shaped (field_fmt f) v) (named t) (unpack_vals e (formats t) l).
Proof.
  induction t as [|[[n f] c] t IH]; intros l V; [constructor|]. unfold named, formats in *. cbn [map filter field_fmt fst snd].
  destruct f; cbn [is_pad negb unpack_vals field_fmt fst snd]; try (constructor; [cbn [shaped field_fmt fst snd unpack_item]|]); try (eexists; reflexivity); try (apply IH, skipn_all, V).
  eexists. split; [reflexivity|]. apply firstn_all, V.
Qed.
Definition plain_field (f : VgfTables.field) : bool := match f with (_, FStr _, CText) => true | (_, FStr _, _) => false | _ => true end.
Lemma create_plain var fs : forall vals x, forallb plain_field fs = true -> Forall2 (fun f v => shaped (field_fmt f) v) fs vals -> create var fs vals = Ok x -> plains x.
Proof.
  induction fs as [|[[n f] c] fs IH]; intros vals x T F H; destruct vals as [|v vals]; cbn [create] in H; try (injection H as <-; constructor). inversion F as [|? ? ? ? S F']; subst. cbn [forallb] in T. apply andb_prop in T as [T1 T2].
  destruct (convert c v) as [y|] eqn:C; cbn [bind] in H; [|discriminate]. destruct (create var fs vals) as [z|] eqn:R; cbn [bind] in H; [|discriminate]. injection H as <-.
  constructor; [|exact (IH _ _ T2 F' R)]. cbn [snd]. clear -T1 S C. unfold field_fmt in S. cbn [fst snd] in S.
  destruct f; cbn [shaped] in S; try contradiction; destruct S as (w & S); try (subst v; destruct c; cbn [convert] in C; try discriminate; try (injection C as <-; exact I)).
  - destruct (swap32 w); cbn [bind] in C; [|discriminate]. injection C as <-. exact I.
  - destruct (int_of_float w); cbn [bind] in C; [|discriminate]. injection C as <-. exact I.
  - destruct (swap32 w); cbn [bind] in C; [|discriminate]. injection C as <-. exact I.
  - destruct (swap32 w); cbn [bind] in C; [|discriminate]. injection C as <-. exact I.
  - destruct S as (-> & V). destruct c; cbn [plain_field] in T1; try discriminate. cbn [convert] in C. injection C as <-. apply null_text. exact V.
Qed.
Lemma post_struct e t : post (r_struct e (formats t)) (fun vals => Forall2 (fun f v => shaped (field_fmt f) v) (named t) vals).
Proof.
  intros b a b' V H. unfold r_struct, io_read_struct, struct_unpack_from in H.
  assert (G : forall k, Forall2 (fun f v => shaped (field_fmt f) v) (named t) (unpack_vals e (formats t) (skipn k (io_data b)))) by (intros k; apply unpack_shaped, skipn_all, V).
  destruct (_ <? 0); [destruct (0 <? _); [discriminate|destruct (_ + _ <? 0); [discriminate|]]|destruct (_ <? _); [discriminate|]]; injection H as <- <-; split; auto.
Qed.
Lemma post_named e var t : forallb plain_field (named t) = true -> post (r_named e var t) plains.
Proof. intros T. unfold r_named. eapply post_bind; [apply post_struct|]. intros vals F. apply post_lift. intros x C. exact (create_plain _ _ _ _ T F C). Qed.
(** The arguments of constructors *)
Definition plain_source (s : string * source) : bool := match snd s with KeyOr _ (VInt _) | KeyOr _ (VFloat _) | KeyOr _ (VText []) | Key _ => true | _ => false end.
Lemma lookup_plain k e v : plains e -> lookup k e = Some v -> plain_ok v.
Proof. induction 1 as [|[n x] e P _ IH]; cbn [lookup]; [discriminate|]. destruct (String.eqb n k); [intros [= <-]; exact P|exact IH]. Qed.
Lemma select_plain sel e : forall a, forallb plain_source sel = true -> plains e -> select sel e = Ok a -> plains a /\ map fst a = map fst sel.
Proof.
  induction sel as [|[n src] sel IH]; intros a T P H; cbn [select] in H; [injection H as <-; split; [constructor|reflexivity]|]. cbn [forallb] in T. apply andb_prop in T as [T1 T2].
  match type of H with bind ?m _ = _ => destruct m as [v|] eqn:E end; cbn [bind] in H; [|discriminate]. destruct (select sel e) as [r|] eqn:R; cbn [bind] in H; [|discriminate]. injection H as <-.
  destruct (IH r T2 P eq_refl) as (PR & NR). split; [|cbn [map fst]; congruence]. constructor; [|exact PR]. cbn [snd]. unfold plain_source in T1. cbn [snd] in T1. destruct src as [k|k d].
  - destruct (lookup k e) eqn:L; [|discriminate]. injection E as <-. exact (lookup_plain _ _ _ P L).
  - injection E as <-. destruct (lookup k e) eqn:L; [exact (lookup_plain _ _ _ P L)|]. destruct d as [| | |s|]; try discriminate; try exact I. destruct s; [constructor|discriminate].
Qed.
Definition chosen (sel : list (string * source)) (a : env) : Prop := plains a /\ map fst a = map fst sel.
Lemma post_select sel e : forallb plain_source sel = true -> plains e -> post (liftR (select sel e)) (chosen sel).
Proof. intros T P. apply post_lift. intros a H. exact (select_plain sel e a T P H). Qed.

(** ** Elements *)
Fixpoint distinct (l : list str) : bool := match l with [] => true | x :: r => negb (existsb (str_eqb x) r) && distinct r end.
Lemma str_eqb_refl s : str_eqb s s = true.
Proof. induction s as [|c s IH]; [reflexivity|]. cbn [str_eqb]. rewrite Z.eqb_refl. exact IH. Qed.
Lemma distinct_ok l : distinct l = true -> NoDup l.
Proof.
  induction l as [|x l IH]; intros H; [constructor|]. cbn [distinct] in H. apply andb_prop in H as [H1 H2]. constructor; [|exact (IH H2)]. intros I.
  assert (existsb (str_eqb x) l = true) by (apply existsb_exists; exists x; split; [exact I|apply str_eqb_refl]). rewrite H in H1. discriminate.
Qed.
Definition no_enum (kind : string) (sel : list (string * source)) : bool := forallb (fun s => match enumeration kind (fst s) with None => true | _ => false end) sel.
Lemma chosen_ok kind sel a : no_enum kind sel = true -> chosen sel a -> Forall (attr_ok kind) a.
Proof.
  intros N (P & E). unfold no_enum in N. rewrite forallb_forall in N. unfold plains in P. rewrite Forall_forall in *. intros p I. unfold attr_ok. specialize (P p I). cbv beta in P.
  assert (J : In (fst p) (map fst sel)) by (rewrite <- E; apply in_map, I). apply in_map_iff in J as (s & ES & J). specialize (N s J). rewrite ES in N. destruct (enumeration kind (fst p)); [discriminate|exact P].
Qed.
Lemma enum_member kind n lo hi z v : enum lo hi z = Ok v -> (exists names, enumeration kind n = Some (lo, names) /\ Z.of_nat (length names) = hi - lo + 1) -> attr_ok kind (n, v).
Proof.
  intros H (names & E & L). unfold enum, between in H. destruct ((lo <=? z) && (z <=? hi)) eqn:B; [|discriminate]. injection H as <-. unfold attr_ok. cbn [fst snd]. rewrite E.
  destruct (nth_error names (Z.to_nat (z - lo))) as [s|] eqn:N; [exists (Z.to_nat (z - lo)), s; split; [f_equal; lia|exact N]|]. apply nth_error_None in N. lia.
Qed.
Definition props (kind : string) (names : list string) (p : env) : Prop := Forall (attr_ok kind) p /\ map fst p = names.
Lemma line_props kind z p : (kind = "CircleElement" \/ kind = "LineElement") -> line_properties z = Ok p -> props kind ["line_modifier"; "line_style"] p.
Proof.
  intros K H. unfold line_properties in H. destruct (digit_at _ 0) as [m|]; cbn [bind] in H; [|discriminate]. destruct (digit_at _ 1) as [d|]; cbn [bind] in H; [|discriminate]. destruct (enum 0 9 d) as [s|] eqn:E; cbn [bind] in H; [|discriminate]. injection H as <-.
  split; [|reflexivity]. constructor; [exact I|]. constructor; [|constructor]. eapply enum_member; [exact E|]. exists LineType_names. destruct K as [->| ->]; split; reflexivity.
Qed.
Lemma front_props z p : front_properties z = Ok p -> props "FrontElement" ["front_type"; "front_intensity"; "front_character"] p.
Proof.
  intros H. unfold front_properties in H. destruct (digit_at _ 0) as [m|]; cbn [bind] in H; [|discriminate]. destruct (enum 0 9 m) as [s|] eqn:E; cbn [bind] in H; [|discriminate].
  destruct (digit_at _ 1) as [m1|]; cbn [bind] in H; [|discriminate]. destruct (enum 0 9 m1) as [s1|] eqn:E1; cbn [bind] in H; [|discriminate].
  destruct (digit_at _ 2) as [m2|]; cbn [bind] in H; [|discriminate]. destruct (enum 0 9 m2) as [s2|] eqn:E2; cbn [bind] in H; [|discriminate]. injection H as <-.
  split; [|reflexivity]. repeat (apply Forall_cons); [eapply enum_member; [exact E|exists FrontType_names; split; reflexivity]|eapply enum_member; [exact E1|exists FrontIntensity_names; split; reflexivity]|eapply enum_member; [exact E2|exists FrontCharacter_names; split; reflexivity]|constructor].
Qed.
Lemma list_props a b p : list_properties a b = Ok p -> props "ListElement" ["list_type_name"; "marker_name"] p.
Proof.
  intros H. unfold list_properties in H. destruct (enum 1 5 a) as [x|] eqn:E; cbn [bind] in H; [|discriminate]. destruct (enum 0 24 b) as [y|] eqn:E1; cbn [bind] in H; [|discriminate]. injection H as <-.
  split; [|reflexivity]. repeat (apply Forall_cons); [eapply enum_member; [exact E|exists ListType_names; split; reflexivity]|eapply enum_member; [exact E1|exists MarkerType_names; split; reflexivity]|constructor].
Qed.
Lemma special_props a p : special_line_properties a = Ok p -> props "SpecialLineElement" ["line_style"] p.
Proof.
  intros H. unfold special_line_properties in H. destruct (enum 1 26 a) as [x|] eqn:E; cbn [bind] in H; [|discriminate]. injection H as <-.
  split; [|reflexivity]. apply Forall_cons; [eapply enum_member; [exact E|exists SpecialLineType_names; split; reflexivity]|constructor].
Qed.
Lemma watch_props a p : watch_properties a = Ok p -> props "WatchBoxElement" ["marker_name"] p.
Proof.
  intros H. unfold watch_properties in H. destruct (enum 0 24 a) as [x|] eqn:E; cbn [bind] in H; [|discriminate]. injection H as <-.
  split; [|reflexivity]. apply Forall_cons; [eapply enum_member; [exact E|exists MarkerType_names; split; reflexivity]|constructor].
Qed.

(** Coordinates *)
Definition located (c : bool) (x : coords) : Prop := match x with CoNone => c = false | _ => c = true end.
Lemma located_names name c x : located c x -> map fst (coords_said name x) = if c then [name] else [].
Proof. destruct x; intros ->; reflexivity. Qed.
Definition both (p : coords * coords) : Prop := located true (fst p) /\ located true (snd p).
Lemma post_latlon n : post (get_latlon n) both.
Proof.
  unfold get_latlon. destruct (_ <? _); [apply post_err|]. destruct (_ <=? _); [|apply post_ret; split; reflexivity].
  eapply post_bind; [apply post_array|]. intros la _. eapply post_bind; [apply post_array|]. intros lo _. apply post_ret. split; reflexivity.
Qed.
Lemma post_raw n : post (raw_array n) (located true).
Proof. unfold raw_array. eapply post_bind; [apply post_array|]. intros l _. apply post_ret. reflexivity. Qed.
Lemma post_close c : post (liftR (close_coords c)) (located true).
Proof. apply post_lift. intros x H. destruct c as [l| |]; cbn [close_coords] in H; try discriminate. destruct (close_list l); cbn [bind] in H; [|discriminate]. injection H as <-. reflexivity. Qed.
Lemma post_flip c : post (liftR (flip_coords c)) (located true).
Proof. apply post_lift. intros x H. destruct c as [l| |]; cbn [flip_coords] in H; try discriminate. injection H as <-. reflexivity. Qed.

(** A whole element *)
Definition hdr_names : list string :=
  ["delete"; "vg_type"; "vg_class"; "filled"; "closed"; "smooth"; "version"; "group_type"; "group_number"; "major_color"; "minor_color"; "record_size"; "min_lat"; "min_lon"; "max_lat"; "max_lon"].
Definition fits_together (kind : string) (sel : list (string * source)) (ps an : list string) (c : bool) : bool :=
  negb (String.eqb kind "JetElement") && no_enum kind sel &&
  distinct (map codes (hdr_names ++ (map fst sel ++ ps) ++
     match text_list kind with Some n => [n] | None => if String.eqb kind "TropicalCycloneAdvisoryElement" then ["ww"] else [] end ++
     an ++ (if c then ["lat"] else []) ++ (if c then ["lon"] else []))).
Lemma element_ready kind h sel a ps p subs an arrs c lat lon :
  fits_together kind sel ps an c = true -> chosen sel a -> props kind ps p -> subs_ok kind subs -> map fst arrs = an -> Forall (fun x => Forall number (snd x)) arrs ->
  located c lat -> located c lon -> ready (mk_velem kind h (a ++ p) subs arrs lat lon).
Proof.
  intros T C (PO & PN) S AN AO LA LO. unfold fits_together in T. apply andb_prop in T as [T T3]. apply andb_prop in T as [T1 T2].
  unfold ready. cbn [ve_kind ve_attrs ve_subs ve_arrs]. split; [intros ->; discriminate|]. split; [apply Forall_app; split; [exact (chosen_ok _ _ _ T2 C)|exact PO]|]. split; [exact S|]. split; [exact AO|].
  apply distinct_ok in T3. unfold names_of. cbn [ve_hdr ve_attrs ve_arrs ve_lat ve_lon]. unfold list_names. cbn [ve_kind]. rewrite (located_names "lat" c lat LA), (located_names "lon" c lon LO), (map_app fst a p), PN, AN. destruct C as (_ & ->). exact T3.
Qed.
Lemma element_plain kind h sel a subs c lat lon :
  fits_together kind sel [] [] c = true -> chosen sel a -> subs_ok kind subs -> located c lat -> located c lon -> ready (mk_velem kind h a subs [] lat lon).
Proof.
  intros T C S LA LO. rewrite <- (app_nil_r a). eapply element_ready; [exact T|exact C|split; [constructor|reflexivity]|exact S|reflexivity|constructor|exact LA|exact LO].
Qed.
Definition jsonable (e : velem) : Prop := ve_kind e = "JetElement" \/ ready e.
Lemma one e : ready e -> Forall jsonable [e].
Proof. intros R. constructor; [right; exact R|constructor]. Qed.

Ltac named_step e P := eapply post_bind; [apply post_named; vm_compute; reflexivity|intros e P].
Ltac latlon_step L := eapply post_bind; [apply post_latlon|]; intros [lat lon] L; destruct L as (?LA & ?LO); cbn [fst snd] in LA, LO.
Ltac select_step a C := eapply post_bind; [apply post_select; [vm_compute; reflexivity|]|intros a C].
Ltac skip_step := eapply post_bind; [apply post_skip|intros _ _].
Lemma plains_app a b : plains a -> plains b -> plains (a ++ b).
Proof. intros A B. apply Forall_app. auto. Qed.
Lemma plains_text n s : text s -> plains [(n, VText s)].
Proof. intros T. constructor; [exact T|constructor]. Qed.
Ltac plain_env := repeat first [assumption|apply plains_app|apply plains_text|apply clean_ok].

Lemma post_fronts h : post (dec_fronts h) (Forall jsonable).
Proof.
  unfold dec_fronts. named_step e P. latlon_step L. select_step a C; [exact P|]. eapply post_bind; [apply post_lift; exact (front_props _)|]. intros p PP. apply post_ret. apply one.
  eapply element_ready; [|exact C|exact PP|reflexivity|reflexivity|constructor|exact LA|exact LO]. vm_compute. reflexivity.
Qed.
Lemma post_symbols h : post (dec_symbols h) (Forall jsonable).
Proof. unfold dec_symbols. named_step e P. select_step a C; [exact P|]. apply post_ret, one. eapply (element_plain _ _ _ _ _ false); [|exact C|reflexivity|reflexivity|reflexivity]. vm_compute. reflexivity. Qed.
Lemma post_circles h : post (dec_circles h) (Forall jsonable).
Proof.
  unfold dec_circles. named_step e P. latlon_step L. select_step a C; [exact P|]. eapply post_bind; [apply post_lift; exact (fun p => line_props "CircleElement" _ p (or_introl eq_refl))|]. intros p PP. apply post_ret. apply one.
  eapply element_ready; [|exact C|exact PP|reflexivity|reflexivity|constructor|exact LA|exact LO]. vm_compute. reflexivity.
Qed.
Lemma post_closing (t : bool) lat lon : located true lat -> located true lon -> post (if t then x <~ liftR (close_coords lat) ;; y <~ liftR (close_coords lon) ;; retR (x, y) else retR (lat, lon)) both.
Proof.
  intros LA LO. destruct t; [|apply post_ret; split; assumption]. eapply post_bind; [apply post_close|]. intros x X. eapply post_bind; [apply post_close|]. intros y Y. apply post_ret. split; assumption.
Qed.
Lemma post_flipping (t : bool) lat lon : located true lat -> located true lon -> post (if t then x <~ liftR (flip_coords lat) ;; y <~ liftR (flip_coords lon) ;; retR (x, y) else retR (lat, lon)) both.
Proof.
  intros LA LO. destruct t; [|apply post_ret; split; assumption]. eapply post_bind; [apply post_flip|]. intros x X. eapply post_bind; [apply post_flip|]. intros y Y. apply post_ret. split; assumption.
Qed.
Lemma post_lines h : post (dec_lines h) (Forall jsonable).
Proof.
  unfold dec_lines. named_step e P. cbv zeta. latlon_step L.
  assert (G : post ('(lat, lon) <~ (if negb (vh_closed h =? 0) && (2 <? geti e "line.number_points") then x <~ liftR (close_coords lat) ;; y <~ liftR (close_coords lon) ;; retR (x, y) else retR (lat, lon)) ;;
      a <~ liftR (select LineElement_sel e) ;; p <~ liftR (line_properties (geti e "line.line_type")) ;; retR [mk_velem "LineElement" h (a ++ p) [] [] lat lon]) (Forall jsonable)).
  { eapply post_bind; [apply post_closing; assumption|]. clear lat lon LA LO. intros [lat lon] [LA LO]. cbn [fst snd] in *. select_step a C; [exact P|]. eapply post_bind; [apply post_lift; exact (fun p => line_props "LineElement" _ p (or_intror eq_refl))|]. intros p PP. apply post_ret. apply one.
    eapply element_ready; [|exact C|exact PP|reflexivity|reflexivity|constructor|exact LA|exact LO]. vm_compute. reflexivity. }
  destruct lat; [exact G|apply post_ret; constructor|exact G].
Qed.
Lemma post_special_lines h : post (dec_special_lines h) (Forall jsonable).
Proof.
  unfold dec_special_lines. named_step e P. cbv zeta. latlon_step L.
  destruct lat; [|apply post_ret; constructor|discriminate].
  eapply post_bind; [apply post_closing; assumption|]. clear l lon LA LO. intros [lat lon] [LA LO]. cbn [fst snd] in *. eapply post_bind; [apply post_flipping; assumption|]. clear lat lon LA LO. intros [lat lon] [LA LO]. cbn [fst snd] in *. 
  select_step a C; [exact P|]. eapply post_bind; [apply post_lift; exact (special_props _)|]. intros p PP. apply post_ret. apply one.
  eapply element_ready; [|exact C|exact PP|reflexivity|reflexivity|constructor|exact LA|exact LO]. vm_compute. reflexivity.
Qed.
Lemma items_ok kind name l : text_list kind = Some name -> Forall text l -> subs_ok kind (VgfRead.items name l).
Proof.
  intros K T. unfold subs_ok. rewrite K. apply Forall_forall. intros s S. unfold VgfRead.items in S. apply in_map_iff in S as (t & <- & I). rewrite Forall_forall in T. exists "value", t. split; [reflexivity|exact (T t I)].
Qed.
Lemma post_lists h : post (dec_lists h) (Forall jsonable).
Proof.
  unfold dec_lists. named_step e P. cbv zeta. eapply post_bind; [apply post_repeat, post_text|]. intros l T. skip_step. eapply post_bind; [apply post_raw|]. intros lat LA. skip_step. eapply post_bind; [apply post_raw|]. intros lon LO. skip_step.
  select_step a C; [exact P|]. eapply post_bind; [apply post_lift; exact (list_props _ _)|]. intros p PP. apply post_ret. apply one.
  eapply element_ready; [|exact C|exact PP|apply items_ok; [reflexivity|exact T]|reflexivity|constructor|exact LA|exact LO]. vm_compute. reflexivity.
Qed.
Lemma post_dtext h : post (dec_text h) (Forall jsonable).
Proof.
  unfold dec_text. named_step e P. eapply post_bind; [apply post_text|]. intros s T. select_step a C; [plain_env|]. apply post_ret, one. eapply (element_plain _ _ _ _ _ false); [|exact C|reflexivity|reflexivity|reflexivity]. vm_compute. reflexivity.
Qed.
Lemma post_special_text h : post (dec_special_text h) (Forall jsonable).
Proof.
  unfold dec_special_text. named_step e P. eapply post_bind; [apply post_text|]. intros s T. select_step a C; [plain_env|]. apply post_ret, one. eapply (element_plain _ _ _ _ _ false); [|exact C|reflexivity|reflexivity|reflexivity]. vm_compute. reflexivity.
Qed.
Lemma post_tracks h : post (dec_tracks h) (Forall jsonable).
Proof.
  unfold dec_tracks. eapply post_bind; [apply post_mark|]. intros mk _. named_step e0 P0. named_step sz PS. cbv zeta.
  eapply (post_bind _ _ (fun p => plains (fst p) /\ exists x, snd p = VFloat x)).
  { destruct (_ || _); [|destruct (_ || _)].
    - eapply post_bind; [apply post_jump|]. intros _ _. named_step e1 P1. apply post_ret. split; [exact P1|eexists; reflexivity].
    - eapply post_bind; [apply post_jump|]. intros _ _. named_step e1 P1. apply post_ret. split; [exact P1|eexists; reflexivity].
    - apply post_ret. split; [exact P0|eexists; reflexivity]. }
  intros [e size] [P [x X]]. cbn [fst snd] in P, X. subst size. eapply post_bind; [apply post_repeat, post_text|]. intros l T. skip_step. latlon_step L. skip_step.
  select_step a C; [apply plains_app; [exact P|repeat constructor]|]. apply post_ret, one. eapply (element_plain _ _ _ _ _ true); [|exact C|apply items_ok; [reflexivity|exact T]|exact LA|exact LO]. vm_compute. reflexivity.
Qed.
Lemma post_sigmet h : post (dec_sigmet h) (Forall jsonable).
Proof.
  unfold dec_sigmet. eapply (post_bind _ _ plains); [destruct (_ =? 0); [|destruct (_ =? 1); [|apply post_err]]; apply post_named; vm_compute; reflexivity|]. intros e P.
  eapply post_bind; [apply post_raw|]. intros lat LA. eapply post_bind; [apply post_raw|]. intros lon LO. select_step a C; [exact P|]. apply post_ret, one. eapply (element_plain _ _ _ _ _ true); [|exact C|reflexivity|exact LA|exact LO]. vm_compute. reflexivity.
Qed.
Lemma post_ccf h : post (dec_ccf h) (Forall jsonable).
Proof.
  unfold dec_ccf. named_step e1 P1. named_step e2 P2. named_step e3 P3. eapply post_bind; [apply post_text|]. intros s T. cbv zeta. latlon_step L. select_step a C; [plain_env|]. skip_step. apply post_ret, one. eapply (element_plain _ _ _ _ _ true); [|exact C|reflexivity|exact LA|exact LO]. vm_compute. reflexivity.
Qed.
Lemma post_volcanoes h : post (dec_volcanoes h) (Forall jsonable).
Proof. unfold dec_volcanoes. named_step e P. select_step a C; [exact P|]. apply post_ret, one. eapply (element_plain _ _ _ _ _ false); [|exact C|reflexivity|reflexivity|reflexivity]. vm_compute. reflexivity. Qed.
Lemma post_winds h : post (dec_winds h) (Forall jsonable).
Proof. unfold dec_winds. named_step e P. select_step a C; [exact P|]. apply post_ret, one. eapply (element_plain _ _ _ _ _ false); [|exact C|reflexivity|reflexivity|reflexivity]. vm_compute. reflexivity. Qed.
Lemma post_ash h : post (dec_ash_clouds h) (Forall jsonable).
Proof.
  unfold dec_ash_clouds. named_step e1 P1. named_step e2 P2. eapply post_bind; [apply post_text|]. intros s T. skip_step. cbv zeta. latlon_step L. skip_step. select_step a C; [plain_env|]. apply post_ret, one. eapply (element_plain _ _ _ _ _ true); [|exact C|reflexivity|exact LA|exact LO]. vm_compute. reflexivity.
Qed.
Lemma post_gfa h : post (dec_gfa h) (Forall jsonable).
Proof.
  unfold dec_gfa. named_step e P.
  eapply (post_bind _ _ (Forall (fun x : env => exists k t, x = [(k, VText t)] /\ text t))).
  { apply post_repeat. unfold r_named. eapply post_bind; [apply post_struct|]. intros vals F. apply post_lift. intros x C. cbn [named filter field_fmt fst snd is_pad negb] in *.
    inversion F as [|? v ? ? S F']; subst. inversion F'; subst. cbn [field_fmt fst snd shaped] in S. destruct S as (l & -> & V). cbn in C. injection C as <-. do 2 eexists. split; [reflexivity|]. apply null_text, V. }
  intros bl B. latlon_step L. select_step a C; [exact P|]. apply post_ret, one. eapply (element_plain _ _ _ _ _ true); [|exact C| |exact LA|exact LO]; [vm_compute; reflexivity|].
  unfold subs_ok. cbn [text_list String.eqb Ascii.eqb Bool.eqb]. apply Forall_forall. intros s S. apply in_map_iff in S as (x & <- & I). rewrite Forall_forall in B. destruct (B x I) as (k & t & -> & T). exists k, t. auto.
Qed.
Lemma post_jet h : post (dec_jet h) (Forall jsonable).
Proof.
  unfold dec_jet. named_step e P. cbv zeta. latlon_step L. select_step la C; [exact P|]. skip_step. eapply post_bind; [apply post_uint|]. intros nb _.
  eapply (post_bind _ _ (fun _ => True)); [eapply post_any, post_repeat; named_step x PX; apply post_select; [vm_compute; reflexivity|exact PX]|]. intros barbs _. skip_step. eapply post_bind; [apply post_uint|]. intros nh _.
  eapply (post_bind _ _ (fun _ => True)); [eapply post_any, post_repeat; named_step x PX; apply post_select; [vm_compute; reflexivity|exact PX]|]. intros hashes _. skip_step.
  select_step a CA; [repeat constructor|]. apply post_ret. constructor; [left; reflexivity|constructor].
Qed.
Lemma post_ints n : post (int_array n) (Forall number).
Proof. unfold int_array. eapply post_weaken; [apply post_array|]. intros l. apply Forall_impl. intros v (x & ->). exact I. Qed.
Lemma coord_numbers c : Forall number (coord_vals c).
Proof. destruct c as [l| |]; try constructor. cbn [coord_vals]. apply Forall_forall. intros v V. apply in_map_iff in V as (x & <- & _). exact I. Qed.
Lemma post_counties v n : post (watch_counties v n) (fun l => map fst l = ["county_fips"; "county_status"; "county_lat"; "county_lon"] /\ Forall (fun x => Forall number (snd x)) l).
Proof.
  unfold watch_counties. cbv zeta. destruct (_ <=? 1); [apply post_ret; split; [reflexivity|repeat constructor]|].
  eapply (post_bind _ _ (Forall number)); [destruct (_ <=? 4); [|apply post_ret; constructor]; eapply post_bind; [apply post_ints|]; intros x X; skip_step; apply post_ret; exact X|]. intros st ST.
  eapply (post_bind _ _ (Forall number)); [destruct (4 <=? _); [|apply post_ret; constructor]; eapply post_bind; [apply post_ints|]; intros x X; skip_step; apply post_ret; exact X|]. intros fi FI.
  eapply post_bind; [apply post_raw|]. intros la _. eapply post_bind; [apply post_raw|]. intros lo _. skip_step. apply post_ret. split; [reflexivity|]. repeat (apply Forall_cons); cbn [snd]; [exact FI|exact ST|apply coord_numbers|apply coord_numbers|constructor].
Qed.
Lemma watch_tables v t : watch_info v = Some t -> forallb plain_field (named t) = true.
Proof.
  unfold watch_info. intros H. repeat (destruct (_ =? _) in H; [injection H as <-; vm_compute; reflexivity|]). discriminate.
Qed.
Lemma post_watches h : post (dec_watches h) (Forall jsonable).
Proof.
  unfold dec_watches. destruct (watch_info (vh_version h)) as [t|] eqn:W; [|apply post_err]. eapply post_bind; [apply post_named; exact (watch_tables _ _ W)|]. intros e P.
  eapply post_bind; [apply post_counties|]. intros cs (CN & CO). cbv zeta. eapply post_bind; [apply post_raw|]. intros lat LA. eapply post_bind; [apply post_raw|]. intros lon LO.
  eapply post_bind; [apply post_closing; assumption|]. clear lat lon LA LO. intros [lat lon] [LA LO]. cbn [fst snd] in *. select_step a C; [exact P|]. eapply post_bind; [apply post_lift; exact (watch_props _)|]. intros p PP. apply post_ret. apply one.
  eapply element_ready; [|exact C|exact PP|reflexivity|exact CN|exact CO|exact LA|exact LO]. vm_compute. reflexivity.
Qed.

(** ** Advisories *)
Lemma prefix_text p : forall s r, text s -> after_prefix p s = Some r -> text r.
Proof. induction p as [|a p IH]; intros [|c s] r T H; cbn [after_prefix] in H; try (injection H as <-; exact T); [discriminate|]. destruct (a =? c); [|discriminate]. exact (IH _ _ (Forall_inv_tail T) H). Qed.
Lemma lazily_text eos s : forall g, text s -> lazily eos s = Some g -> text g.
Proof.
  induction s as [|c s IH]; intros g T H; cbn [lazily] in H; [destruct eos; [injection H as <-; constructor|discriminate]|]. destruct (c =? 60); [injection H as <-; constructor|]. destruct (c =? 10); [destruct (_ && _); [injection H as <-; constructor|discriminate]|].
  destruct (lazily eos s) as [g'|]; [|discriminate]. injection H as <-. constructor; [exact (Forall_inv T)|]. exact (IH _ (Forall_inv_tail T) eq_refl).
Qed.
Lemma group_text eos s g : text s -> Tca.group eos s = Some g -> text g.
Proof.
  intros T H. destruct s as [|c s]; cbn [Tca.group] in H; [discriminate|]. destruct (c =? 10); [discriminate|]. destruct (lazily eos s) as [g'|] eqn:E; [|discriminate]. injection H as <-. constructor; [exact (Forall_inv T)|]. exact (lazily_text _ _ _ (Forall_inv_tail T) E).
Qed.
Lemma search_text eos tag s : forall g, text s -> search eos tag s = Some g -> text g.
Proof.
  induction s as [|c s IH]; intros g T H; cbn [search] in H.
  - destruct (after_prefix _ []) as [r|] eqn:E; [|discriminate]. destruct (Tca.group eos r) eqn:G; [|discriminate]. injection H as <-. exact (group_text _ _ _ (prefix_text _ _ _ T E) G).
  - destruct (after_prefix _ (c :: s)) as [r|] eqn:E; [|exact (IH _ (Forall_inv_tail T) H)]. destruct (Tca.group eos r) eqn:G; [injection H as <-; exact (group_text _ _ _ (prefix_text _ _ _ T E) G)|exact (IH _ (Forall_inv_tail T) H)].
Qed.
Lemma field_text eos tag s g : text s -> field eos tag s = Ok g -> text g.
Proof. intros T H. unfold field in H. destruct (search eos tag s) eqn:E; [|discriminate]. injection H as <-. exact (search_text _ _ _ _ T E). Qed.
Lemma bars_text s : text s -> Forall text (bars s).
Proof.
  unfold bars. induction 1 as [|c s C _ IH]; cbn [split_on fst]; [repeat constructor|]. destruct (split_on (Z.eqb 124) s) as [ps seps]. cbn [fst] in IH. destruct (124 =? c); [constructor; [constructor|exact IH]|].
  destruct ps as [|p ps]; cbn [fst]; (constructor; [constructor; [exact C|]|]); [constructor|constructor|exact (Forall_inv IH)|exact (Forall_inv_tail IH)].
Qed.
Lemma cut_all {A} (P : A -> Prop) sizes : forall l, Forall P l -> Forall (Forall P) (cut sizes l).
Proof. induction sizes as [|k r IH]; intros l F; cbn [cut]; constructor; [apply firstn_all, F|apply IH, skipn_all, F]. Qed.
Lemma split_all {A} (P : A -> Prop) l n r : Forall P l -> array_split l n = Ok r -> Forall (Forall P) r.
Proof. intros F H. unfold array_split in H. destruct (n <=? 0); [discriminate|]. injection H as <-. apply cut_all, F. Qed.
Lemma point_plain l p : Forall text l -> break_point l = Ok p -> exists b, p = ("break_point", b) /\ plains b.
Proof.
  intros T H. destruct l as [|la [|lo [|nm [|? ?]]]]; cbn [break_point] in H; try discriminate. destruct (py_float la) as [a|]; cbn [bind] in H; [|discriminate]. destruct (py_float lo) as [b|]; cbn [bind] in H; [|discriminate]. injection H as <-.
  eexists. split; [reflexivity|]. apply Forall_inv_tail, Forall_inv_tail, Forall_inv in T. repeat (apply Forall_cons); cbn [snd plain_ok]; try exact I; [exact T|constructor].
Qed.
Lemma points_plain ls : forall ps, Forall (Forall text) ls -> mapM break_point ls = Ok ps -> exists bs, ps = map (fun b => ("break_point", b)) bs /\ Forall plains bs.
Proof.
  induction ls as [|l ls IH]; intros ps T H; cbn [mapM] in H; [injection H as <-; exists []; split; [reflexivity|constructor]|].
  destruct (break_point l) as [p|] eqn:E; cbn [bind] in H; [|discriminate]. destruct (mapM break_point ls) as [qs|]; cbn [bind] in H; [|discriminate]. injection H as <-.
  destruct (point_plain _ _ (Forall_inv T) E) as (b & -> & B). destruct (IH _ (Forall_inv_tail T) eq_refl) as (bs & -> & BS). exists (b :: bs). split; [reflexivity|constructor; assumption].
Qed.
Lemma enum_plain lo hi z v : enum lo hi z = Ok v -> plain_ok v.
Proof. unfold enum. destruct (between lo hi z); [intros [= <-]; exact I|discriminate]. Qed.
Ltac bound H := match type of H with bind ?m _ = _ => let E := fresh "E" in let y := fresh "y" in destruct m as [y|] eqn:E; cbn [bind] in H; [|discriminate] end.
Lemma watch_plain txt n l : text txt -> watch txt n = Ok l -> exists w bs, l = ("ww", w) :: map (fun b => ("break_point", b)) bs /\ plains w /\ Forall plains bs.
Proof.
  intros T H. unfold watch in H. do 4 bound H. destruct (bars y) as [|sv [|at_ [|sg [|? ?]]]]; try discriminate. do 8 bound H. injection H as <-.
  assert (TB : Forall text (bars y2)) by (apply bars_text; eapply field_text; eassumption).
  destruct (points_plain _ _ (split_all _ _ _ _ TB E3) E4) as (bs & -> & B). do 2 eexists. split; [reflexivity|]. split; [|exact B].
  repeat (apply Forall_cons); cbn [snd]; try (eapply enum_plain; eassumption); [exact I|constructor].
Qed.
Lemma watches_plain txt ns : forall ww, text txt -> mapM (watch txt) ns = Ok ww -> exists ws, concat ww = watch_records ws /\ Forall (fun w => plains (fst w) /\ Forall plains (snd w)) ws.
Proof.
  induction ns as [|n ns IH]; intros ww T H; cbn [mapM] in H; [injection H as <-; exists []; split; [reflexivity|constructor]|]. do 2 bound H. injection H as <-.
  destruct (watch_plain _ _ _ T E) as (w & bs & -> & P & B). destruct (IH _ T eq_refl) as (ws & C & F). exists ((w, bs) :: ws). split; [|constructor; [split; assumption|exact F]]. unfold watch_records in *. cbn [map concat fst snd]. rewrite C. reflexivity.
Qed.
Definition tca_sel : list (string * source) :=
  map (fun n => (n, Key n)) ["storm_number"; "issue_status"; "basin"; "advisory_number"; "storm_name"; "storm_type"; "valid_time"; "timezone"; "text_lat"; "text_lon"; "text_font"; "text_size"; "text_width"; "number_ww"].
Lemma tca_jsonable h s l : text s -> tca_elements h s = Ok l -> Forall jsonable l.
Proof.
  intros T H. unfold tca_elements in H. cbv zeta in H. do 16 bound H. injection H as <-.
  assert (PI : forall v n, (s0 <- field false (codes n) s ;; v <- py_int s0 ;; Ok (VInt v)) = Ok v -> plain_ok v) by (intros v n H; do 2 bound H; injection H as <-; exact I).
  assert (PF : forall v n, (s0 <- field false (codes n) s ;; v <- py_float s0 ;; Ok (VFloat v)) = Ok v -> plain_ok v) by (intros v n H; do 2 bound H; injection H as <-; exact I).
  assert (PT : forall v n, (s0 <- field false (codes n) s ;; Ok (VText s0)) = Ok v -> plain_ok v) by (intros v n H; bound H; injection H as <-; eapply field_text; eassumption).
  apply Forall_forall. intros e0 I0. apply in_map_iff in I0 as (z0 & <- & _). right.
  match goal with W : mapM (watch s) _ = Ok ?ww |- _ => destruct (watches_plain _ _ _ T W) as (ws & EW & PW) end.
  eapply (element_plain _ _ tca_sel _ _ false); [vm_compute; reflexivity| | |reflexivity|reflexivity].
  - split; [|reflexivity]. repeat (apply Forall_cons); cbn [snd]; try (eapply PI; eassumption); try (eapply PF; eassumption); try (eapply PT; eassumption); [exact I|constructor].
  - unfold subs_ok. cbn [text_list String.eqb Ascii.eqb Bool.eqb]. exists ws. auto.
Qed.

(** ** Whole files *)
Definition given (x : decoded) : Prop := match x with DElems l => Forall jsonable l | DHeader _ => True end.
Lemma post_elems m : post m (Forall jsonable) -> post (elems m) given.
Proof. intros M. unfold elems. eapply post_bind; [exact M|]. intros l F. apply post_ret. exact F. Qed.
Lemma post_never {A} (m : rd A) P : (forall b, exists x, m b = Err x) -> post m P.
Proof. intros N b a b' _ H. destruct (N b) as (x & E). rewrite E in H. discriminate. Qed.
Lemma post_dispatch h : post (dispatch tca_elements h) given.
Proof.
  unfold dispatch. cbv zeta.
  assert (SK : post (_ <~ r_skip (vh_record_size h - VGF_HEADER_SIZE) ;; retR (DElems [])) given) by (skip_step; apply post_ret; constructor).
  destruct (_ && _).
  { eapply (post_bind _ _ (fun _ => True)); [|intros x _; apply post_ret; exact I]. unfold dec_file_header. eapply post_bind; [apply post_read|]. intros v V. eapply post_bind; [apply post_read|]. intros n N. eapply (post_bind _ _ (fun _ => True)); [apply post_lift; auto|]. intros a _. apply post_ret. exact I. }
  destruct (_ =? 1); [apply post_elems, post_fronts|]. destruct (_ =? 4); [apply post_elems, post_symbols|].
  destruct (_ =? 12); [destruct (_ =? 4); [apply post_elems, post_circles|exact SK]|].
  destruct (_ =? 3); [destruct (_ =? 1); [apply post_elems, post_lines|]; destruct (_ =? 20); [apply post_elems, post_special_lines|exact SK]|].
  destruct (_ =? 14); [apply post_elems, post_lists|].
  destruct (_ =? 5); [destruct (_ || _); [apply post_elems, post_dtext|]; destruct (_ =? 21); [apply post_elems, post_special_text|exact SK]|].
  destruct (_ =? 10); [apply post_elems, post_tracks|].
  destruct (_ =? 11); [destruct (between _ _ _); [apply post_elems, post_sigmet|]; destruct (_ =? 32); [apply post_elems, post_ccf|]; destruct (_ =? 35); [apply post_elems, post_volcanoes|]; destruct (_ =? 36); [apply post_elems, post_ash|exact SK]|].
  destruct (_ =? 15).
  { destruct (_ =? 38); [apply post_elems, post_gfa|]. destruct (_ =? 37); [apply post_elems, post_jet|].
    destruct (_ =? 39); [apply post_elems; unfold dec_tca; eapply post_bind; [apply post_text|]; intros s T; apply post_lift; intros l E; exact (tca_jsonable _ _ _ T E)|].
    destruct (_ =? 40); [apply post_elems, post_never, tc_error_err|]. destruct (_ =? 41); [apply post_elems, post_never, tc_track_err|].
    destruct (_ =? 42); [apply post_elems, post_never, tc_break_point_err|]. destruct (_ =? 43); [apply post_elems, post_never, sgwx_err|exact SK]. }
  destruct (_ =? 2); [apply post_elems, post_watches|]. destruct (_ =? 6); [apply post_elems, post_winds|exact SK].
Qed.
Definition sound (s : vstate) : Prop := bytes_ok (io_data (vs_buf s)) /\ Forall jsonable (vs_elements s).
Lemma run_sound n : forall s r, sound s -> vrun tca_elements n s = Some (Ok r) -> sound r.
Proof.
  induction n as [|n IH]; intros s r (V & J) H; cbn [vrun] in H; [discriminate|]. unfold vstep in H. destruct (io_at_end (vs_buf s)); [injection H as <-; split; assumption|].
  assert (HP : post read_header (fun _ => True)) by (unfold read_header; named_step e P; apply post_ret; exact I).
  destruct (read_header (vs_buf s)) as [[h b1]|] eqn:E; [|discriminate]. destruct (HP _ _ _ V E) as (V1 & _).
  destruct (invalid_header h (io_len b1)); [injection H as <-; split; assumption|]. destruct (dispatch tca_elements h b1) as [[[l|x] b2]|] eqn:D; [| |discriminate]; destruct (post_dispatch h _ _ _ V1 D) as (V2 & G); cbn [given] in G.
  - apply IH in H; [exact H|]. split; [exact V2|]. apply Forall_app. auto.
  - apply IH in H; [exact H|]. split; [exact V2|exact J].
Qed.
Theorem opened_jsonable d s : valid_bytes d = true -> opens tca_elements d (Ok s) -> Forall jsonable (vs_elements s).
Proof. intros V (n & H). apply run_sound in H as (_ & J); [exact J|]. split; [exact (valid_ok _ V)|constructor]. Qed.
