(** Lemmas about Tca.v. *)
From Coq Require Import Ascii String QArith Lia ZifyBool ZifyNat.
From Verif Require Import Base BaseFacts Floats Order Strings StringsFacts Structs VgfBase VgfTables VgfRead Tca SpecNearest NearestFacts SpecTca.
From Coq Require Import List.
Import ListNotations.
Open Scope string_scope.
Open Scope list_scope.
Open Scope Z_scope.

(** ** Finding a field *)

Lemma codes_ascii s : codes s = ascii_text s.
Proof. reflexivity. Qed.

Lemma prefix_app p : forall s, after_prefix p (p ++ s) = Some s.
Proof. induction p as [|a p IH]; intros s; [reflexivity|]. cbn [app after_prefix]. rewrite Z.eqb_refl. apply IH. Qed.

Lemma prefix_other : forall tag t rest, ~ In 62 tag -> ~ In 62 t -> t <> tag -> after_prefix (tag ++ [62]) (t ++ 62 :: rest) = None.
Proof.
  induction tag as [|a tag IH]; intros t rest NA NT D; destruct t as [|c t]; cbn [app after_prefix].
  - congruence.
  - destruct (Z.eqb_spec 62 c); [exfalso; subst; apply NT; left; reflexivity|reflexivity].
  - destruct (Z.eqb_spec a 62); [exfalso; subst; apply NA; left; reflexivity|reflexivity].
  - destruct (Z.eqb_spec a c); [|reflexivity]. subst c. apply IH; [intros I; apply NA; right; exact I|intros I; apply NT; right; exact I|congruence].
Qed.

Lemma search_skip eos tag x : forall s, ~ In 60 x -> search eos tag (x ++ s) = search eos tag s.
Proof.
  induction x as [|c x IH]; intros s N; [reflexivity|]. cbn [app]. cbn [search after_prefix].
  destruct (Z.eqb_spec 60 c); [exfalso; subst; apply N; left; reflexivity|]. apply IH. intros I. apply N. right. exact I.
Qed.

Lemma lazily_value eos v : forall rest, ~ In 60 v -> ~ In 10 v -> (exists r, rest = 60 :: r) \/ (rest = [] /\ eos = true) ->
  lazily eos (v ++ rest) = Some v.
Proof.
  induction v as [|c v IH]; intros rest N1 N2 R; cbn [app lazily].
  - destruct R as [[r ->]|[-> ->]]; reflexivity.
  - destruct (Z.eqb_spec c 60); [exfalso; subst; apply N1; left; reflexivity|].
    destruct (Z.eqb_spec c 10); [exfalso; subst; apply N2; left; reflexivity|].
    rewrite IH; [reflexivity|intros I; apply N1; right; exact I|intros I; apply N2; right; exact I|exact R].
Qed.
Lemma group_value eos v rest : plain v -> (exists r, rest = 60 :: r) \/ (rest = [] /\ eos = true) -> group eos (v ++ rest) = Some v.
Proof.
  intros (NE & N1 & N2) R. destruct v as [|c v]; [congruence|]. cbn [app group].
  destruct (Z.eqb_spec c 10); [exfalso; subst; apply N2; left; reflexivity|].
  rewrite lazily_value; [reflexivity|intros I; apply N1; right; exact I|intros I; apply N2; right; exact I|exact R].
Qed.

Definition good (f : str * str) : Prop := plain (snd f) /\ ~ In 60 (fst f) /\ ~ In 62 (fst f).

Lemma search_other eos tag t v s : ~ In 62 tag -> ~ In 60 t -> ~ In 62 t -> ~ In 60 v -> t <> tag ->
  search eos tag ((60 :: t ++ 62 :: v) ++ s) = search eos tag s.
Proof.
  intros N1 N2 N3 N4 D. cbn [app search after_prefix]. rewrite Z.eqb_refl. rewrite <- app_assoc. cbn [app]. rewrite prefix_other by assumption.
  rewrite search_skip by assumption. cbn [app]. change (62 :: v ++ s) with ((62 :: v) ++ s). apply search_skip.
  intros [I|I]; [discriminate|contradiction].
Qed.

Lemma search_field eos tag v : forall fs1 fs2, Forall good (fs1 ++ (tag, v) :: fs2) -> NoDup (map fst (fs1 ++ (tag, v) :: fs2)) ->
  fs2 <> [] \/ eos = true -> search eos tag (tagged (fs1 ++ (tag, v) :: fs2)) = Some v.
Proof.
  induction fs1 as [|[t w] fs1 IH]; intros fs2 G N L; cbn [app] in *.
  - inversion G as [|? ? G1 G2]; subst. destruct G1 as (P & N1 & N2). cbn [fst snd] in *.
    unfold tagged. cbn [map concat fst snd]. cbn [app search after_prefix]. rewrite Z.eqb_refl.
    match goal with |- context[(tag ++ 62 :: v) ++ ?c] => set (rest := c); replace ((tag ++ 62 :: v) ++ rest) with ((tag ++ [62]) ++ v ++ rest) by (rewrite <- !app_assoc; reflexivity) end.
    rewrite prefix_app. rewrite group_value; [reflexivity|exact P|]. unfold rest. destruct fs2 as [|[t2 v2] fs2].
    + right. split; [reflexivity|]. destruct L as [L|L]; [congruence|exact L].
    + left. cbn. eauto.
  - inversion G as [|? ? G1 G2]; subst. inversion N as [|? ? N1 N2]; subst. destruct G1 as ((_ & P2 & _) & P4 & P5). cbn [fst snd] in *.
    assert (T62 : ~ In 62 tag).
    { rewrite Forall_forall in G2. destruct (G2 (tag, v)) as (_ & _ & X); [apply in_or_app; right; left; reflexivity|exact X]. }
    unfold tagged. cbn [map concat fst snd]. rewrite search_other; [|assumption..|].
    + apply IH; assumption.
    + intros ->. apply N1. rewrite map_app. apply in_or_app. right. left. reflexivity.
Qed.

Lemma field_found eos tag v fs i w : Forall good (fs ++ [(numbered "tca_breakPts_" i, w)]) -> NoDup (map fst (fs ++ [(numbered "tca_breakPts_" i, w)])) ->
  In (tag, v) (fs ++ [(numbered "tca_breakPts_" i, w)]) -> eos = true \/ tag <> numbered "tca_breakPts_" i ->
  field eos tag (tagged (fs ++ [(numbered "tca_breakPts_" i, w)])) = Ok v.
Proof.
  intros G N I E. destruct (in_split _ _ I) as (l1 & l2 & S). unfold field. rewrite S in *. rewrite search_field; [reflexivity|exact G|exact N|].
  destruct E as [E|E]; [right; exact E|left]. intros ->. apply app_inj_tail in S as [_ S]. congruence.
Qed.

(** ** Numbers *)

Lemma strip_nospace s : Forall (fun c => is_space c = false) s -> strip s = s.
Proof.
  intros F. apply strip_id.
  - intros c r ->. inversion F; assumption.
  - intros r c ->. apply Forall_app in F as [_ F]. inversion F; assumption.
Qed.

Lemma digits_text_digit l : digits_ok l -> Forall (fun c => is_digit c = true) (digits_text l).
Proof. intros D. unfold digits_text. apply Forall_map. eapply Forall_impl; [|exact D]. intros d H. cbv beta in *. unfold is_digit. lia. Qed.
Lemma digit_plain c : is_digit c = true -> is_space c = false /\ c <> 60 /\ c <> 10 /\ c <> 124 /\ c <> 46 /\ c <> 45 /\ c <> 43.
Proof. unfold is_digit. intros H. split; [apply digit_not_space; exact H|]. lia. Qed.

Lemma int_digits_value l : forall acc b, digits_ok l -> l <> [] \/ b = true ->
  int_digits (digits_text l) acc b = Ok (fold_left (fun v d => 10 * v + d) l acc).
Proof.
  induction l as [|d l IH]; intros acc b D N.
  - cbn. destruct N as [N| ->]; [congruence|reflexivity].
  - inversion D as [|? ? D1 D2]; subst. cbn [digits_text map int_digits].
    assert (E : is_digit (48 + d) = true) by (unfold is_digit; lia). rewrite E. fold (digits_text l). rewrite IH by (auto).
    cbn [fold_left]. f_equal. f_equal. lia.
Qed.

Definition clean (c : Z) : Prop := is_space c = false /\ c <> 60 /\ c <> 10 /\ c <> 124.
Lemma digits_clean l : digits_ok l -> Forall clean (digits_text l).
Proof. intros D. eapply Forall_impl; [|apply digits_text_digit, D]. intros c H. apply digit_plain in H. unfold clean. tauto. Qed.
Lemma sign_clean b : Forall clean (sign_text b).
Proof. destruct b; repeat constructor; discriminate. Qed.
Lemma number_clean n : number_ok n -> Forall clean (number_text n).
Proof. intros [_ D]. unfold number_text. apply Forall_app. split; [apply sign_clean|apply digits_clean, D]. Qed.

Lemma int_of_number n : number_ok n -> py_int (number_text n) = Ok (number_value n).
Proof.
  intros N. pose proof (number_clean n N) as C. destruct N as [N D]. unfold py_int.
  rewrite strip_nospace by (eapply Forall_impl; [|exact C]; intros c (H & _); exact H).
  unfold number_text, number_value. destruct (n_minus n); cbn [sign_text app].
  - cbn [Z.eqb Pos.eqb]. rewrite int_digits_value by auto. reflexivity.
  - destruct (n_digits n) as [|d l] eqn:E; [congruence|]. unfold digits_value. rewrite <- (int_digits_value (d :: l) 0 false) by (auto; left; discriminate).
    cbn [digits_text map]. inversion D as [|? ? D1 _]; subst.
    destruct (Z.eqb_spec (48 + d) 45); [lia|]. destruct (Z.eqb_spec (48 + d) 43); [lia|]. reflexivity.
Qed.

Lemma run_digits l : forall acc n rest, digits_ok l -> (forall c r, rest = c :: r -> is_digit c = false) ->
  digit_run (digits_text l ++ rest) acc n = (fold_left (fun v d => 10 * v + d) l acc, (n + length l)%nat, rest).
Proof.
  induction l as [|d l IH]; intros acc n rest D R.
  - cbn [digits_text map app fold_left length]. rewrite Nat.add_0_r. destruct rest as [|c r]; [reflexivity|]. cbn [digit_run]. rewrite (R c r eq_refl). reflexivity.
  - inversion D as [|? ? D1 D2]; subst. cbn [digits_text map app digit_run].
    assert (E : is_digit (48 + d) = true) by (unfold is_digit; lia). rewrite E. fold (digits_text l). rewrite IH by assumption.
    cbn [fold_left length]. replace (10 * acc + (48 + d - 48)) with (10 * acc + d) by lia. replace (S n + length l)%nat with (n + S (length l))%nat by lia. reflexivity.
Qed.

Lemma fold_value_pos l : forall a, digits_ok l -> 0 <= a -> 0 <= fold_left (fun v d => 10 * v + d) l a < (a + 1) * 10 ^ Zlen l.
Proof.
  induction l as [|d l IH]; intros a D A; [cbn; lia|]. inversion D as [|? ? D1 D2]; subst. cbn [fold_left]. rewrite Zlen_cons.
  pose proof (Zlen_nonneg l). rewrite Z.pow_add_r by lia. change (10 ^ 1) with 10. specialize (IH (10 * a + d) D2 ltac:(lia)).
  assert (0 < 10 ^ Zlen l) by (apply Z.pow_pos_nonneg; lia). nia.
Qed.

Lemma scaled_nearest neg m k : 0 <= k -> 0 <= m -> m <= 2 ^ 1000 * 10 ^ k -> nearest ((if neg : bool then - m else m) # Z.to_pos (10 ^ k)) (scaled neg m (- k)).
Proof.
  intros K M L. destruct m as [|p|p]; [| |lia].
  - cbn [scaled]. split; [reflexivity|]. split; [reflexivity|]. intros g _ _. destruct neg; cbn [Z.opp].
    + setoid_replace (q_of (S754_zero true) - (0 # Z.to_pos (10 ^ k)))%Q with 0%Q by (cbn; unfold Qeq; cbn; lia). apply Qabs.Qabs_nonneg.
    + setoid_replace (q_of (S754_zero false) - (0 # Z.to_pos (10 ^ k)))%Q with 0%Q by (cbn; unfold Qeq; cbn; lia). apply Qabs.Qabs_nonneg.
  - cbn [scaled]. replace (Z.max 0 (- k)) with 0 by lia. replace (Z.max 0 (- - k)) with k by lia. change (Z.to_pos (10 ^ 0)) with 1%positive. rewrite Pos.mul_1_r.
    replace (if neg : bool then - Z.pos p else Z.pos p) with (if neg : bool then Z.neg p else Z.pos p) by (destruct neg; reflexivity).
    apply quotient_nearest. rewrite Z2Pos.id by (apply Z.pow_pos_nonneg; lia). exact L.
Qed.

Lemma decimal_clean d : decimal_ok d -> Forall clean (decimal_text d).
Proof.
  intros (N & _ & D1 & D2). unfold decimal_text. apply Forall_app. split; [apply sign_clean|]. apply Forall_app. split; [apply digits_clean, D1|].
  destruct (d_fraction d) as [|x f]; [constructor|]. constructor; [repeat split; discriminate|apply digits_clean, D2].
Qed.

Lemma float_unsigned neg w f : w <> [] -> digits_ok w -> digits_ok f ->
  unsigned_float neg (digits_text w ++ match f with [] => [] | z :: l => 46 :: digits_text (z :: l) end) = Ok (scaled neg (digits_value (w ++ f)) (- Zlen f)).
Proof.
  intros N D1 D2. unfold unsigned_float. destruct w as [|d w]; [congruence|]. set (s := digits_text (d :: w) ++ _).
  assert (DD : 0 <= d <= 9) by (inversion D1; assumption).
  assert (I : exists r, map (fun c => if between 65 90 c then c + 32 else c) s = (48 + d) :: r).
  { unfold s. cbn [digits_text map app]. replace (between 65 90 (48 + d)) with false by (unfold between; lia). eauto. }
  assert (S0 : forall t, (exists r, t = 105 :: r) \/ (exists r, t = 110 :: r) -> str_eqb (map (fun c => if between 65 90 c then c + 32 else c) s) t = false).
  { intros t T. destruct (str_eqb _ t) eqn:E; [|reflexivity]. apply str_eqb_spec in E. exfalso.
    destruct I as [r0 I]. rewrite E in I. destruct T as [[r ->]|[r ->]]; apply (f_equal (hd 0)) in I; cbn [hd] in I; lia. }
  rewrite !S0 by (first [left; eexists; reflexivity|right; eexists; reflexivity]). cbn [orb]. clear I S0. unfold s. clear s.
  rewrite run_digits; [|exact D1|].
  2:{ intros c r. destruct f; [discriminate|]. intros E. injection E as <- _. reflexivity. }
  destruct f as [|x f].
  - rewrite app_nil_r. cbn [length Nat.add exponent bind]. reflexivity.
  - change (46 =? 46) with true. cbv iota. rewrite <- (app_nil_r (digits_text (x :: f))). rewrite run_digits; [|exact D2|discriminate].
    cbn [length Nat.add exponent bind]. do 2 f_equal. unfold digits_value. rewrite fold_left_app. reflexivity.
Qed.

Lemma float_of_decimal d : decimal_ok d -> exists f, py_float (decimal_text d) = Ok f /\ nearest (decimal_value d) f.
Proof.
  intros OK. pose proof (decimal_clean d OK) as C. destruct OK as (N & L & D1 & D2).
  exists (scaled (d_minus d) (digits_value (d_whole d ++ d_fraction d)) (- Zlen (d_fraction d))). split.
  - unfold py_float. rewrite strip_nospace by (eapply Forall_impl; [|exact C]; intros c (H & _); exact H).
    unfold decimal_text. destruct (d_minus d); cbn [sign_text app].
    + change (45 =? 45) with true. cbv iota. apply float_unsigned; assumption.
    + rewrite <- (float_unsigned false) by assumption. destruct (d_whole d) as [|x w]; [congruence|]. cbn [digits_text map app]. inversion D1; subst.
      destruct (Z.eqb_spec (48 + x) 45); [lia|]. destruct (Z.eqb_spec (48 + x) 43); [lia|]. reflexivity.
  - unfold decimal_value. apply scaled_nearest; [apply Zlen_nonneg| |]; unfold digits_value; rewrite fold_left_app.
    + apply fold_value_pos; [exact D2|]. apply fold_value_pos; [exact D1|lia].
    + destruct (fold_value_pos (d_whole d) 0 D1 ltac:(lia)) as [A B]. destruct (fold_value_pos (d_fraction d) _ D2 A) as [A2 B2].
      assert (10 ^ Zlen (d_whole d) <= 2 ^ 1000).
      { apply Z.le_trans with (10 ^ 300); [apply Z.pow_le_mono_r; unfold Zlen; lia|vm_compute; discriminate]. }
      assert (0 < 10 ^ Zlen (d_fraction d)) by (apply Z.pow_pos_nonneg; pose proof (Zlen_nonneg (d_fraction d)); lia). nia.
Qed.

(** ** Lists with bars *)

Lemma split_on_bar s rest : ~ In 124 s -> split_on (Z.eqb 124) (s ++ 124 :: rest) =
  (let '(p, q) := split_on (Z.eqb 124) rest in (s :: p, 124 :: q)).
Proof.
  intros N. induction s as [|c s IH]; cbn [app split_on].
  - destruct (split_on _ rest) as [p q]. reflexivity.
  - rewrite IH by (intros I; apply N; right; exact I). destruct (split_on _ rest) as [p q].
    destruct (Z.eqb_spec 124 c); [exfalso; subst; apply N; left; reflexivity|reflexivity].
Qed.
Lemma bars_bar l : l <> [] -> Forall (fun s => ~ In 124 s) l -> bars (bar l) = l.
Proof.
  intros N F. unfold bars. induction F as [|s r S F IH]; [congruence|]. destruct r as [|s2 r].
  - cbn [bar]. rewrite split_on_none; [reflexivity|]. apply forallb_forall. intros c I. destruct (Z.eqb_spec 124 c); [subst; contradiction|reflexivity].
  - cbn [bar]. rewrite split_on_bar by exact S. specialize (IH ltac:(discriminate)). cbn [bar] in IH.
    destruct (split_on _ _) as [p q]. cbn [fst] in *. rewrite IH. reflexivity.
Qed.

(** ** Break points *)

Lemma cut_concat {A B} (f : A -> list B) k : forall l, (forall x, In x l -> length (f x) = k) -> cut (repeat k (length l)) (concat (map f l)) = map f l.
Proof.
  induction l as [|x l IH]; intros F; [reflexivity|]. cbn [length repeat map concat cut].
  assert (K : k = length (f x)) by (symmetry; apply F; left; reflexivity).
  rewrite K at 1. rewrite firstn_app, Nat.sub_diag, firstn_all. cbn [firstn]. rewrite app_nil_r. f_equal.
  rewrite K at 2. rewrite skipn_app, Nat.sub_diag, skipn_all. cbn [skipn app]. apply IH. intros y I. apply F. right. exact I.
Qed.

Lemma concat_length {A B} (f : A -> list B) k : forall l, (forall x, In x l -> length (f x) = k) -> length (concat (map f l)) = (k * length l)%nat.
Proof.
  induction l as [|x l IH]; intros F; [cbn; lia|]. cbn [map concat length]. rewrite app_length, IH by (intros y I; apply F; right; exact I).
  rewrite (F x (or_introl eq_refl)). lia.
Qed.

Definition triple (p : point) : list str := [decimal_text (p_lat p); decimal_text (p_lon p); p_name p].

Lemma split_points (ps : list point) : ps <> [] -> array_split (concat (map triple ps)) (Zlen ps) = Ok (map triple ps).
Proof.
  intros N. assert (L : 0 < Zlen ps) by (destruct ps; [congruence|rewrite Zlen_cons; pose proof (Zlen_nonneg ps); lia]).
  unfold array_split. destruct (Z.leb_spec (Zlen ps) 0); [lia|].
  assert (E : Zlen (concat (map triple ps)) = 3 * Zlen ps) by (unfold Zlen; rewrite (concat_length triple 3) by reflexivity; lia).
  rewrite E, Z.div_mul, Z.mod_mul by lia. cbn [repeat app Z.to_nat]. rewrite Nat.sub_0_r.
  change (Z.to_nat 3) with 3%nat. change (Pos.to_nat 3) with 3%nat. rewrite Zlen_length. rewrite (cut_concat triple 3) by reflexivity. reflexivity.
Qed.

Lemma clean_no c s : Forall clean s -> c = 60 \/ c = 10 \/ c = 124 -> ~ In c s.
Proof. intros F E I. rewrite Forall_forall in F. destruct (F c I) as (_ & A & B & C). lia. Qed.

Lemma points_read ps : Forall point_ok ps -> exists l, mapM break_point (map triple ps) = Ok l /\ Forall2 shows_point ps l.
Proof.
  induction 1 as [|p ps (O1 & O2 & _) _ (l & E & F)]; [exists []; split; [reflexivity|constructor]|].
  cbn [map mapM]. unfold triple at 1. cbn [break_point].
  destruct (float_of_decimal _ O1) as (a & EA & NA). destruct (float_of_decimal _ O2) as (b & EB & NB).
  rewrite EA, EB. cbn [bind]. rewrite E. cbn [bind]. eexists. split; [reflexivity|]. constructor; [|exact F].
  split; [reflexivity|]. split; [exists a; split; [reflexivity|exact NA]|]. split; [exists b; split; [reflexivity|exact NB]|reflexivity].
Qed.

(** ** Watches and warnings *)

Lemma not_points t x i : (5 < length (ascii_text t))%nat -> nth 5 (ascii_text t) 0 <> 114 -> ascii_text t ++ x <> numbered "tca_breakPts_" i.
Proof.
  intros L N E. apply (f_equal (fun l => nth 5 l 0)) in E. unfold numbered in E. rewrite !app_nth1 in E by (exact L || (vm_compute; lia)).
  apply N. rewrite E. reflexivity.
Qed.

Section Fields.
Variable fs0 : list (str * str).
Variables (last : nat) (lastv : str).
Let fs := fs0 ++ [(numbered "tca_breakPts_" last, lastv)].
Hypothesis G : Forall good fs.
Hypothesis U : NoDup (map fst fs).

Lemma plain_field t v : In (ascii_text t, v) fs -> (5 < length (ascii_text t))%nat -> nth 5 (ascii_text t) 0 <> 114 -> field false (codes t) (tagged fs) = Ok v.
Proof.
  intros I L N. apply field_found; [exact G|exact U|exact I|]. right. rewrite codes_ascii, <- (app_nil_r (ascii_text t)). apply not_points; assumption.
Qed.
Lemma numbered_field t i v : In (numbered t i, v) fs -> (5 < length (ascii_text t))%nat -> nth 5 (ascii_text t) 0 <> 114 ->
  field false (tca_tag t (Z.of_nat i)) (tagged fs) = Ok v.
Proof. intros I L N. apply field_found; [exact G|exact U|exact I|]. right. apply not_points; assumption. Qed.
Lemma points_field i v : In (numbered "tca_breakPts_" i, v) fs -> field true (tca_tag "tca_breakPts_" (Z.of_nat i)) (tagged fs) = Ok v.
Proof. intros I. apply field_found; [exact G|exact U|exact I|]. left. reflexivity. Qed.

Lemma enum_ok lo hi z : lo <= z <= hi -> enum lo hi z = Ok (VInt z).
Proof. intros H. unfold enum, between. replace ((lo <=? z) && (z <=? hi)) with true by lia. reflexivity. Qed.

Lemma number_bar n : number_ok n -> ~ In 124 (number_text n).
Proof. intros N. apply clean_no; [apply number_clean, N|auto]. Qed.

Lemma watch_read i w : incl (warning_fields i w) fs -> warning_ok w -> exists l, watch (tagged fs) (Z.of_nat i) = Ok l /\ shows_warning w l.
Proof.
  intros I (S1 & S2 & T1 & T2 & G1 & G2 & C1 & C2 & PN & PO). unfold watch.
  rewrite (numbered_field "tca_tcawwStr_" i _ (I _ (or_introl eq_refl))) by (vm_compute; first [lia|discriminate]). cbn [bind].
  rewrite (numbered_field "tca_numBreakPts_" i _ (I _ (or_intror (or_introl eq_refl)))) by (vm_compute; first [lia|discriminate]). cbn [bind].
  rewrite int_of_number by exact C1. cbn [bind].
  rewrite (points_field i _ (I _ (or_intror (or_intror (or_introl eq_refl))))). cbn [bind].
  rewrite bars_bar; [|discriminate|repeat constructor; apply number_bar; assumption].
  change (fun p => [decimal_text (p_lat p); decimal_text (p_lon p); p_name p]) with triple.
  rewrite bars_bar.
  2:{ destruct (w_points w); [congruence|discriminate]. }
  2:{ clear - PO. induction PO as [|p ps (O1 & O2 & _ & _ & O3) _ IH]; [constructor|]. cbn [map concat triple app].
      constructor; [apply clean_no; [apply decimal_clean, O1|auto]|]. constructor; [apply clean_no; [apply decimal_clean, O2|auto]|]. constructor; [exact O3|exact IH]. }
  rewrite C2, split_points by exact PN. cbn [bind]. destruct (points_read _ PO) as (l & E & F). rewrite E. cbn [bind].
  rewrite !int_of_number by assumption. cbn [bind]. rewrite !enum_ok by assumption. cbn [bind].
  eexists. split; [reflexivity|]. eexists. exists l. split; [reflexivity|]. repeat split. exact F.
Qed.

Lemma watches_read : forall ws i, incl (all_warnings i ws) fs -> Forall warning_ok ws ->
  exists parts, mapM (watch (tagged fs)) (zcount (length ws) (Z.of_nat i)) = Ok parts /\ Forall2 shows_warning ws parts.
Proof.
  induction ws as [|w ws IH]; intros i I O; [exists []; split; [reflexivity|constructor]|].
  inversion O as [|? ? O1 O2]; subst. cbn [all_warnings] in I. apply incl_app_inv in I as [I1 I2].
  destruct (watch_read i w I1 O1) as (l & E & SW). cbn [length zcount mapM]. rewrite E. cbn [bind].
  replace (Z.of_nat i + 1) with (Z.of_nat (S i)) by lia. destruct (IH (S i) I2 O2) as (parts & EP & FP). rewrite EP. cbn [bind].
  eexists. split; [reflexivity|]. constructor; assumption.
Qed.

Lemma zcount_length k : forall z, length (zcount k z) = k.
Proof. induction k as [|k IH]; intros z; [reflexivity|]. cbn. rewrite IH. reflexivity. Qed.

Lemma advisory_read h a : advisory_ok a -> incl (fields_of a) fs ->
  exists e, tca_elements h (tagged fs) = Ok (repeat e (length (a_warnings a))) /\ shows_advisory h a e.
Proof.
  intros (H1 & H2 & H3 & H4 & H5 & H6 & H7 & H8 & H9 & H10 & H11 & H12 & H13 & H14 & H15 & H16) I.
  unfold fields_of in I. apply incl_app_inv in I as [I IW].
  destruct (float_of_decimal _ H9) as (f1 & F1 & N1). destruct (float_of_decimal _ H10) as (f2 & F2 & N2). destruct (float_of_decimal _ H12) as (f3 & F3 & N3).
  destruct (watches_read _ _ IW H16) as (parts & EP & FP).
  unfold tca_elements.
  repeat match goal with
         | |- context[field false (codes ?t) _] => erewrite (plain_field t);
             [|apply I; cbn [In]; repeat (first [left; reflexivity|right])|vm_compute; lia|vm_compute; discriminate]; cbn [bind]
         | |- context[py_int (number_text _)] => rewrite int_of_number by assumption; cbn [bind]
         | |- context[py_float _] => first [rewrite F1|rewrite F2|rewrite F3]; cbn [bind]
         end.
  rewrite H15, Zlen_length. change 0 with (Z.of_nat 0). rewrite EP. cbn [bind].
  eexists. split.
  - f_equal. clear. generalize (Z.of_nat 0). intros z. rewrite <- (zcount_length (length (a_warnings a)) z) at 2.
    induction (zcount _ z) as [|x l IH]; [reflexivity|]. cbn [map length repeat]. rewrite IH. reflexivity.
  - constructor; try reflexivity; try (eexists; split; [reflexivity|assumption]).
Qed.
End Fields.

(** ** The fields in their usual order *)

Lemma dec_inj a b : 0 <= a -> 0 <= b -> dec a = dec b -> a = b.
Proof.
  intros A B E. assert (P : forall n, 0 <= n -> py_int (dec n) = Ok n).
  { intros n N. destruct (dec_spec n N) as (k & K & -> & H). rewrite py_int_fixed by exact K. f_equal. apply Z.mod_small.
    pose proof (log2_fuel n N). destruct H. lia. }
  pose proof (P a A) as PA. rewrite E, (P b B) in PA. congruence.
Qed.

Definition sixth (s : str) : Z := nth 5 s 0.
Lemma sixth_numbered t i : (5 < length (ascii_text t))%nat -> sixth (numbered t i) = sixth (ascii_text t).
Proof. intros L. unfold sixth, numbered. apply app_nth1, L. Qed.

Definition three : list string := ["tca_tcawwStr_"; "tca_numBreakPts_"; "tca_breakPts_"].
Lemma three_long t : In t three -> (5 < length (ascii_text t))%nat.
Proof. cbn [three In]. intros [<-|[<-|[<-|[]]]]; vm_compute; lia. Qed.
Lemma three_apart t u i j : In t three -> In u three -> numbered t i = numbered u j -> t = u /\ i = j.
Proof.
  intros T V E. assert (S6 : sixth (ascii_text t) = sixth (ascii_text u)).
  { rewrite <- (sixth_numbered t i), <- (sixth_numbered u j) by (apply three_long; assumption). rewrite E. reflexivity. }
  assert (t = u).
  { cbn [three In] in T, V. destruct T as [<-|[<-|[<-|[]]]], V as [<-|[<-|[<-|[]]]]; try reflexivity; vm_compute in S6; discriminate S6. }
  subst u. split; [reflexivity|]. unfold numbered in E. apply app_inv_head in E. apply dec_inj in E; lia.
Qed.

Lemma warning_tags : forall ws i s, In s (map fst (all_warnings i ws)) -> exists t j, In t three /\ (i <= j)%nat /\ s = numbered t j.
Proof.
  induction ws as [|w ws IH]; intros i s I; [destruct I|]. cbn [all_warnings map] in I. rewrite map_app in I. apply in_app_or in I as [I|I].
  - cbn [warning_fields map fst In] in I. destruct I as [<-|[<-|[<-|[]]]]; eexists; exists i; (split; [|split; [lia|reflexivity]]); cbn [three In]; auto.
  - destruct (IH _ _ I) as (t & j & T & J & ->). exists t, j. split; [exact T|]. split; [lia|reflexivity].
Qed.

Lemma warning_tags_unique : forall ws i, NoDup (map fst (all_warnings i ws)).
Proof.
  induction ws as [|w ws IH]; intros i; [constructor|]. cbn [all_warnings]. rewrite map_app. cbn [warning_fields map fst app].
  assert (N : forall t, In t three -> ~ In (numbered t i) (map fst (all_warnings (S i) ws))).
  { intros t T I. destruct (warning_tags _ _ _ I) as (u & j & V & J & E). apply three_apart in E as [_ E]; [lia|exact T|exact V]. }
  assert (D : forall t u, In t three -> In u three -> t <> u -> numbered t i <> numbered u i).
  { intros t u T V X E. apply three_apart in E as [E _]; [congruence|exact T|exact V]. }
  constructor; [intros [E|[E|E]]|constructor; [intros [E|E]|constructor; [|apply IH]]].
  - revert E. apply D; cbn [three In]; auto; discriminate.
  - revert E. apply D; cbn [three In]; auto; discriminate.
  - revert E. apply N. cbn [three In]; auto.
  - revert E. apply D; cbn [three In]; auto; discriminate.
  - revert E. apply N. cbn [three In]; auto.
  - apply N. cbn [three In]; auto.
Qed.

Lemma nodup_app {A} (l r : list A) : NoDup l -> NoDup r -> (forall x, In x l -> ~ In x r) -> NoDup (l ++ r).
Proof.
  intros L R D. induction L as [|x l X L IH]; [exact R|]. cbn [app]. constructor.
  - intros I. apply in_app_or in I as [I|I]; [contradiction|]. apply (D x (or_introl eq_refl) I).
  - apply IH. intros y Y. apply D. right. exact Y.
Qed.

Definition fixed_tags : list str := map ascii_text
  ["tca_stormNum"; "tca_issueStatus"; "tca_basin"; "tca_advisoryNum"; "tca_stormName"; "tca_stormType"; "tca_validTime";
   "tca_timezone"; "tca_textLat"; "tca_textLon"; "tca_textFont"; "tca_textSize"; "tca_textWidth"; "tca_wwNum"].

Lemma fixed_unique : NoDup fixed_tags.
Proof.
  assert (D : forall l : list str, (fix nd (l : list str) := match l with [] => true | x :: r => negb (existsb (str_eqb x) r) && nd r end) l = true -> NoDup l).
  { induction l as [|x r IH]; intros H; [constructor|]. apply andb_prop in H as [H1 H2]. constructor; [|apply IH, H2].
    intros I. apply negb_true_iff in H1. assert (existsb (str_eqb x) r = true); [|congruence].
    apply existsb_exists. exists x. split; [exact I|]. apply str_eqb_spec. reflexivity. }
  apply D. vm_compute. reflexivity.
Qed.

Lemma fields_unique a : NoDup (map fst (fields_of a)).
Proof.
  unfold fields_of. rewrite map_app. apply nodup_app; [apply fixed_unique|apply warning_tags_unique|].
  intros s I J. destruct (warning_tags _ _ _ J) as (t & j & T & _ & ->).
  assert (E : sixth (numbered t j) = 99 \/ sixth (numbered t j) = 117 \/ sixth (numbered t j) = 114).
  { rewrite sixth_numbered by (apply three_long, T). cbn [three In] in T. destruct T as [<-|[<-|[<-|[]]]]; vm_compute; auto. }
  assert (X : forallb (fun s => negb (sixth s =? 99) && negb (sixth s =? 117) && negb (sixth s =? 114)) fixed_tags = true) by (vm_compute; reflexivity).
  rewrite forallb_forall in X. specialize (X _ I). cbv beta in X. lia.
Qed.

Lemma clean_plain s : s <> [] -> Forall clean s -> plain s.
Proof. intros N C. split; [exact N|]. split; apply clean_no; auto. Qed.
Lemma number_plain n : number_ok n -> plain (number_text n).
Proof.
  intros N. apply clean_plain; [|apply number_clean, N]. destruct N as [N _]. unfold number_text. destruct (n_minus n); [discriminate|].
  destruct (n_digits n); [congruence|discriminate].
Qed.
Lemma decimal_nonempty d : decimal_ok d -> decimal_text d <> [].
Proof.
  intros (N & _). unfold decimal_text. destruct (d_minus d); [discriminate|]. destruct (d_whole d); [congruence|discriminate].
Qed.
Lemma decimal_plain d : decimal_ok d -> plain (decimal_text d).
Proof. intros D. apply clean_plain; [apply decimal_nonempty, D|apply decimal_clean, D]. Qed.

Lemma in_bar c : forall l, In c (bar l) -> c = 124 \/ exists s, In s l /\ In c s.
Proof.
  induction l as [|s [|s2 r] IH]; intros I; [destruct I| |].
  - right. exists s. split; [left; reflexivity|exact I].
  - cbn [bar] in I. apply in_app_or in I as [I|[I|I]]; [right; exists s; split; [left; reflexivity|exact I]|left; congruence|].
    destruct (IH I) as [E|(x & X & Y)]; [left; exact E|right; exists x; split; [right; exact X|exact Y]].
Qed.
Lemma bar_plain s l : s <> [] -> Forall (fun s => ~ In 60 s /\ ~ In 10 s) (s :: l) -> plain (bar (s :: l)).
Proof.
  intros N F. rewrite Forall_forall in F. split; [|split].
  - destruct l; [exact N|]. cbn [bar]. destruct s; [congruence|discriminate].
  - intros I. apply in_bar in I as [I|(x & X & Y)]; [discriminate|]. destruct (F x X). contradiction.
  - intros I. apply in_bar in I as [I|(x & X & Y)]; [discriminate|]. destruct (F x X). contradiction.
Qed.

Lemma dec_clean n : 0 <= n -> ~ In 60 (dec n) /\ ~ In 62 (dec n).
Proof.
  intros N. destruct (dec_spec n N) as (k & _ & -> & _). pose proof (fixed_digits k n) as D. rewrite forallb_forall in D.
  split; intros I; apply D in I; discriminate I.
Qed.
Lemma numbered_tag t i : In t three -> ~ In 60 (numbered t i) /\ ~ In 62 (numbered t i).
Proof.
  intros T. destruct (dec_clean (Z.of_nat i) ltac:(lia)) as [D1 D2]. unfold numbered.
  assert (C : forallb (fun c => negb (c =? 60) && negb (c =? 62)) (ascii_text t) = true) by (cbn [three In] in T; destruct T as [<-|[<-|[<-|[]]]]; vm_compute; reflexivity).
  rewrite forallb_forall in C. split; intros I; apply in_app_or in I as [I|I]; try contradiction; apply C in I; discriminate I.
Qed.

Lemma warning_fields_good i w : warning_ok w -> Forall good (warning_fields i w).
Proof.
  intros (S1 & S2 & T1 & T2 & G1 & G2 & C1 & C2 & PN & PO).
  assert (NN : forall n, number_ok n -> ~ In 60 (number_text n) /\ ~ In 10 (number_text n)) by (intros n N; split; apply clean_no; auto; apply number_clean, N).
  assert (DD : forall n, decimal_ok n -> ~ In 60 (decimal_text n) /\ ~ In 10 (decimal_text n)) by (intros n N; split; apply clean_no; auto; apply decimal_clean, N).
  unfold warning_fields. constructor; [|constructor; [|constructor; [|constructor]]]; (split; [|apply numbered_tag; cbn [three In]; auto]); cbn [snd].
  - apply bar_plain; [destruct (number_plain _ S1) as (X & _); exact X|]. repeat (constructor; [apply NN; assumption|]). constructor.
  - apply number_plain, C1.
  - destruct PO as [|p ps P PO]; [congruence|]. cbn [map concat app]. apply bar_plain; [apply decimal_nonempty, P|].
    constructor; [apply DD, P|]. constructor; [apply DD, P|]. constructor; [destruct P as (_ & _ & X & Y & _); auto|].
    clear - PO DD. induction PO as [|q qs Q _ IH]; [constructor|]. cbn [map concat app].
    constructor; [apply DD, Q|]. constructor; [apply DD, Q|]. constructor; [destruct Q as (_ & _ & X & Y & _); auto|exact IH].
Qed.
Lemma all_warnings_good : forall ws i, Forall warning_ok ws -> Forall good (all_warnings i ws).
Proof.
  induction ws as [|w ws IH]; intros i O; [constructor|]. inversion O; subst. cbn [all_warnings]. apply Forall_app. split; [apply warning_fields_good; assumption|apply IH; assumption].
Qed.
Lemma all_warnings_end : forall ws i, ws <> [] -> exists l j v, all_warnings i ws = l ++ [(numbered "tca_breakPts_" j, v)].
Proof.
  induction ws as [|w ws IH]; intros i N; [congruence|]. destruct ws as [|w2 ws].
  - cbn [all_warnings warning_fields]. rewrite app_nil_r. eexists [_; _]. exists i. eexists. reflexivity.
  - destruct (IH (S i) ltac:(discriminate)) as (l & j & v & E). cbn [all_warnings] in E |- *. rewrite E. exists (warning_fields i w ++ l), j, v. rewrite app_assoc. reflexivity.
Qed.

Lemma front_good a l : advisory_ok a -> fields_of a = l ++ all_warnings 0 (a_warnings a) -> Forall good l.
Proof.
  intros (H1 & H2 & H3 & H4 & H5 & H6 & H7 & H8 & H9 & H10 & H11 & H12 & H13 & H14 & H15 & H16) E.
  unfold fields_of in E. apply app_inv_tail in E. subst l.
  assert (T : forall s, In s fixed_tags -> ~ In 60 s /\ ~ In 62 s).
  { assert (X : forallb (forallb (fun c => negb (c =? 60) && negb (c =? 62))) fixed_tags = true) by (vm_compute; reflexivity).
    rewrite forallb_forall in X. intros s S. specialize (X s S). rewrite forallb_forall in X. split; intros I; apply X in I; discriminate I. }
  repeat (constructor; [split; [cbn [snd]; first [assumption|apply number_plain; assumption|apply decimal_plain; assumption]
    |apply T; unfold fixed_tags; cbn [map In fst]; repeat (first [left; reflexivity|right])]|]). constructor.
Qed.

Lemma in_order a : advisory_ok a -> a_warnings a <> [] -> writes a (fields_of a).
Proof.
  intros O N. split; [apply fields_unique|]. split; [apply incl_refl|]. split.
  - pose proof (front_good a _ O eq_refl) as F. unfold fields_of. apply Forall_app. split; [exact F|]. apply (all_warnings_good _ _). unfold advisory_ok in O. tauto.
  - destruct (all_warnings_end (a_warnings a) 0 N) as (l & j & v & E). unfold fields_of. rewrite E. eexists (_ ++ l), j, v. rewrite app_assoc. reflexivity.
Qed.

(** ** No watches *)
Lemma lazily_open v : ~ In 60 v -> lazily false v = None.
Proof.
  induction v as [|c v IH]; intros N; [reflexivity|]. cbn [lazily]. destruct (Z.eqb_spec c 60); [exfalso; apply N; left; assumption|].
  destruct (Z.eqb_spec c 10); [reflexivity|]. rewrite IH; [reflexivity|]. intros I. apply N. right. exact I.
Qed.
Lemma search_nothing tag s : ~ In 60 s -> search false tag s = None.
Proof. intros N. rewrite <- (app_nil_r s), search_skip by exact N. reflexivity. Qed.
Lemma search_last tag v : forall fs, Forall good (fs ++ [(tag, v)]) -> ~ In tag (map fst fs) -> search false tag (tagged (fs ++ [(tag, v)])) = None.
Proof.
  induction fs as [|[t w] fs IH]; intros G N; cbn [app] in *; inversion G as [|? ? G1 G2]; subst; destruct G1 as ((_ & P1 & P2) & P4 & P5); cbn [fst snd] in *.
  - unfold tagged. cbn [map concat fst snd]. rewrite app_nil_r. cbn [app search after_prefix]. rewrite Z.eqb_refl.
    replace (tag ++ 62 :: v) with ((tag ++ [62]) ++ v) by (rewrite <- app_assoc; reflexivity). rewrite prefix_app.
    assert (GN : group false v = None).
    { destruct v as [|c v]; [reflexivity|]. cbn [group]. destruct (c =? 10); [reflexivity|]. rewrite lazily_open; [reflexivity|]. intros I. apply P1. right. exact I. }
    rewrite GN. apply search_nothing. intros I. rewrite <- app_assoc in I. apply in_app_or in I as [I|[I|I]]; [contradiction|discriminate|contradiction].
  - assert (X : ~ In 62 tag).
    { assert (Forall good [(tag, v)]) as GT by (apply Forall_app in G2; tauto). inversion GT as [|? ? (_ & _ & X) _]; subst. exact X. }
    unfold tagged. cbn [map concat fst snd]. rewrite search_other; [|assumption..|].
    + apply IH; [exact G2|]. intros I. apply N. right. exact I.
    + intros ->. apply N. left. reflexivity.
Qed.

Lemma in_front t v fs x : Forall good (fs ++ [x]) -> NoDup (map fst (fs ++ [x])) -> In (t, v) fs -> field false t (tagged (fs ++ [x])) = Ok v.
Proof.
  intros G U I. destruct (in_split _ _ I) as (l1 & l2 & ->). unfold field. rewrite <- app_assoc in *. cbn [app] in *.
  rewrite search_field; [reflexivity|exact G|exact U|]. left. destruct l2; discriminate.
Qed.

Lemma no_watches h a : advisory_ok a -> a_warnings a = [] -> tca_elements h (tagged (fields_of a)) = Err AttributeError.
Proof.
  intros O W. pose proof (fields_unique a) as U. assert (GG : Forall good (fields_of a)).
  { apply (front_good a); [exact O|]. rewrite W. cbn [all_warnings]. rewrite app_nil_r. reflexivity. }
  unfold fields_of in *. rewrite W in *. cbn [all_warnings] in *. rewrite app_nil_r in *.
  match goal with |- context[tagged ?l] => set (fs := l) in * end.
  change fs with (firstn 13 fs ++ [(ascii_text "tca_wwNum", number_text (a_count a))]) in GG, U |- *.
  destruct O as (H1 & H2 & H3 & H4 & H5 & H6 & H7 & H8 & H9 & H10 & H11 & H12 & H13 & H14 & H15 & H16).
  destruct (float_of_decimal _ H9) as (f1 & F1 & N1). destruct (float_of_decimal _ H10) as (f2 & F2 & N2). destruct (float_of_decimal _ H12) as (f3 & F3 & N3).
  assert (LAST : field false (codes "tca_wwNum") (tagged (firstn 13 fs ++ [(ascii_text "tca_wwNum", number_text (a_count a))])) = Err AttributeError).
  { unfold field. rewrite codes_ascii, search_last; [reflexivity|exact GG|]. rewrite map_app in U. apply NoDup_remove_2 in U. rewrite app_nil_r in U. exact U. }
  unfold tca_elements.
  repeat match goal with
         | |- context[field false (codes "tca_wwNum") _] => rewrite LAST
         | |- context[field false (codes ?t) _] => erewrite (in_front (ascii_text t));
             [|exact GG|exact U|cbn [fs firstn In]; repeat (first [left; reflexivity|right])]; cbn [bind]
         | |- context[py_int (number_text _)] => rewrite int_of_number by assumption; cbn [bind]
         | |- context[py_float _] => first [rewrite F1|rewrite F2|rewrite F3]; cbn [bind]
         end.
  reflexivity.
Qed.
