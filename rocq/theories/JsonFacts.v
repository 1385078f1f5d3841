(** Lemmas about Json.v: the text of a value is read back. *)
From Coq Require Import ZArith Lia ZifyBool ZifyNat String SpecFloat.
From Verif Require Import Base BaseFacts Floats Strings StringsFacts Structs VgfBase Utf8Facts VgfRead Tca Json SpecJson.
From Coq Require Import List.
Import ListNotations.
Open Scope string_scope.
Open Scope list_scope.
Open Scope Z_scope.

(** ** Strings *)
Lemma hex_back d : 0 <= d < 16 -> hex_value (hex_digit d) = Some d.
Proof.
  intros H. unfold hex_digit, hex_value, between. destruct (Z.ltb_spec d 10).
  - replace ((48 <=? 48 + d) && (48 + d <=? 57)) with true by lia. f_equal. lia.
  - replace ((48 <=? 87 + d) && (87 + d <=? 57)) with false by lia. replace ((97 <=? 87 + d) && (87 + d <=? 102)) with true by lia. f_equal. lia.
Qed.
Lemma u_units c s : 0 <= c < 65536 -> string_units (u_escape c ++ s) = option_map (fun p => (c :: fst p, snd p)) (string_units s).
Proof.
  intros H. unfold u_escape. cbn [app]. cbn [string_units]. cbn [Z.eqb Pos.eqb orb].
  rewrite !hex_back by lia. replace (c / 4096 mod 16 * 4096 + c / 256 mod 16 * 256 + c / 16 mod 16 * 16 + c mod 16) with c by lia. reflexivity.
Qed.
(** UTF-16 code units *)
Definition units (c : Z) : str := if c <? 65536 then [c] else [55296 + (c - 65536) / 1024; 56320 + (c - 65536) mod 1024].
Lemma escape_units c s : scalar c -> string_units (escape c ++ s) = option_map (fun p => (units c ++ fst p, snd p)) (string_units s).
Proof.
  intros S. assert (0 <= c < 1114112) as R by (unfold scalar in S; lia). unfold escape, units.
  destruct (Z.eqb_spec c 34); [subst; reflexivity|]. destruct (Z.eqb_spec c 92); [subst; reflexivity|]. destruct (Z.eqb_spec c 10); [subst; reflexivity|].
  destruct (Z.eqb_spec c 13); [subst; reflexivity|]. destruct (Z.eqb_spec c 9); [subst; reflexivity|]. destruct (Z.eqb_spec c 12); [subst; reflexivity|].
  destruct (Z.eqb_spec c 8); [subst; reflexivity|]. destruct (between 32 126 c) eqn:B.
  - unfold between in B. replace (c <? 65536) with true by lia. cbn [app string_units]. replace (c =? 34) with false by lia. replace (c =? 92) with false by lia. replace (c <? 32) with false by lia. reflexivity.
  - destruct (Z.ltb_spec c 65536).
    + apply u_units. lia.
    + cbv zeta. rewrite <- app_assoc, u_units by lia. rewrite u_units by lia. destruct (string_units s) as [[a b]|]; reflexivity.
Qed.
Lemma all_units s r : text s -> string_units (concat (map escape s) ++ 34 :: r) = Some (concat (map units s), r).
Proof.
  induction 1 as [|c s S T IH]; [reflexivity|]. cbn [map concat]. rewrite <- app_assoc, escape_units by assumption. rewrite IH. reflexivity.
Qed.
Lemma pairs_back s : text s -> pair_up (concat (map units s)) = s.
Proof.
  induction 1 as [|c s S T IH]; [reflexivity|]. cbn [map concat]. unfold units at 1. unfold scalar in S. destruct (Z.ltb_spec c 65536).
  - cbn [app pair_up]. destruct (concat (map units s)) as [|b t] eqn:E; [cbn in IH; subst; reflexivity|]. replace (between 55296 56319 c) with false by (unfold between; lia). cbn [andb]. f_equal. exact IH.
  - cbn [app pair_up]. replace (between 55296 56319 (55296 + (c - 65536) / 1024)) with true by (unfold between; lia).
    replace (between 56320 57343 (56320 + (c - 65536) mod 1024)) with true by (unfold between; lia). cbn [andb]. f_equal; [lia|exact IH].
Qed.
Lemma string_back s r : text s -> read_string (concat (map escape s) ++ 34 :: r) = Some (s, r).
Proof. intros T. unfold read_string. rewrite all_units by assumption. cbn [option_map fst snd]. rewrite pairs_back by assumption. reflexivity. Qed.

(** ** Numbers *)
(** What may follow a value *)
Definition follows (r : str) : Prop := r = [] \/ exists c t, r = c :: t /\ (c = 44 \/ c = 93 \/ c = 125).
Lemma digits_app s r : follows r -> digits (s ++ r) = (fst (digits s), snd (digits s) ++ r).
Proof.
  intros F. induction s as [|c s IH].
  - cbn [app digits fst snd]. destruct F as [->|(c & t & -> & C)]; [reflexivity|]. cbn [digits]. replace (is_digit c) with false by (unfold is_digit; lia). reflexivity.
  - cbn [app digits]. destruct (is_digit c); [|reflexivity]. rewrite IH. destruct (digits s). reflexivity.
Qed.
Lemma optional_app f s r : follows r -> (forall c, c = 44 \/ c = 93 \/ c = 125 -> f c = false) -> optional f (s ++ r) = (fst (optional f s), snd (optional f s) ++ r).
Proof.
  intros F N. destruct s as [|c s]; cbn [app optional fst snd].
  - destruct F as [->|(c & t & -> & C)]; [reflexivity|]. cbn [optional]. rewrite (N c C). reflexivity.
  - destruct (f c); reflexivity.
Qed.
Lemma fraction_app s r : follows r -> fraction (s ++ r) = (fst (fraction s), snd (fraction s) ++ r).
Proof.
  intros F. destruct s as [|c s]; cbn [app fraction fst snd].
  - destruct F as [->|(c & t & -> & C)]; [reflexivity|]. cbn [fraction]. replace (c =? 46) with false by lia. reflexivity.
  - destruct (c =? 46); [|reflexivity]. rewrite digits_app by assumption. destruct (digits s) as [[|d l] u]; reflexivity.
Qed.
Lemma exponent_app s r : follows r -> exponent_part (s ++ r) = (fst (exponent_part s), snd (exponent_part s) ++ r).
Proof.
  intros F. destruct s as [|c s]; cbn [app exponent_part fst snd].
  - destruct F as [->|(c & t & -> & C)]; [reflexivity|]. cbn [exponent_part]. replace ((c =? 101) || (c =? 69)) with false by lia. reflexivity.
  - destruct ((c =? 101) || (c =? 69)); [|reflexivity]. rewrite optional_app by (try assumption; intros ? [->|[->| ->]]; reflexivity). destruct (optional _ s) as [sg u]. cbn [fst snd].
    rewrite digits_app by assumption. destruct (digits u) as [[|d l] v]; reflexivity.
Qed.
Lemma scan_app s b t r0 r : follows r -> scan_number s = Some (b, t, r0) -> scan_number (s ++ r) = Some (b, t, r0 ++ r).
Proof.
  intros F. unfold scan_number. rewrite optional_app by (try assumption; intros ? [->|[->| ->]]; reflexivity). destruct (optional (Z.eqb 45) s) as [sg s1]. cbn [fst snd].
  rewrite digits_app by assumption. destruct (digits s1) as [ip s2]. cbn [fst snd]. destruct ip as [|c l]; [discriminate|]. destruct (_ && _); [discriminate|].
  rewrite fraction_app by assumption. destruct (fraction s2) as [fr s3]. cbn [fst snd]. rewrite exponent_app by assumption. destruct (exponent_part s3) as [ex s4]. cbn [fst snd]. intros H. injection H as <- <- <-. reflexivity.
Qed.
Lemma digits_all s : forallb is_digit s = true -> digits s = (s, []).
Proof. induction s as [|c s IH]; [reflexivity|]. cbn [forallb digits]. intros H. apply andb_prop in H as [H1 H2]. rewrite H1, IH by assumption. reflexivity. Qed.

Lemma fixed_head k n : 10 ^ Z.of_nat k <= n < 10 ^ Z.of_nat (S k) -> exists c t, fixed (S k) n = c :: t /\ c <> 48 /\ is_digit c = true /\ length t = k.
Proof.
  revert n. induction k as [|k IH]; intros n H.
  - cbn in H. cbn [fixed app]. exists (48 + n mod 10), []. repeat split; [lia|unfold is_digit; lia].
  - rewrite !pow10_S in H. destruct (IH (n / 10)) as (c & t & E & C1 & C2 & L). { rewrite pow10_S. generalize dependent (10 ^ Z.of_nat k). intros; lia. }
    exists c, (t ++ [48 + n mod 10]). change (fixed (S (S k)) n) with (fixed (S k) (n / 10) ++ [48 + n mod 10]). rewrite E. repeat split; try assumption. rewrite app_length, L. cbn. lia.
Qed.
Lemma dec_head n : 0 <= n -> exists c t, dec n = c :: t /\ is_digit c = true /\ forallb is_digit t = true /\ (c = 48 -> t = []).
Proof.
  intros H. destruct (dec_spec n H) as (k & K & -> & L & Q). pose proof (fixed_digits k n) as D. destruct Q as [->|Q].
  - cbn [fixed app] in *. exists (48 + n mod 10), []. cbn [forallb] in D. rewrite Bool.andb_true_r in D. auto.
  - destruct k as [|k]; [lia|]. replace (S k - 1)%nat with k in Q by lia. destruct (fixed_head k n (conj Q L)) as (c & t & E & C1 & C2 & _). rewrite E in *. cbn [forallb] in D. apply andb_prop in D as [_ D].
    exists c, t. repeat split; auto. intros; contradiction.
Qed.
Lemma digit_not c : is_digit c = true -> c <> 45 /\ c <> 34 /\ c <> 91 /\ c <> 123 /\ c <> 93 /\ c <> 125 /\ c <> 116 /\ c <> 102 /\ c <> 110 /\ c <> 32 /\ c <> 9 /\ c <> 10 /\ c <> 13.
Proof. unfold is_digit. lia. Qed.
Lemma scan_dec sg n : 0 <= n -> sg = [] \/ sg = [45] -> scan_number (sg ++ dec n) = Some (true, sg ++ dec n, []).
Proof.
  intros H S. destruct (dec_head n H) as (c & t & E & C & D & Q). rewrite E. unfold scan_number.
  assert (optional (Z.eqb 45) (sg ++ c :: t) = (sg, c :: t)) as ->. { destruct S as [->| ->]; cbn [app optional]; [|reflexivity]. destruct (Z.eqb_spec 45 c); [|reflexivity]. subst. discriminate C. }
  rewrite digits_all by (cbn [forallb]; rewrite C, D; reflexivity). replace ((c =? 48) && _) with false. 2: { destruct (Z.eqb_spec c 48) as [->|]; [|reflexivity]. rewrite (Q eq_refl). reflexivity. }
  cbn [fraction exponent_part app]. rewrite !app_nil_r. reflexivity.
Qed.
Lemma int_back z : scan_number (int_text z) = Some (true, int_text z, []) /\ py_int (int_text z) = Ok z.
Proof.
  unfold int_text. assert (P : forall n, 0 <= n -> py_int (dec n) = Ok n).
  { intros n N. destruct (dec_spec n N) as (k & K & -> & L & _). rewrite py_int_fixed by assumption. rewrite Z.mod_small by lia. reflexivity. }
  destruct (Z.ltb_spec z 0).
  - split; [apply (scan_dec [45] (- z)); [lia|auto]|]. destruct (dec_spec (- z) ltac:(lia)) as (k & K & E & L & _).
    assert (strip (45 :: dec (- z)) = 45 :: dec (- z)) as ST.
    { rewrite E. unfold strip. rewrite lstrip_nospace by reflexivity. unfold rstrip. cbn [rev]. destruct k as [|k]; [lia|]. cbn [fixed]. rewrite rev_app_distr. cbn [rev app].
      rewrite lstrip_nospace by (unfold is_space; lia). cbn [rev]. rewrite rev_app_distr, rev_involutive. reflexivity. }
    unfold py_int. rewrite ST. cbn [Z.eqb Pos.eqb]. rewrite E, int_digits_fixed by auto. cbn [bind]. f_equal. rewrite Z.mod_small by lia. lia.
  - split; [apply (scan_dec [] z); [lia|auto]|]. apply P. lia.
Qed.
Lemma scan_start s b t r : scan_number s = Some (b, t, r) -> exists c u, s = c :: u /\ (c = 45 \/ is_digit c = true).
Proof.
  destruct s as [|c u]; [discriminate|]. intros H. exists c, u. split; [reflexivity|]. unfold scan_number in H. cbn [optional] in H. destruct (Z.eqb_spec 45 c) as [<-|N]; [auto|]. cbn [digits] in H.
  destruct (is_digit c); [auto|discriminate].
Qed.
Lemma space_id c r : c <> 32 -> c <> 9 -> c <> 10 -> c <> 13 -> skip_space (c :: r) = c :: r.
Proof. intros. cbn [skip_space]. replace ((c =? 32) || (c =? 9) || (c =? 10) || (c =? 13)) with false by lia. reflexivity. Qed.
Lemma prefix_no p s a c r : p = a :: s -> a <> c -> after_prefix p (c :: r) = None.
Proof. intros -> N. cbn. destruct (Z.eqb_spec a c); congruence. Qed.
Lemma value_number n s b t r : scan_number s = Some (b, t, r) ->
  value (S n) s = if b then match py_int t with Ok z => Some (JInt z, r) | Err _ => None end else match py_float t with Ok x => Some (JFloat x, r) | Err _ => None end.
Proof.
  intros H. destruct (scan_start _ _ _ _ H) as (c & u & -> & C). cbn [value].
  assert (c <> 34 /\ c <> 91 /\ c <> 123 /\ c <> 116 /\ c <> 102 /\ c <> 110 /\ c <> 32 /\ c <> 9 /\ c <> 10 /\ c <> 13) as (N1 & N2 & N3 & N4 & N5 & N6 & N7 & N8 & N9 & N10) by (unfold is_digit in C; lia).
  rewrite space_id by assumption. replace (c =? 34) with false by lia. replace (c =? 91) with false by lia. replace (c =? 123) with false by lia.
  rewrite (prefix_no (codes "true") (codes "rue") 116 c u eq_refl) by lia. rewrite (prefix_no (codes "false") (codes "alse") 102 c u eq_refl) by lia.
  rewrite (prefix_no (codes "null") (codes "ull") 110 c u eq_refl) by lia. rewrite H. destruct b; reflexivity.
Qed.

(** ** Values *)
Section Induction.
Variable P : pobj -> Prop.
Hypotheses (HI : forall z, P (PInt z)) (HF : forall x, P (PFloat x)) (HT : forall s, P (PText s)) (HL : forall l, Forall P l -> P (PList l))
  (HD : forall m, Forall (fun p => P (snd p)) m -> P (PDict m)) (HA : forall l, P (PArray l)) (HO : P POther).
Fixpoint pobj_rec' (o : pobj) : P o :=
  match o with
  | PInt z => HI z | PFloat x => HF x | PText s => HT s
  | PList l => HL l ((fix go l : Forall P l := match l with [] => Forall_nil _ | x :: r => Forall_cons x (pobj_rec' x) (go r) end) l)
  | PDict m => HD m ((fix go m : Forall (fun p => P (snd p)) m := match m with [] => Forall_nil _ | x :: r => Forall_cons x (pobj_rec' (snd x)) (go r) end) m)
  | PArray l => HA l | POther => HO
  end.
End Induction.

(** The value that is read back *)
Fixpoint tree (o : pobj) : jvalue :=
  match o with
  | PInt z => JInt z | PFloat x => JFloat x | PText s => JText s
  | PList l => JList (map tree l)
  | PDict m => JObject (map (fun p => (fst p, tree (snd p))) m)
  | PArray l => array_said l
  | POther => JNull
  end.

(** Values json.dumps knows, with floats that satisfy [ok] *)
Section Good.
Variable ok : flt -> Prop.
Fixpoint good (o : pobj) : Prop :=
  match o with
  | PInt _ => True | PFloat x => ok x | PText s => text s
  | PList l => (fix go l := match l with [] => True | x :: r => good x /\ go r end) l
  | PDict m => (fix go m := match m with [] => True | x :: r => (text (fst x) /\ good (snd x)) /\ go r end) m
  | PArray l => Forall (fun v => (match v with VFloat _ | VInt _ => True | _ => False end) /\ ok (two_decimals v)) l
  | POther => False
  end.
Lemma good_list l : good (PList l) <-> Forall good l.
Proof.
  induction l as [|x l IH]; [split; [constructor|exact (fun _ => I)]|]. cbn [good] in *. rewrite IH. split; [intros [A B]; constructor; assumption|]. intros F. split; [exact (Forall_inv F)|exact (Forall_inv_tail F)].
Qed.
Lemma good_dict m : good (PDict m) <-> Forall (fun p => text (fst p) /\ good (snd p)) m.
Proof.
  induction m as [|x l IH]; [split; [constructor|exact (fun _ => I)]|]. cbn [good] in *. rewrite IH. split; [intros [A B]; constructor; assumption|]. intros F. split; [exact (Forall_inv F)|exact (Forall_inv_tail F)].
Qed.
End Good.

Section Dumps.
Variable repr : flt -> str.
Notation dumps := (dumps repr).
Definition shown_float (x : flt) : Prop := finite x /\ reads_back repr x.
Lemma dumps_list l : dumps (PList l) = (ts <- mapM dumps l ;; Ok (91 :: joined ts ++ [93])).
Proof. cbn [Json.dumps]. f_equal. induction l as [|x l IH]; [reflexivity|]. cbn [mapM]. rewrite IH. reflexivity. Qed.
Definition member (p : str * pobj) : res str := t <- dumps (snd p) ;; Ok (quoted (fst p) ++ [58; 32] ++ t).
Lemma dumps_dict m : dumps (PDict m) = (ts <- mapM member m ;; Ok (123 :: joined ts ++ [125])).
Proof. cbn [Json.dumps]. f_equal. induction m as [|[k x] l IH]; [reflexivity|]. cbn [mapM]. unfold member at 1. cbn [fst snd]. rewrite IH. destruct (dumps x); reflexivity. Qed.

Lemma mapM_all {A B} (f : A -> res B) l : Forall (fun x => exists y, f x = Ok y) l -> exists ys, mapM f l = Ok ys.
Proof. induction 1 as [|x l (y & E) F (ys & IH)]; [exists []; reflexivity|]. exists (y :: ys). cbn [mapM]. rewrite E. cbn [bind]. rewrite IH. reflexivity. Qed.
Lemma mapM_forall2 {A B} (f : A -> res B) : forall l ys, mapM f l = Ok ys -> Forall2 (fun x y => f x = Ok y) l ys.
Proof.
  induction l as [|x l IH]; intros ys H; cbn [mapM] in H; [injection H as <-; constructor|]. destruct (f x) as [y|] eqn:E; cbn [bind] in H; [|discriminate]. destruct (mapM f l) as [zs|]; cbn [bind] in H; [|discriminate].
  injection H as <-. constructor; auto.
Qed.
Lemma good_dumps ok o : good ok o -> exists t, dumps o = Ok t.
Proof.
  induction o as [z|x|s|l IH|m IH|l|] using pobj_rec'; intros G; try (eexists; reflexivity).
  - apply good_list in G. rewrite dumps_list. destruct (mapM_all dumps l) as (ts & ->); [|eexists; reflexivity]. rewrite Forall_forall in *. intros x X. exact (IH x X (G x X)).
  - apply good_dict in G. rewrite dumps_dict. destruct (mapM_all member m) as (ts & ->); [|eexists; reflexivity]. rewrite Forall_forall in *. intros x X. destruct (IH x X (proj2 (G x X))) as (t & E). exists (quoted (fst x) ++ [58; 32] ++ t). unfold member. rewrite E. reflexivity.
  - cbn [Json.dumps]. destruct (mapM_all array_item l) as (ts & ->); [|eexists; reflexivity]. cbn [good] in G. rewrite Forall_forall in *. intros v V. destruct (G v V) as [K _]. destruct v; try contradiction; eexists; reflexivity.
  - contradiction.
Qed.

(** The first character of a value *)
Definition opening (c : Z) : Prop := c = 34 \/ c = 91 \/ c = 123 \/ c = 45 \/ is_digit c = true.
Lemma float_start x : shown_float x -> float_text repr x = repr x /\ scan_number (repr x) = Some (false, repr x, []) /\ py_float (repr x) = Ok x.
Proof. intros [F [A B]]. destruct x; cbn in F; try contradiction; auto. Qed.
Lemma dumps_start o t : good shown_float o -> dumps o = Ok t -> exists c u, t = c :: u /\ opening c.
Proof.
  unfold opening. intros G H. destruct o as [z|x|s|l|m|l|]; [| | |rewrite dumps_list in H|rewrite dumps_dict in H| |discriminate].
  - injection H as <-. destruct (scan_start _ _ _ _ (proj1 (int_back z))) as (c & u & E & C). exists c, u. tauto.
  - injection H as <-. destruct (float_start x G) as (-> & S & _). destruct (scan_start _ _ _ _ S) as (c & u & E & C). exists c, u. tauto.
  - injection H as <-. eexists _, _. split; [reflexivity|tauto].
  - destruct (mapM dumps l); [|discriminate]. injection H as <-. eexists _, _. split; [reflexivity|tauto].
  - destruct (mapM member m); [|discriminate]. injection H as <-. eexists _, _. split; [reflexivity|tauto].
  - cbn [Json.dumps] in H. destruct (mapM array_item l); [|discriminate]. injection H as <-. eexists _, _. split; [reflexivity|tauto].
Qed.
Lemma opening_id c r : opening c -> skip_space (c :: r) = c :: r.
Proof. unfold opening, is_digit. intros. apply space_id; lia. Qed.

(** The depth of recursion that is enough *)
Fixpoint need (o : pobj) : nat :=
  match o with
  | PList l => S (length l + fold_right (fun x n => Nat.max (need x) n) 0 l)
  | PDict m => S (length m + fold_right (fun x n => Nat.max (need (snd x)) n) 0 m)
  | PArray l => S (length l + 1)
  | _ => 1
  end%nat.

Lemma items_back B (ts : list (str * jvalue)) : forall r, ts <> [] ->
  (forall t v, In (t, v) ts -> forall n r, follows r -> (B <= n)%nat -> value n (t ++ r) = Some (v, r)) ->
  forall n, (length ts + B <= n)%nat -> items n (joined (map fst ts) ++ 93 :: r) = Some (map snd ts, r).
Proof.
  induction ts as [|[t v] ts IH]; intros r NE V n N; [congruence|]. cbn [length] in N. destruct n as [|n]; [lia|]. cbn [map fst snd].
  destruct ts as [|y ts].
  - cbn [map joined items]. rewrite (V t v) by (solve [left; reflexivity | lia | right; eexists _, _; split; [reflexivity|auto]]). reflexivity.
  - change (joined (t :: map fst (y :: ts))) with (t ++ [44; 32] ++ joined (map fst (y :: ts))). rewrite <- !app_assoc. cbn [items app].
    rewrite (V t v) by (solve [left; reflexivity | cbn [length] in N; lia | right; eexists _, _; split; [reflexivity|auto]]). rewrite space_id by lia. cbn [Z.eqb Pos.eqb].
    assert (items n (32 :: joined (map fst (y :: ts)) ++ 93 :: r) = items n (joined (map fst (y :: ts)) ++ 93 :: r)) as ->.
    { destruct n as [|k]; [reflexivity|]. cbn [items]. destruct k as [|k]; [reflexivity|]. cbn [value]. reflexivity. }
    rewrite (IH r); [reflexivity|discriminate|intros t' v' I; exact (V _ _ (or_intror I))|cbn [length] in N |- *; lia].
Qed.
Definition member_text (x : str * str * jvalue) : str := quoted (fst (fst x)) ++ [58; 32] ++ snd (fst x).
Lemma members_back B (ts : list (str * str * jvalue)) : forall r, ts <> [] -> (forall k t v, In (k, t, v) ts -> text k) ->
  (forall k t v, In (k, t, v) ts -> forall n r, follows r -> (B <= n)%nat -> value n (t ++ r) = Some (v, r)) ->
  forall n, (length ts + B <= n)%nat -> members n (joined (map member_text ts) ++ 125 :: r) = Some (map (fun x => (fst (fst x), snd x)) ts, r).
Proof.
  induction ts as [|[[k t] v] ts IH]; intros r NE TX V n N; [congruence|]. cbn [length] in N. destruct n as [|n]; [lia|]. cbn [map fst snd].
  assert (SP : forall s, value n (32 :: s) = value n s) by (intros s; destruct n; reflexivity).
  assert (HD : forall s, members (S n) (member_text (k, t, v) ++ s) = match value n (t ++ s) with None => None | Some (v, r3) => match skip_space r3 with
      | d :: r' => if d =? 44 then option_map (fun p => ((k, v) :: fst p, snd p)) (members n r') else if d =? 125 then Some ([(k, v)], r') else None | [] => None end end).
  { intros s. unfold member_text, quoted. cbn [app fst snd]. rewrite <- !app_assoc. cbn [app]. cbn [members]. rewrite space_id by lia. cbn [Z.eqb Pos.eqb negb]. rewrite string_back by (apply (TX k t v); left; reflexivity).
    rewrite space_id by lia. cbn [Z.eqb Pos.eqb negb]. rewrite SP. reflexivity. }
  destruct ts as [|y ts].
  - cbn [map joined]. rewrite HD. rewrite (V k t v) by (solve [left; reflexivity | lia | right; eexists _, _; split; [reflexivity|auto]]). reflexivity.
  - match goal with |- context [joined (?a :: map ?f (y :: ts))] => change (joined (a :: map f (y :: ts))) with (a ++ [44; 32] ++ joined (map f (y :: ts))) end.
    rewrite <- (app_assoc _ _ (125 :: r)). rewrite HD. rewrite (V k t v) by (solve [left; reflexivity | cbn [length] in N; lia | right; eexists _, _; split; [reflexivity|auto]]). cbn [app]. rewrite space_id by lia. cbn [Z.eqb Pos.eqb].
    match goal with |- context [members n (32 :: ?s)] => assert (members n (32 :: s) = members n s) as -> by (destruct n; reflexivity) end.
    rewrite (IH r); [reflexivity|discriminate|intros k' t' v' I; exact (TX _ _ _ (or_intror I))|intros k' t' v' I; exact (V _ _ _ (or_intror I))|cbn [length] in N |- *; lia].
Qed.

Lemma joined_start ts c u : (exists t l, ts = t :: l /\ exists w, t = c :: w) -> exists w, joined ts ++ u = c :: w.
Proof. intros (t & l & -> & w & ->). destruct l; cbn [joined app]; eexists; reflexivity. Qed.
Lemma list_value k ts B r : (forall t v, In (t, v) ts -> exists c u, t = c :: u /\ opening c) ->
  (forall t v, In (t, v) ts -> forall n r, follows r -> (B <= n)%nat -> value n (t ++ r) = Some (v, r)) -> (length ts + B <= k)%nat ->
  value (S k) (91 :: (joined (map fst ts) ++ [93]) ++ r) = Some (JList (map snd ts), r).
Proof.
  intros ST V K. rewrite <- app_assoc. cbn [app]. cbn [value]. rewrite space_id by lia. cbn [Z.eqb Pos.eqb]. destruct ts as [|[t v] ts]; [reflexivity|].
  destruct (ST t v (or_introl eq_refl)) as (c & u & E & C). destruct (joined_start (map fst ((t, v) :: ts)) c (93 :: r)) as (w & W). { exists t, (map fst ts). split; [reflexivity|]. exists u. exact E. }
  rewrite W, opening_id by assumption. replace (c =? 93) with false by (unfold opening, is_digit in C; lia). rewrite <- W. rewrite (items_back B) by (try assumption; discriminate). reflexivity.
Qed.
Lemma dict_value k ts B r : (forall k t v, In (k, t, v) ts -> text k) ->
  (forall k t v, In (k, t, v) ts -> forall n r, follows r -> (B <= n)%nat -> value n (t ++ r) = Some (v, r)) -> (length ts + B <= k)%nat ->
  value (S k) (123 :: (joined (map member_text ts) ++ [125]) ++ r) = Some (JObject (map (fun x => (fst (fst x), snd x)) ts), r).
Proof.
  intros TX V K. rewrite <- app_assoc. cbn [app]. cbn [value]. rewrite space_id by lia. cbn [Z.eqb Pos.eqb]. destruct ts as [|x ts]; [reflexivity|].
  destruct (joined_start (map member_text (x :: ts)) 34 (125 :: r)) as (w & W). { eexists _, _. split; [reflexivity|]. eexists. reflexivity. }
  rewrite W, space_id by lia. cbn [Z.eqb Pos.eqb]. rewrite <- W. rewrite (members_back B) by (try assumption; discriminate). reflexivity.
Qed.

Lemma float_value x n r : shown_float x -> follows r -> (1 <= n)%nat -> value n (float_text repr x ++ r) = Some (JFloat x, r).
Proof.
  intros G F N. destruct n as [|n]; [lia|]. destruct (float_start x G) as (-> & S & P). rewrite (value_number n _ _ _ _ (scan_app _ _ _ _ r F S)). rewrite P. reflexivity.
Qed.
Lemma max_in {A} (f : A -> nat) l x : In x l -> (f x <= fold_right (fun x n => Nat.max (f x) n) 0 l)%nat.
Proof. induction l as [|y l IH]; [contradiction|]. cbn [fold_right]. intros [->|I]; [lia|specialize (IH I); lia]. Qed.
Lemma forall2_pairs {A B C} (P : A -> B -> Prop) (f : A -> C) l : forall ys, Forall2 P l ys -> exists ts, ys = map fst ts /\ map f l = map snd ts /\ length ts = length l /\ forall t v, In (t, v) ts -> exists x, In x l /\ P x t /\ v = f x.
Proof.
  induction 1 as [|x y l ys H F (ts & E1 & E2 & L & IH)].
  - exists []. repeat split. intros t v [].
  - exists ((y, f x) :: ts). cbn [map fst snd length]. rewrite <- E1, <- E2, L. repeat split. intros t v [E|I]; [injection E as <- <-; exists x; split; [left; reflexivity|auto]|]. destruct (IH t v I) as (z & Z & Q). exists z. split; [right; exact Z|exact Q].
Qed.
Lemma back o : good shown_float o -> forall t n r, dumps o = Ok t -> follows r -> (need o <= n)%nat -> value n (t ++ r) = Some (tree o, r).
Proof.
  induction o as [z|x|s|l IH|m IH|l|] using pobj_rec'; intros G t n r H F N; (destruct n as [|n]; [cbn [need] in N; lia|]).
  - injection H as <-. destruct (int_back z) as [S P]. rewrite (value_number n _ _ _ _ (scan_app _ _ _ _ r F S)). rewrite P. reflexivity.
  - injection H as <-. apply float_value; [exact G|exact F|lia].
  - injection H as <-. unfold quoted. cbn [app value]. rewrite space_id by lia. cbn [Z.eqb Pos.eqb]. rewrite <- app_assoc. cbn [app]. rewrite string_back by exact G. reflexivity.
  - rewrite dumps_list in H. apply good_list in G. destruct (mapM dumps l) as [ts|] eqn:E; [|discriminate]. injection H as <-. apply mapM_forall2 in E.
    destruct (forall2_pairs _ tree _ _ E) as (ps & -> & E2 & L & I). cbn [tree need] in *. rewrite E2. apply (list_value n ps (fold_right (fun x n => Nat.max (need x) n) 0%nat l)); [| |apply le_S_n; etransitivity; [|exact N]; apply le_n_S, Nat.add_le_mono_r, Nat.eq_le_incl; exact L].
    + intros t v T. destruct (I t v T) as (x & X & D & _). rewrite Forall_forall in G. exact (dumps_start x t (G x X) D).
    + intros t v T k r' F' K. destruct (I t v T) as (x & X & D & ->). rewrite Forall_forall in *. pose proof (max_in need l x X). apply IH; auto. lia.
  - rewrite dumps_dict in H. apply good_dict in G. destruct (mapM member m) as [ts|] eqn:E; [|discriminate]. injection H as <-. apply mapM_forall2 in E.
    assert (exists ps, ts = map member_text ps /\ map (fun p => (fst p, tree (snd p))) m = map (fun x => (fst (fst x), snd x)) ps /\ length ps = length m /\
              forall k t v, In (k, t, v) ps -> exists x, In (k, x) m /\ dumps x = Ok t /\ v = tree x) as (ps & -> & E2 & L & I).
    { clear - E. induction E as [|[k x] y m ys H F (ps & E1 & E2 & L & IH)].
      - exists []. repeat split. intros k t v [].
      - unfold member in H. cbn [fst snd] in H. destruct (dumps x) as [t|] eqn:D; [|discriminate]. injection H as <-. exists ((k, t, tree x) :: ps). cbn [map fst snd length]. rewrite <- E1, <- E2, L. repeat split.
        intros k' t' v' [Q|I]; [injection Q as <- <- <-; exists x; split; [left; reflexivity|auto]|]. destruct (IH _ _ _ I) as (z & Z & Q). exists z. split; [right; exact Z|exact Q]. }
    cbn [tree need] in *. rewrite E2. apply (dict_value n ps (fold_right (fun x n => Nat.max (need (snd x)) n) 0%nat m)); [| |apply le_S_n; etransitivity; [|exact N]; apply le_n_S, Nat.add_le_mono_r, Nat.eq_le_incl; exact L].
    + intros k t v T. destruct (I _ _ _ T) as (x & X & _). rewrite Forall_forall in G. exact (proj1 (G _ X)).
    + intros k t v T j r' F' K. destruct (I _ _ _ T) as (x & X & D & ->). rewrite Forall_forall in *. pose proof (max_in (fun x => need (snd x)) m _ X) as M. cbn [snd] in M. apply (IH _ X (proj2 (G _ X))); auto. cbn [snd]. lia.
  - cbn [Json.dumps] in H. cbn [good] in G. destruct (mapM array_item l) as [xs|] eqn:E; [|discriminate]. injection H as <-. apply mapM_forall2 in E.
    assert (exists ps, map (float_text repr) xs = map fst ps /\ map (fun v => JFloat (two_decimals v)) l = map snd ps /\ length ps = length l /\ forall t v, In (t, v) ps -> exists x, t = float_text repr x /\ v = JFloat x /\ shown_float x) as (ps & E1 & E2 & L & I).
    { clear - E G. induction E as [|v x l xs H F IH].
      - exists []. repeat split. intros t v [].
      - destruct (IH (Forall_inv_tail G)) as (ps & E1 & E2 & L & I). apply Forall_inv in G. destruct G as [K S]. assert (x = two_decimals v) as ->. { destruct v; try contradiction; injection H as <-; reflexivity. }
        exists ((float_text repr (two_decimals v), JFloat (two_decimals v)) :: ps). cbn [map fst snd length]. rewrite <- E1, <- E2, L. repeat split. intros t w [Q|J]; [injection Q as <- <-; eauto|exact (I t w J)]. }
    rewrite E1. cbn [tree need] in *. unfold array_said. rewrite E2. apply (list_value n ps 1%nat); [| |apply le_S_n; etransitivity; [|exact N]; apply le_n_S, Nat.add_le_mono_r, Nat.eq_le_incl; exact L].
    + intros t v T. destruct (I t v T) as (x & -> & -> & S). destruct (float_start x S) as (-> & Q & _). destruct (scan_start _ _ _ _ Q) as (c & u & U & C). exists c, u. split; [exact U|unfold opening; tauto].
    + intros t v T k r' F' K. destruct (I t v T) as (x & -> & -> & S). apply float_value; assumption.
  - contradiction.
Qed.

Lemma joined_length ts : (length (concat ts) + 2 * length ts <= length (joined ts) + 2)%nat.
Proof.
  induction ts as [|t ts A]; [cbn; lia|]. destruct ts as [|y ts]; [cbn [concat joined length]; rewrite app_nil_r; lia|].
  change (joined (t :: y :: ts)) with (t ++ [44; 32] ++ joined (y :: ts)). cbn [concat]. cbn [concat] in A. rewrite !app_length in *. cbn [length] in *. lia.
Qed.
Lemma concat_in (ts : list str) t : In t ts -> (length t <= length (concat ts))%nat.
Proof. induction ts as [|y ts IH]; [contradiction|]. cbn [concat]. rewrite app_length. intros [->|I]; [lia|specialize (IH I); lia]. Qed.
Lemma max_le {A} (f : A -> nat) l b : (forall x, In x l -> (f x <= b)%nat) -> (fold_right (fun x n => Nat.max (f x) n) 0 l <= b)%nat.
Proof. induction l as [|y l IH]; intros H; cbn [fold_right]; [lia|]. specialize (H y (or_introl eq_refl)) as H1. assert (fold_right (fun x n => Nat.max (f x) n) 0%nat l <= b)%nat by (apply IH; intros x X; apply H; right; exact X). lia. Qed.
Lemma forall2_found {A B} (P : A -> B -> Prop) l ts x : Forall2 P l ts -> In x l -> exists t, In t ts /\ P x t.
Proof. induction 1 as [|a b l ts H F J]; [contradiction|]. intros [->|X]; [exists b; split; [left; reflexivity|exact H]|]. destruct (J X) as (t & T & D). exists t. split; [right; exact T|exact D]. Qed.
Lemma bound {A} (f : A -> nat) (P : A -> str -> Prop) l ts : Forall2 P l ts -> (forall x t, In x l -> P x t -> (f x <= 2 * length t)%nat) ->
  (S (length l + fold_right (fun x n => Nat.max (f x) n) 0 l) <= 2 * (length (joined ts) + 2))%nat.
Proof.
  intros E H. pose proof (joined_length ts) as C. assert (length ts = length l) as L by (clear -E; induction E; cbn [length]; congruence).
  assert (fold_right (fun x n => Nat.max (f x) n) 0%nat l <= 2 * length (concat ts))%nat.
  { apply max_le. intros x X. destruct (forall2_found _ _ _ _ E X) as (t & T & D). specialize (H x t X D). pose proof (concat_in _ _ T). lia. }
  destruct l; cbn [length fold_right] in *; unfold str in *; lia.
Qed.
Lemma need_length o : good shown_float o -> forall t, dumps o = Ok t -> (need o <= 2 * length t)%nat.
Proof.
  induction o as [z|x|s|l IH|m IH|l|] using pobj_rec'; intros G t H; [| | | | | |contradiction].
  1-3: destruct (dumps_start _ _ G H) as (c & u & -> & _); cbn [need length]; lia.
  - rewrite dumps_list in H. apply good_list in G. destruct (mapM dumps l) as [ts|] eqn:E; [|discriminate]. injection H as <-. apply mapM_forall2 in E. rewrite Forall_forall in *.
    pose proof (bound need _ l ts E (fun x t X D => IH x X (G x X) t D)) as B. cbn [need length]. rewrite app_length. cbn [length]. lia.
  - rewrite dumps_dict in H. apply good_dict in G. destruct (mapM member m) as [ts|] eqn:E; [|discriminate]. injection H as <-. apply mapM_forall2 in E. rewrite Forall_forall in *.
    assert (B : (S (length m + fold_right (fun x n => Nat.max (need (snd x)) n) 0 m) <= 2 * (length (joined ts) + 2))%nat).
    { apply (bound (fun x => need (snd x)) _ m ts E). intros x t X D. unfold member in D. destruct (dumps (snd x)) as [u|] eqn:U; [|discriminate]. injection D as <-. specialize (IH x X (proj2 (G x X)) u U). cbn [length]. rewrite app_length. cbn [length]. lia. }
    cbn [need length]. rewrite app_length. cbn [length]. lia.
  - cbn [Json.dumps] in H. destruct (mapM array_item l) as [xs|] eqn:E; [|discriminate]. injection H as <-. apply mapM_forall2 in E. pose proof (joined_length (map (float_text repr) xs)) as B. rewrite map_length in B.
    assert (length xs = length l) as L by (clear -E; induction E; cbn [length]; congruence). cbn [need length]. rewrite app_length. cbn [length]. lia.
Qed.
Theorem loads_back o : good shown_float o -> exists t, dumps o = Ok t /\ loads t = Some (tree o).
Proof.
  intros G. destruct (good_dumps _ o G) as (t & D). exists t. split; [exact D|]. unfold loads. pose proof (need_length o G t D). rewrite <- (app_nil_r t) at 2. rewrite (back o G t _ [] D) by (try (left; reflexivity); lia). reflexivity.
Qed.
End Dumps.
