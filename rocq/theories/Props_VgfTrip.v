(** Property C47: what is read back from a vector graphics file a program wrote. *)
From Coq Require Import Lia ZifyBool ZifyNat.
From Verif Require Import Base BaseFacts Floats Strings Structs VgfBase VgfRead Vgf SpecVgf SpecVgfTrip RoundFacts VgfTripFacts.
From Verif Require Props_Vgf.
From Coq Require Import List.
Import ListNotations.
Open Scope string_scope.
Open Scope list_scope.
Open Scope Z_scope.

(** Every list of elements, each with any history, that is written without an exception: opening
    the file ends, and yields the same elements in the same order; the file header is found with
    its version and notes.  Missing from the property as stated: text outside ASCII; symbol codes
    that are not finite; and the attributes and points come back as [same_element] says - points
    and bounds to two decimals, sizes to one, text sizes as multiples of 14 points. *)
Theorem C47_round_trip_partial : forall tca l bs,
  Forall built l -> Forall readable l -> to_vgf l = (bs, None) ->
  exists st x, opens tca bs (Ok st) /\ Forall2 same_element l (vs_elements st) /\ vs_header st = Some x /\
    ve_kind x = "FileHeaderElement" /\ same_header file_header (ve_hdr x) /\
    ve_attrs x = [("gempak_version", VText version_bytes); ("notes", VText (removelast notes_bytes))].
Proof. exact file_opens. Qed.
Print Assumptions C47_round_trip_partial.

(** Integer symbol codes are readable and come back unchanged. *)
Theorem C47_symbol_code : forall z w, Z.abs z < 2 ^ 24 ->
  (exists n, int_of_float (np32 (of_Z z)) = Ok n) /\ (read_as Code (VInt z) w <-> w = VInt z).
Proof.
  intros z w H. destruct (np32_of_Z z H) as [F Q]. pose proof (int_of_exact _ _ F Q) as E. split; [eauto|]. cbn. split.
  - intros (x & n & X & I & ->). injection X as <-. congruence.
  - intros ->. exists (of_Z z), z. auto.
Qed.
Print Assumptions C47_symbol_code.

(** Plain text comes back unchanged: no NUL, no '$$', no white space at its ends. *)
Fixpoint no_pair (s : str) : Prop :=
  match s with 36 :: ((36 :: _) as r) => False | _ :: r => no_pair r | [] => True end.
Definition plain (s : str) : Prop :=
  ~ In 0 s /\ no_pair s /\ (forall a r, s = a :: r -> uspace a = false) /\ (forall a r, s = r ++ [a] -> uspace a = false).
Lemma before_nul_plain s : ~ In 0 s -> before_nul s = s.
Proof.
  induction s as [|c s IH]; intros H; [reflexivity|]. cbn [before_nul]. destruct (Z.eqb_spec c 0); [subst; exfalso; apply H; cbn; auto|].
  rewrite IH; [reflexivity|]. intros I. apply H. cbn. auto.
Qed.
Lemma replace_plain s : no_pair s -> replace_dollars s = s.
Proof.
  induction s as [|c s IH]; intros H; [reflexivity|]. cbn [replace_dollars].
  assert (T : no_pair s).
  { destruct c as [|p|p]; try exact H. repeat (destruct p as [p|p|]; try exact H). destruct s as [|d s]; [exact I|].
    destruct d as [|q|q]; try exact H. repeat (destruct q as [q|q|]; try exact H). destruct H. }
  destruct (Z.eqb_spec c 36) as [->|NE]; [|rewrite IH by exact T; reflexivity]. destruct s as [|d s]; [reflexivity|].
  destruct (Z.eqb_spec d 36) as [->|NE]; [destruct H|]. f_equal. rewrite <- (IH T) at 2. reflexivity.
Qed.
Lemma ulstrip_plain s : (forall a r, s = a :: r -> uspace a = false) -> ulstrip s = s.
Proof. destruct s as [|a s]; intros H; [reflexivity|]. cbn [ulstrip]. rewrite (H _ _ eq_refl). reflexivity. Qed.
Theorem C47_plain_text : forall s w, plain s -> (read_as Cleaned (VText (s ++ [0])) w <-> w = VText s).
Proof.
  intros s w (N & P & L & R).
  assert (E : clean_text (before_nul s) = s).
  { rewrite before_nul_plain by exact N. unfold clean_text, ustrip. rewrite replace_plain by exact P. rewrite (ulstrip_plain s L).
    rewrite ulstrip_plain; [apply rev_involutive|]. intros a r H. apply (R a (rev r)). rewrite <- (rev_involutive s), H. reflexivity. }
  cbn. split.
  - intros (s' & X & ->). injection X as X. apply app_inj_tail in X as [<- _]. rewrite E. reflexivity.
  - intros ->. exists s. rewrite E. auto.
Qed.
Print Assumptions C47_plain_text.

(** A closed line of three points, a reversed special line, a front, text and a marker *)
Definition ex_closed : obj :=
  Props_Vgf.got (new_line [of_Z 10; of_Z 20; of_Z 15] [of_Z 30; of_Z 40; of_Z 50] (VInt 2) (VInt 1) (VInt 1) (VInt 0) (VInt 0) (VInt 3)).
Definition ex_special : obj :=
  Props_Vgf.got (new_special_line [of_Z 10; of_Z 20] [of_Z 30; of_Z 40] (VInt 2) (VInt 4) (VInt 0) (VInt 0) (VInt 1) (VInt 3) (VInt 0)
    (VFloat (of_Z 1)) (VInt (-1))).
Definition ex_marker : obj :=
  Props_Vgf.got (new_symbol true (VInt 10) (VInt 20) (VInt 7) (VInt 3) (VInt 1) (VInt 1) (VInt 0) (VInt 0)).
Definition ex_file : list obj := [ex_closed; ex_special; Props_Vgf.ex_front; Props_Vgf.ex_text; ex_marker].
Lemma ex_file_built : Forall built ex_file.
Proof.
  repeat constructor.
  - eapply b_line. apply Props_Vgf.got_ok. vm_compute. reflexivity.
  - eapply b_special_line. apply Props_Vgf.got_ok. vm_compute. reflexivity.
  - apply Props_Vgf.ex_front_built.
  - apply Props_Vgf.ex_text_built.
  - apply (b_symbol true (VInt 10) (VInt 20) (VInt 7) (VInt 3) (VInt 1) (VInt 1) (VInt 0) (VInt 0)). apply Props_Vgf.got_ok. vm_compute. reflexivity.
Qed.
Lemma readable_check o : match o_get o "text" with VText s => forallb (fun c => (0 <=? c) && (c <? 128)) s | _ => true end = true ->
  match number (o_get o "symbol_code") with Some x => is_ok (int_of_float (np32 x)) | None => true end = true -> readable o.
Proof.
  intros A B. split.
  - intros s H. rewrite H in A. rewrite forallb_forall in A. apply Forall_forall. intros c I. specialize (A c I). lia.
  - intros x H. rewrite H in B. destruct (int_of_float (np32 x)); [eauto|discriminate].
Qed.
Lemma ex_file_readable : Forall readable ex_file.
Proof. repeat constructor; apply readable_check; vm_compute; reflexivity. Qed.
Definition no_tca (h : vhdr) (s : str) : res (list velem) := Ok [].
Definition ex_open : option (list (string * coords * coords)) :=
  match vgf_open no_tca 10 (fst (to_vgf ex_file)) with
  | Some (Ok st) => Some (map (fun e => (ve_kind e, ve_lat e, ve_lon e)) (vs_elements st))
  | _ => None
  end.
Definition ex_floats (l : list Z) : coords := CoArr (map (fun z => np32 (of_Z z)) l).
Example C47_example :
  Forall built ex_file /\ Forall readable ex_file /\ snd (to_vgf ex_file) = None /\
  ex_open = Some [("LineElement", ex_floats [30; 40; 50; 30], ex_floats [10; 20; 15; 10]);
                  ("SpecialLineElement", ex_floats [40; 30], ex_floats [20; 10]);
                  ("FrontElement", ex_floats [40; 41; 42], ex_floats [-90; -91; -92]);
                  ("SpecialTextElement", CoNone, CoNone); ("SymbolElement", CoNone, CoNone)].
Proof. split; [exact ex_file_built|]. split; [exact ex_file_readable|]. split; vm_compute; reflexivity. Qed.
Example C47_text_example : plain [72; 101; 36; 32; 36; 105].
Proof.
  split; [cbn; intuition discriminate|]. split; [cbn; exact I|]. split; intros a r H.
  - injection H as <- _. reflexivity.
  - apply (f_equal (@rev Z)) in H. rewrite rev_app_distr in H. cbn in H. injection H as <- _. reflexivity.
Qed.

(** ** What is not covered is false *)
(** Text outside ASCII can be written and makes the file unreadable: two letters e with an acute
    accent are cut in the middle of the second. *)
Definition ex_accents : obj :=
  Props_Vgf.got (new_special_text (VInt 10) (VInt 20) (VText [233; 233]) (VInt 1) (VInt 14) (VInt 0) (VInt 21) (VInt 0)
          VNone VNone (VInt 0) (VInt 0) (VInt 0) (VInt 0)).
Theorem C47_text_refuted : forall tca, exists o, built o /\ snd (to_vgf [o]) = None /\
  opens tca (fst (to_vgf [o])) (Err UnicodeError).
Proof.
  intros tca. exists ex_accents. split.
  - eapply b_special_text. apply Props_Vgf.got_ok. vm_compute. reflexivity.
  - split; [vm_compute; reflexivity|]. exists 5%nat. vm_compute. reflexivity.
Qed.
Print Assumptions C47_text_refuted.

(** Points are read back to two decimals only: 40.125 is stored exactly and read as 40.12. *)
Definition ex_fine : obj :=
  Props_Vgf.got (new_line [of_Z 10; of_Z 20] [of_Z 30; fdiv (of_Z 321) (of_Z 8)] (VInt 2) (VInt 1) (VInt 0) (VInt 0) (VInt 0) (VInt 3)).
Definition lats (st : option (res vstate)) : list coords :=
  match st with Some (Ok s) => map ve_lat (vs_elements s) | _ => [] end.
Theorem C47_decimals_refuted : forall tca, exists o n, built o /\ snd (to_vgf [o]) = None /\
  lats (vgf_open tca n (fst (to_vgf [o]))) = [CoArr [np32 (of_Z 30); np32 (fdiv (of_Z 4012) (of_Z 100))]] /\
  o_lat o = [np32 (of_Z 30); np32 (fdiv (of_Z 321) (of_Z 8))] /\
  SFltb (np32 (fdiv (of_Z 4012) (of_Z 100))) (np32 (fdiv (of_Z 321) (of_Z 8))) = true.
Proof.
  intros tca. exists ex_fine, 5%nat. split.
  - eapply b_line. apply Props_Vgf.got_ok. vm_compute. reflexivity.
  - repeat split; vm_compute; reflexivity.
Qed.
Print Assumptions C47_decimals_refuted.

(** Text of 10 points comes back with size 0.714. *)
Definition ex_small : obj :=
  Props_Vgf.got (new_special_text (VInt 10) (VInt 20) (VText [72; 105]) (VInt 1) (VInt 10) (VInt 0) (VInt 21) (VInt 0)
          VNone VNone (VInt 0) (VInt 0) (VInt 0) (VInt 0)).
Definition sizes (st : option (res vstate)) : list (option pyval) :=
  match st with Some (Ok s) => map (fun e => lookup "size" (ve_attrs e)) (vs_elements s) | _ => [] end.
Theorem C47_text_size_refuted : forall tca, exists o n, built o /\ o_get o "size" = VInt 10 /\ snd (to_vgf [o]) = None /\
  sizes (vgf_open tca n (fst (to_vgf [o]))) = [Some (VFloat (fdiv (of_Z 714) (of_Z 1000)))].
Proof.
  intros tca. exists ex_small, 5%nat. split.
  - eapply b_special_text. apply Props_Vgf.got_ok. vm_compute. reflexivity.
  - repeat split; vm_compute; reflexivity.
Qed.
Print Assumptions C47_text_size_refuted.
