(** The JSON text of a vector graphics file (C87).

    The specification is SpecJson.v: how JSON is read, and what the object of an element holds. *)
From Coq Require Import ZArith Lia ZifyBool ZifyNat String SpecFloat.
From Verif Require Import Base BaseFacts Floats Strings Structs Tools VgfBase VgfTables VgfRead SpecVgf Tca Json SpecJson JsonFacts JsonElemFacts JsonReadFacts Props_VgfFields.
From Coq Require Import List.
Import ListNotations.
Open Scope string_scope.
Open Scope list_scope.
Open Scope Z_scope.

Definition jet (e : velem) : Prop := ve_kind e = "JetElement".

(** For every file that can be opened and holds no jet stream, if all numbers are finite and repr
    writes a float such that float() reads it back: to_json returns a text, the text is JSON, and
    its value is a list with one object for each element, in order, holding every attribute of
    the element under its name, once, with its value.
    Missing from the full statement: files with jet streams or with numbers that are not finite,
    see the refutations below. *)
Theorem C87_json_partial : forall repr data s, valid_bytes data = true -> opens tca_elements data (Ok s) ->
  (forall e, In e (vs_elements s) -> ~ jet e) ->
  (forall e x, In e (vs_elements s) -> float_of e x -> finite x /\ reads_back repr x) ->
  exists t objs, to_json repr false (vs_elements s) = Ok t /\ loads t = Some (JList objs) /\ Forall2 says (vs_elements s) objs.
Proof.
  intros repr data s V O NJ F. pose proof (opened_jsonable _ _ V O) as J. rewrite Forall_forall in J.
  assert (G : forall e, In e (vs_elements s) -> good (shown_float repr) (elem_dict e) /\ says e (tree (elem_dict e))).
  { intros e I. destruct (J e I) as [K|R]; [destruct (NJ e I K)|]. apply elem_good; [exact R|]. intros x X. exact (F e x I X). }
  assert (GL : good (shown_float repr) (PList (map elem_dict (vs_elements s)))).
  { apply good_list. apply Forall_forall. intros o I. apply in_map_iff in I as (e & <- & I). exact (proj1 (G e I)). }
  destruct (loads_back repr _ GL) as (t & D & L). exists t, (map tree (map elem_dict (vs_elements s))). split; [exact D|]. split; [exact L|].
  clear -G. induction (vs_elements s) as [|e l IH]; cbn [map]; constructor; [exact (proj2 (G e (or_introl eq_refl)))|]. apply IH. intros x X. exact (G x (or_intror X)).
Qed.
Print Assumptions C87_json_partial.

(** Whatever its numbers are, a file that can be opened has a text exactly when it holds no jet
    stream; with one, TypeError is raised. *)
Lemma dumps_error repr o : forall x, dumps repr o = Err x -> x = TypeError.
Proof.
  assert (M : forall A B (f : A -> res B) l x, mapM f l = Err x -> exists a, In a l /\ f a = Err x).
  { intros A B f l x. induction l as [|a l IH]; cbn [mapM]; [discriminate|]. destruct (f a) as [y|] eqn:E; cbn [bind].
    - destruct (mapM f l); cbn [bind]; [discriminate|]. intros [= ->]. destruct (IH eq_refl) as (b & I & E'). exists b. split; [right; exact I|exact E'].
    - intros [= ->]. exists a. split; [left; reflexivity|exact E]. }
  induction o as [z|y|s|l IH|m IH|l|] using pobj_rec'; intros x H; try discriminate.
  - rewrite dumps_list in H. destruct (mapM (dumps repr) l) eqn:E; [discriminate|]. injection H as <-. apply M in E as (o & I & E). rewrite Forall_forall in IH. exact (IH o I _ E).
  - rewrite dumps_dict in H. destruct (mapM (member repr) m) eqn:E; [discriminate|]. injection H as <-. apply M in E as (o & I & E). rewrite Forall_forall in IH. unfold member in E. destruct (dumps repr (snd o)) eqn:D; [discriminate|]. injection E as <-. exact (IH o I _ D).
  - cbn [dumps] in H. destruct (mapM array_item l) eqn:E; [discriminate|]. injection H as <-. apply M in E as (v & I & E). destruct v; cbn [array_item] in E; congruence.
  - cbn [dumps] in H. congruence.
Qed.
Lemma mapM_in {A B} (f : A -> res B) l ys : mapM f l = Ok ys -> forall a, In a l -> exists y, f a = Ok y.
Proof. intros H. apply mapM_forall2 in H. induction H as [|x y l ys E _ IH]; intros a []; [subst; eauto|auto]. Qed.
Theorem C87_text_unless_jet : forall repr data s, valid_bytes data = true -> opens tca_elements data (Ok s) ->
  ((exists e, In e (vs_elements s) /\ jet e) -> to_json repr false (vs_elements s) = Err TypeError) /\
  ((forall e, In e (vs_elements s) -> ~ jet e) -> exists t, to_json repr false (vs_elements s) = Ok t).
Proof.
  intros repr data s V O. split.
  - intros (e & I & K). destruct (to_json repr false (vs_elements s)) as [t|x] eqn:E; [|apply dumps_error in E; congruence]. exfalso.
    unfold to_json in E. rewrite dumps_list in E. destruct (mapM (dumps repr) (map elem_dict (vs_elements s))) as [ts|] eqn:M; [|discriminate].
    destruct (mapM_in _ _ _ M (elem_dict e)) as (y & Y); [apply in_map, I|]. unfold elem_dict in Y. rewrite dumps_dict in Y. match type of Y with bind ?m _ = _ => destruct m as [us|] eqn:U end; [|discriminate].
    destruct (mapM_in _ _ _ U (codes "line_attribute", POther)) as (z & Z).
    { unfold keyed. apply (in_map (fun p : string * pobj => (codes (fst p), snd p)) _ ("line_attribute", POther)). do 2 (apply in_or_app; right). apply in_or_app; left. unfold jet in K. rewrite K. left. reflexivity. }
    discriminate.
  - intros NJ. pose proof (opened_jsonable _ _ V O) as J. rewrite Forall_forall in J. unfold to_json. apply (good_dumps _ (fun _ => True)). apply good_list. apply Forall_forall. intros o I. apply in_map_iff in I as (e & <- & I).
    destruct (J e I) as [K|R]; [destruct (NJ e I K)|]. apply elem_good; [exact R|auto].
Qed.
Print Assumptions C87_text_unless_jet.

(** ** A file that meets the hypotheses *)

(* a header, a front through (0.5, 0) and (0, 0.5), a text of four characters, one of them a quote *)
Definition half : bytes := [63; 0; 0; 0].
Definition json_file : bytes :=
  small_header ++ (header40 1 2 0 84 ++ [0; 0; 0; 2] ++ [0; 0; 1; 20] ++ repeat 0 20 ++ half ++ [0; 0; 0; 0] ++ [0; 0; 0; 0] ++ half) ++
  (header40 5 17 0 86 ++ repeat 0 40 ++ [34; 195; 169; 10; 65; 0]).
Definition opened (n : nat) (d : bytes) : option vstate := match vgf_open tca_elements n d with Some (Ok s) => Some s | _ => None end.
Lemma opened_opens n d s : opened n d = Some s -> opens tca_elements d (Ok s).
Proof. unfold opened, vgf_open. destruct (vrun tca_elements n (vgf_start d)) as [[s'|]|] eqn:R; try discriminate. intros [= <-]. exists n. exact R. Qed.
Definition json_state : option vstate := opened 10 json_file.
Definition small_repr (x : flt) : str := match x with S754_zero _ => codes "0.0" | _ => codes "0.5" end.
Definition json_text : str :=
  match json_state with Some s => match to_json small_repr false (vs_elements s) with Ok t => t | _ => [] end | None => [] end.
(** All the floats of an element *)
Definition floats_in (e : velem) : list flt :=
  [vh_min_lat (ve_hdr e); vh_min_lon (ve_hdr e); vh_max_lat (ve_hdr e); vh_max_lon (ve_hdr e)] ++
  concat (map (fun p => match snd p with VFloat x => [x] | _ => [] end) (ve_attrs e)) ++
  concat (map (fun s => concat (map (fun p => match snd p with VFloat x => [x] | _ => [] end) (snd s))) (ve_subs e)) ++
  concat (map (fun a => map two_decimals (snd a)) (ve_arrs e)) ++
  concat (map (fun c => match c with CoArr l => map (fun y => two_decimals (VFloat y)) l | _ => [] end) [ve_lat e; ve_lon e]).
Lemma floats_all e x : float_of e x -> In x (floats_in e).
Proof.
  unfold floats_in. intros [H|n H|n s k H H'|n l v H H' ->|l y H H' ->].
  - apply in_or_app; left; exact H.
  - apply in_or_app; right. apply in_or_app; left. apply in_concat. exists [x]. split; [|left; reflexivity]. apply in_map_iff. exists (n, VFloat x). auto.
  - do 2 (apply in_or_app; right). apply in_or_app; left. apply in_concat. eexists. split; [apply in_map; exact H|]. apply in_concat. exists [x]. split; [|left; reflexivity]. apply in_map_iff. exists (k, VFloat x). auto.
  - do 3 (apply in_or_app; right). apply in_or_app; left. apply in_concat. eexists. split; [apply in_map; exact H|]. apply in_map. exact H'.
  - do 4 (apply in_or_app; right). apply in_concat. exists (map (fun y => two_decimals (VFloat y)) l). split; [|apply (in_map (fun y => two_decimals (VFloat y))); exact H'].
    apply in_map_iff. exists (CoArr l). split; [reflexivity|]. destruct H as [H|H]; rewrite H; [left|right; left]; reflexivity.
Qed.
Definition checked (e : velem) : bool :=
  negb (String.eqb (ve_kind e) "JetElement") &&
  forallb (fun x => match x, scan_number (small_repr x), py_float (small_repr x) with
                    | S754_zero false, Some (false, t, []), Ok (S754_zero false) => str_eqb t (small_repr x)
                    | S754_finite false m k, Some (false, t, []), Ok (S754_finite false m' k') => str_eqb t (small_repr x) && Pos.eqb m m' && (k =? k')
                    | _, _, _ => false
                    end) (floats_in e).
Lemma str_eqb_eq a : forall b, str_eqb a b = true -> a = b.
Proof. induction a as [|x a IH]; intros [|y b] H; try discriminate; [reflexivity|]. cbn [str_eqb] in H. apply andb_prop in H as [H1 H2]. f_equal; [lia|exact (IH _ H2)]. Qed.
Lemma checked_floats e : checked e = true -> ~ jet e /\ forall x, float_of e x -> finite x /\ reads_back small_repr x.
Proof.
  unfold checked. intros H. apply andb_prop in H as [H1 H2]. split; [unfold jet; intros K; rewrite K in H1; discriminate|]. intros x X. apply floats_all in X. rewrite forallb_forall in H2. specialize (H2 x X).
  unfold reads_back. destruct x as [[]|?| |[] m k]; try discriminate; destruct (scan_number _) as [[[[] t] [|? ?]]|]; try discriminate; destruct (py_float _) as [[[]|?| |[] m' k']|]; try discriminate.
  - apply str_eqb_eq in H2. subst t. repeat split.
  - apply andb_prop in H2 as [H2 K]. apply andb_prop in H2 as [H2 M]. apply str_eqb_eq in H2. apply Pos.eqb_eq in M. apply Z.eqb_eq in K. subst. repeat split.
Qed.
Example C87_satisfiable : valid_bytes json_file = true /\ exists s, opens tca_elements json_file (Ok s) /\
  map ve_kind (vs_elements s) = ["FrontElement"; "TextElement"] /\ (forall e, In e (vs_elements s) -> ~ jet e) /\
  (forall e x, In e (vs_elements s) -> float_of e x -> finite x /\ reads_back small_repr x).
Proof.
  split; [vm_compute; reflexivity|]. destruct json_state as [s|] eqn:E; [|vm_compute in E; discriminate]. exists s. split; [exact (opened_opens 10 json_file s E)|].
  assert (C : match json_state with Some s => forallb checked (vs_elements s) && match map ve_kind (vs_elements s) with ["FrontElement"; "TextElement"] => true | _ => false end | None => false end = true) by (vm_compute; reflexivity).
  rewrite E in C. apply andb_prop in C as [C K]. rewrite forallb_forall in C. split.
  { clear -E. assert (option_map (fun s => map ve_kind (vs_elements s)) json_state = Some ["FrontElement"; "TextElement"]) as H by (vm_compute; reflexivity). rewrite E in H. cbn [option_map] in H. congruence. }
  split; [intros e I; exact (proj1 (checked_floats e (C e I)))|]. intros e x I X. exact (proj2 (checked_floats e (C e I)) x X).
Qed.
(* the text read back has two objects, the second with the text of the element *)
Example C87_example : match loads json_text with
  | Some (JList [JObject _; JObject m]) => existsb (fun p => str_eqb (fst p) (codes "text") && match snd p with JText t => str_eqb t [34; 233; 10; 65] | _ => false end) m
  | _ => false end = true.
Proof. vm_compute. reflexivity. Qed.

(** ** The full statement is false *)

(** A file with a jet stream can be opened, but to_json raises TypeError. *)
Definition jet_file : bytes := blank 15 37 0 1 24076.
Theorem C87_jet_refuted : forall repr, exists data s, valid_bytes data = true /\ opens tca_elements data (Ok s) /\
  to_json repr false (vs_elements s) = Err TypeError.
Proof.
  intros repr. exists jet_file. destruct (opened 3 jet_file) as [s|] eqn:E; [|vm_compute in E; discriminate].
  exists s. assert (V : valid_bytes jet_file = true) by (vm_compute; reflexivity). assert (O : opens tca_elements jet_file (Ok s)) by exact (opened_opens 3 jet_file s E). split; [exact V|]. split; [exact O|].
  apply (C87_text_unless_jet repr jet_file s V O). 
  assert (K : match opened 3 jet_file with Some s => map ve_kind (vs_elements s) | _ => [] end = ["JetElement"]) by (vm_compute; reflexivity). rewrite E in K.
  destruct (vs_elements s) as [|e l]; [discriminate|]. exists e. split; [left; reflexivity|]. cbn [map] in K. unfold jet. congruence.
Qed.
Print Assumptions C87_jet_refuted.

(** A file with a symbol whose latitude is stored as NaN has a text, but the text is not JSON. *)
Definition nan_file : bytes := header40 4 5 0 76 ++ [0; 0; 0; 1] ++ [0; 0; 0; 1] ++ repeat 0 12 ++ [127; 192; 0; 0] ++ repeat 0 12.
Definition zero_repr (x : flt) : str := codes "0.0".
Theorem C87_nan_refuted : exists repr data s t, (forall x, x = S754_zero false -> reads_back repr x) /\ valid_bytes data = true /\ opens tca_elements data (Ok s) /\
  (forall e, In e (vs_elements s) -> ~ jet e) /\ (forall e x, In e (vs_elements s) -> float_of e x -> x = S754_zero false \/ x = S754_nan) /\
  to_json repr false (vs_elements s) = Ok t /\ loads t = None.
Proof.
  exists zero_repr, nan_file. destruct (opened 3 nan_file) as [s|] eqn:E; [|vm_compute in E; discriminate]. exists s.
  destruct (to_json zero_repr false (vs_elements s)) as [t|] eqn:T.
  - exists t. split; [intros x ->; split; vm_compute; reflexivity|]. split; [vm_compute; reflexivity|]. split; [exact (opened_opens 3 nan_file s E)|].
    assert (C : match opened 3 nan_file with Some s => forallb (fun e => negb (String.eqb (ve_kind e) "JetElement") && forallb (fun x => match x with S754_zero false | S754_nan => true | _ => false end) (floats_in e)) (vs_elements s) && match to_json zero_repr false (vs_elements s) with Ok t => match loads t with None => true | _ => false end | _ => false end | _ => false end = true) by (vm_compute; reflexivity).
    rewrite E in C. rewrite T in C. apply andb_prop in C as [C L]. rewrite forallb_forall in C. split; [intros e I K; specialize (C e I); unfold jet in K; rewrite K in C; discriminate|]. split; [|split; [reflexivity|destruct (loads t); [discriminate|reflexivity]]].
    intros e x I X. specialize (C e I). apply andb_prop in C as [_ C]. rewrite forallb_forall in C. specialize (C x (floats_all e x X)). destruct x as [[]|?| |? ? ?]; try discriminate; auto.
  - exfalso. assert (C : match opened 3 nan_file with Some s => match to_json zero_repr false (vs_elements s) with Ok _ => true | _ => false end | _ => false end = true) by (vm_compute; reflexivity). rewrite E, T in C. discriminate.
Qed.
Print Assumptions C87_nan_refuted.
