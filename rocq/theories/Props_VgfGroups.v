(** Property C89: the list of group types of a vector graphics file. *)
From Coq Require Import ZArith Lia String.
From Verif Require Import Base Words Floats Strings Structs Tools VgfBase Vgf VgfRead SpecVgf SpecVgfLoop SpecVgfFields SpecVgfQuery SpecVgfTrip VgfTables VgfCursor BaseFacts VgfFacts VgfShapeFacts VgfTripFacts VgfLoopFacts VgfFieldFacts VgfRecordFacts SpecVgfGroups.
From Verif Require Import Props_Vgf Props_VgfQuery Props_VgfLoop Props_VgfTrip Props_VgfFields.
From Coq Require Import List.
Import ListNotations.
Open Scope string_scope.
Open Scope list_scope.
Open Scope Z_scope.

(** ** Lists of numbers *)
Definition note (c g : Z) (l : list Z) : list Z := if negb (existsb (Z.eqb g) l) && negb (g =? 0) && negb (c =? 0) then l ++ [g] else l.
Lemma distinct_in x l : In x (distinct l) <-> In x l.
Proof.
  induction l as [|y l IH]; cbn [distinct In]; [tauto|]. rewrite filter_In, IH. destruct (Z.eqb_spec x y); cbn [negb]; [subst; tauto|]. intuition congruence.
Qed.
Lemma group_types_in x l : In x (group_types l) <-> x <> 0 /\ In x l.
Proof. unfold group_types. rewrite distinct_in, filter_In. destruct (Z.eqb_spec x 0); cbn [negb]; intuition congruence. Qed.
Lemma filter_distinct f l : filter f (distinct l) = distinct (filter f l).
Proof.
  induction l as [|x l IH]; [reflexivity|]. cbn [distinct filter]. destruct (f x) eqn:F; cbn [distinct].
  - f_equal. rewrite <- IH. clear IH. induction (distinct l) as [|y r IH]; [reflexivity|]. cbn [filter]. destruct (f y) eqn:G; cbn [filter]; destruct (negb (y =? x)) eqn:N; cbn [filter]; rewrite ?G, ?IH; reflexivity.
  - rewrite <- IH. clear IH. induction (distinct l) as [|y r IH]; [reflexivity|]. cbn [filter]. destruct (Z.eqb_spec y x) as [->|N]; cbn [negb filter]; [rewrite F; exact IH|rewrite IH; reflexivity].
Qed.
Definition fresh (g : list Z) (x : Z) : bool := negb (existsb (Z.eqb x) g).
Lemma noted l : forall g, fold_left (fun g x => note (fst x) (snd x) g) l g =
  g ++ filter (fresh g) (group_types (map snd (filter (fun x => negb (fst x =? 0)) l))).
Proof.
  induction l as [|[c x] l IH]; intros g; cbn [fold_left fst snd filter]; [unfold group_types; cbn; rewrite app_nil_r; reflexivity|].
  rewrite IH. unfold note. destruct (Z.eqb_spec c 0) as [->|C]; cbn [negb]; [rewrite Bool.andb_false_r; reflexivity|].
  rewrite Bool.andb_true_r. cbn [map snd]. unfold group_types. cbn [filter]. destruct (Z.eqb_spec x 0) as [->|X]; cbn [negb]; [rewrite Bool.andb_false_r; reflexivity|].
  rewrite Bool.andb_true_r. cbn [distinct filter]. set (r := distinct _). unfold fresh at 2. destruct (existsb (Z.eqb x) g) eqn:E; cbn [negb].
  - f_equal. clear IH. induction r as [|y r IH]; [reflexivity|]. cbn [filter]. destruct (Z.eqb_spec y x) as [->|N]; cbn [negb filter].
    + unfold fresh at 1. rewrite E. exact IH.
    + rewrite IH. reflexivity.
  - rewrite <- app_assoc. cbn [app]. do 2 f_equal. clear IH. induction r as [|y r IH]; [reflexivity|]. cbn [filter]. unfold fresh at 1. rewrite existsb_app. cbn [existsb]. rewrite Bool.orb_false_r, Bool.negb_orb.
    fold (fresh g y). rewrite IH. destruct (Z.eqb_spec y x) as [->|N]; cbn [negb]; [rewrite Bool.andb_false_r; reflexivity|]. rewrite Bool.andb_true_r. cbn [filter]. reflexivity.
Qed.
Lemma fresh_nil l : filter (fresh []) l = l.
Proof. induction l as [|x l IH]; [reflexivity|]. cbn. f_equal. exact IH. Qed.

(** ** One round *)
Lemma step_groups tca d p s s' : valid_bytes d = true -> vstep tca s = Ok (inl s') -> io_data (vs_buf s) = d -> io_offset (vs_buf s) = Z.of_nat p -> (p + 40 <= length d)%nat ->
  vs_groups s' = note (class_at d p) (group_at d p) (vs_groups s).
Proof.
  intros V H D O LE. unfold vstep in H. cbv zeta in H. destruct (io_at_end _); [discriminate|].
  destruct (read_header (vs_buf s)) as [[h b1]|] eqn:RH; [|discriminate]. destruct (invalid_header _ _); [discriminate|].
  apply (header_here d p V) in RH as ((_ & _ & HC & _ & _ & _ & _ & HG & _) & _); [|repeat split; [exact D|lia|lia]].
  assert (E : vs_groups s' = note_group h (vs_groups s)) by (destruct (dispatch tca h b1) as [[[l|x] b2]|]; [| |discriminate]; match type of H with Ok (inl ?z) = _ => assert (s' = z) as -> by congruence end; reflexivity).
  rewrite E. unfold note_group, note. cbv zeta. rewrite HC, HG. reflexivity.
Qed.
Lemma shown_not_header d p L : layout_at d p = Some L -> class_at d p <> 0.
Proof. unfold layout_at. intros H E. rewrite E in H. cbn in H. discriminate H. Qed.
Lemma other_not_shown d p : passed_over (class_at d p) (type_at d p) = true -> layout_at d p = None.
Proof.
  unfold passed_over, layout_at. cbv zeta. generalize (class_at d p) (type_at d p). intros c t H.
  repeat match goal with |- context[c =? ?k] => destruct (Z.eqb_spec c k); [subst c; cbn [Z.eqb Pos.eqb andb orb negb] in H|]; cbn [andb] end;
  try (cbn in H; discriminate H);
  repeat match goal with |- context[t =? ?k] => destruct (Z.eqb_spec t k); [subst t; cbn in H; discriminate H|] end; try reflexivity;
  repeat match goal with |- context[within ?a ?b t] => destruct (within a b t) eqn:?; [unfold within in *; exfalso; lia|] end; reflexivity.
Qed.
Lemma chain_groups tca d p l : valid_bytes d = true -> chain d p l -> forall ps n s st, records d p ps -> io_data (vs_buf s) = d -> io_offset (vs_buf s) = Z.of_nat p ->
  vrun tca n s = Some (Ok st) -> vs_groups st = fold_left (fun g x => note (fst x) (snd x) g) (map (fun q => (class_at d q, group_at d q)) ps) (vs_groups s).
Proof.
  intros V. induction 1 as [|p l A K C T SZ LE _ IH|p L l A K HL LE _ IH|p l A K PO SZ _ IH]; intros ps n s st RS D O R; (destruct n as [|n]; [discriminate R|]); cbn [vrun] in R.
  - unfold vstep in R. cbv zeta in R. assert (io_at_end (vs_buf s) = true) as E by (unfold io_at_end; rewrite O, D; unfold Zlen; rewrite Z.geb_leb; lia).
    rewrite E in R. assert (ps = []) as -> by (inversion RS; [reflexivity|lia|lia]). cbn. congruence.
  - destruct (vstep tca s) as [[s'|s']|] eqn:S; [| |discriminate R].
    + destruct (step_header d p V _ _ _ S D O C T SZ LE) as (_ & _ & D' & O'). pose proof (step_groups tca d p s s' V S D O (proj1 A)) as G.
      inversion RS as [X|q L' ps' LT HL' RS'|q ps' LT HL' RS']; subst; [exfalso; destruct A; lia|exfalso; exact (shown_not_header _ _ _ HL' C)|].
      cbn [map fold_left fst snd]. rewrite <- G. exact (IH _ _ _ _ RS' D' ltac:(unfold at_byte; lia) R).
    + exfalso. exact (goes_on d p V _ _ _ A K D O S).
  - destruct (vstep tca s) as [[s'|s']|] eqn:S; [| |discriminate R].
    + destruct (step_read d p V _ _ _ _ S D O HL LE) as (e & _ & _ & _ & D' & O' & N). pose proof (step_groups tca d p s s' V S D O (proj1 A)) as G.
      inversion RS as [X|q L' ps' LT HL' RS'|q ps' LT HL' RS']; subst; [exfalso; destruct A; lia| |congruence]. assert (L' = L) as -> by congruence.
      cbn [map fold_left fst snd]. rewrite <- G. exact (IH _ _ _ _ RS' D' ltac:(unfold at_byte; lia) R).
    + exfalso. exact (goes_on d p V _ _ _ A K D O S).
  - destruct (vstep tca s) as [[s'|s']|] eqn:S; [| |discriminate R].
    + destruct (step_other d p V _ _ _ S D O PO SZ) as (_ & _ & D' & O'). pose proof (step_groups tca d p s s' V S D O (proj1 A)) as G.
      inversion RS as [X|q L' ps' LT HL' RS'|q ps' LT HL' RS']; subst; [exfalso; destruct A; lia|rewrite (other_not_shown _ _ PO) in HL'; discriminate|].
      cbn [map fold_left fst snd]. rewrite <- G. exact (IH _ _ _ _ RS' D' ltac:(unfold at_byte; lia) R).
    + exfalso. exact (goes_on d p V _ _ _ A K D O S).
Qed.
Lemma chain_records d p l : chain d p l -> exists ps, records d p ps /\ forall q L, In (q, L) l -> In q ps /\ layout_at d q = Some L.
Proof.
  induction 1 as [|p l A K C T SZ LE _ (ps & RS & IN)|p L l A K HL LE _ (ps & RS & IN)|p l A K PO SZ _ (ps & RS & IN)].
  - exists []. split; [constructor|intros q L []].
  - exists (p :: ps). split; [apply other_record; [destruct A; lia| |exact RS]|intros q L I; destruct (IN q L I); split; [right; assumption|assumption]].
    destruct (layout_at d p) eqn:E; [|reflexivity]. exfalso. exact (shown_not_header _ _ _ E C).
  - exists (p :: ps). split; [eapply shown_record; [destruct A; lia|exact HL|exact RS]|]. intros q L' [E|I]; [injection E as <- <-; split; [left; reflexivity|exact HL]|destruct (IN q L' I); split; [right; assumption|assumption]].
  - exists (p :: ps). split; [apply other_record; [destruct A; lia|exact (other_not_shown _ _ PO)|exact RS]|intros q L I; destruct (IN q L I); split; [right; assumption|assumption]].
Qed.
Lemma pairs d ps : map snd (filter (fun x => negb (fst x =? 0)) (map (fun q => (class_at d q, group_at d q)) ps)) = map (group_at d) (filter (fun p => negb (class_at d p =? 0)) ps).
Proof. induction ps as [|p ps IH]; [reflexivity|]. cbn [map filter fst]. destruct (class_at d p =? 0); cbn [negb map snd]; rewrite IH; reflexivity. Qed.

(** ** Files of records *)
(** The group types are those of the records that are not headers, zero left out, each once, in the
    order of the file. *)
Theorem C89_groups : forall tca d l ps st, valid_bytes d = true -> chain d 0%nat l -> records d 0%nat ps -> opens tca d (Ok st) -> vs_groups st = groups_at d ps.
Proof.
  intros tca d l ps st V C RS [n R]. rewrite (chain_groups tca d 0 l V C ps n (vgf_start d) st RS eq_refl eq_refl R). rewrite noted. cbn [vgf_start vs_groups app]. rewrite fresh_nil, pairs. reflexivity.
Qed.
Print Assumptions C89_groups.
(** A group type some element has is listed, when it is not zero. *)
Theorem C89_listed : forall tca d l st gt gs, valid_bytes d = true -> chain d 0%nat l -> opens tca d (Ok st) -> gt <> 0 ->
  get_group (vs_elements st) gt = Ok (Some gs) -> In gt (vs_groups st).
Proof.
  intros tca d l st gt gs V C OP N G. destruct (chain_records d 0 l C) as (ps & RS & IN). rewrite (C89_groups tca d l ps st V C RS OP).
  pose proof (C82_whole_file tca d l st V C OP) as F. destruct (C55_groups (vs_elements st) gt) as (r & E & S). assert (r = Some gs) as -> by congruence. destruct S as (numbers & NE & _ & NU & F2).
  destruct F2 as [|m g ns gs' GR _]; [congruence|]. destruct (proj1 (NU m)) as (e & IE & GT & _); [left; reflexivity|].
  unfold groups_at. apply group_types_in. split; [exact N|]. apply in_map_iff. clear - F IE IN GT. induction F as [|[q L] e' l es EO F IH]; [destruct IE|].
  destruct IE as [->|IE]; [|apply IH; [intros; apply IN; right; assumption|exact IE]]. destruct (IN q L (or_introl eq_refl)) as (IQ & LQ). exists q. split.
  - destruct EO as [_ HH _]. destruct HH as (_ & _ & _ & _ & _ & _ & _ & HG & _). cbn [fst] in HG. unfold group_at. congruence.
  - apply filter_In. split; [exact IQ|]. pose proof (shown_not_header _ _ _ LQ). destruct (Z.eqb_spec (class_at d q) 0); [contradiction|reflexivity].
Qed.
Print Assumptions C89_listed.
(** Not conversely: a record the reader passes over leaves its group type in the list. *)
Definition grouped (g : Z) (d : bytes) : bytes := firstn 7 d ++ [g] ++ skipn 8 d.
Definition grouped_file : bytes := small_header ++ grouped 3 (blank 1 2 0 2 84) ++ grouped 4 (blank 7 5 0 0 48) ++ grouped 3 (blank 5 17 0 1 83).
Definition grouped_is_chain : exists L M, chain grouped_file 0%nat [(170%nat, L); (302%nat, M)].
Proof.
  do 2 eexists. apply chain_header; [vm_compute; repeat split; try discriminate; lia|vm_compute; intuition discriminate|reflexivity|reflexivity|vm_compute; discriminate|vm_compute; discriminate|].
  change (at_byte 0 (size_at grouped_file 0%nat)) with 170%nat.
  eapply chain_record; [vm_compute; repeat split; try discriminate; lia|vm_compute; intuition discriminate|vm_compute; reflexivity|vm_compute; discriminate|].
  match goal with |- chain _ ?p _ => let q := eval vm_compute in p in change p with q end.
  apply chain_other; [vm_compute; repeat split; try discriminate; lia|vm_compute; intuition discriminate|reflexivity|vm_compute; discriminate|].
  match goal with |- chain _ ?p _ => let q := eval vm_compute in p in change p with q end.
  eapply chain_record; [vm_compute; repeat split; try discriminate; lia|vm_compute; intuition discriminate|vm_compute; reflexivity|vm_compute; discriminate|].
  match goal with |- chain _ ?p _ => let q := eval vm_compute in p in change p with q end.
  change 385%nat with (length grouped_file). constructor.
Qed.
Theorem C89_passed_over : forall tca, exists d l st, valid_bytes d = true /\ chain d 0%nat l /\ opens tca d (Ok st) /\
  vs_groups st = [3; 4] /\ get_group (vs_elements st) 4 = Ok None /\ exists gs, get_group (vs_elements st) 3 = Ok (Some gs).
Proof.
  intros tca. destruct grouped_is_chain as (L & M & C). exists grouped_file. eexists. eexists. split; [vm_compute; reflexivity|]. split; [exact C|]. split; [exists 6%nat; vm_compute; reflexivity|].
  split; [vm_compute; reflexivity|]. split; [vm_compute; reflexivity|]. eexists. vm_compute. reflexivity.
Qed.
Print Assumptions C89_passed_over.
Example C89_satisfiable : exists ps, records grouped_file 0%nat ps /\ length ps = 4%nat /\ groups_at grouped_file ps = [3; 4].
Proof. destruct grouped_is_chain as (L & M & C). exists [0; 170; 254; 302]%nat. split; [|split; [reflexivity|vm_compute; reflexivity]].
  assert (P : forall p L' ps, (p < length grouped_file)%nat -> layout_at grouped_file p = Some L' -> records grouped_file (at_byte p (l_end L')) ps -> records grouped_file p (p :: ps)) by (intros; eapply shown_record; eassumption).
  apply other_record; [vm_compute; lia|vm_compute; reflexivity|]. change (at_byte 0 (size_at grouped_file 0%nat)) with 170%nat.
  eapply P; [vm_compute; lia|vm_compute; reflexivity|]. match goal with |- records _ ?p _ => let q := eval vm_compute in p in change p with q end.
  apply other_record; [vm_compute; lia|vm_compute; reflexivity|]. match goal with |- records _ ?p _ => let q := eval vm_compute in p in change p with q end.
  eapply P; [vm_compute; lia|vm_compute; reflexivity|]. match goal with |- records _ ?p _ => let q := eval vm_compute in p in change p with q end.
  change 385%nat with (length grouped_file). constructor.
Qed.

(** ** Written files *)
Lemma step_written tca o r s : built o -> readable o -> encode o = Ok r -> at_ (vs_buf s) r ->
  exists e g, o_get o "group_type" = VInt g /\ vstep tca s = Ok (inl (mk_vstate (vs_elements s ++ [e]) (note 1 g (vs_groups s)) (vs_header s) (adv (vs_buf s) (Zlen r)))).
Proof.
  intros B RD E A. pose proof (built_wellformed _ B) as W. pose proof (encode_size_field _ _ W E) as [_ L].
  pose proof (encode_inv _ _ E) as (hd & vals & i & t & Hh & _ & _ & _ & ER). pose proof A as A'. rewrite ER in A'. apply at_app in A' as [AH _].
  destruct (read_header_at _ _ _ AH Hh) as (h & RH & SH). destruct (dispatch_at tca o r _ h B RD SH hd Hh _ A E eq_refl) as (e & DE & SE).
  exists e, (vh_group_type h). split; [apply (header_int o h "group_type" _ SH); cbn; tauto|]. unfold vstep. rewrite (at_not_end _ _ A) by (unfold Zlen; lia). rewrite RH.
  rewrite (valid_at _ _ _ B SH).
  2: { rewrite (record_size_read _ _ _ W SH E). change (io_len (adv (vs_buf s) (Zlen hd))) with (io_len (vs_buf s)). apply at_len, A. }
  rewrite DE. unfold note_group, note. cbv zeta. assert (C : vh_class h =? 0 = false).
  { pose proof (header_int o h "vg_class" (vh_class h) SH ltac:(cbn; tauto)) as HC. rewrite (built_shape _ B "vg_class" (VInt (class_of (o_kind o)))) in HC by (unfold fixed_of; cbn; tauto).
    pose proof (built_kind _ B). assert (vh_class h = class_of (o_kind o)) as -> by congruence. destruct (o_kind o); try reflexivity. congruence. }
  rewrite C. reflexivity.
Qed.
Lemma vrun_written tca l : forall bs s, Forall built l -> Forall readable l -> write_all l = (bs, None) ->
  (exists pre, io_data (vs_buf s) = pre ++ bs /\ io_offset (vs_buf s) = Zlen pre) ->
  exists st gs, vrun tca (Datatypes.S (length l)) s = Some (Ok st) /\ map (fun o => o_get o "group_type") l = map VInt gs /\ vs_groups st = fold_left (fun g x => note (fst x) (snd x) g) (map (pair 1) gs) (vs_groups s).
Proof.
  induction l as [|o l IH]; intros bs s FB FR W (pre & D & O).
  - injection W as <-. rewrite app_nil_r in D. exists s, []. split; [|split; reflexivity].
    cbn [length vrun]. unfold vstep. replace (io_at_end (vs_buf s)) with true; [reflexivity|]. unfold io_at_end. rewrite D, O. symmetry. lia.
  - inversion FB as [|? ? B1 B2]; subst. inversion FR as [|? ? R1 R2]; subst. cbn [write_all] in W.
    destruct (encode o) as [r|] eqn:E; [|discriminate]. destruct (write_all l) as [rest x] eqn:WL. injection W as <- ->.
    destruct (step_written tca o r s B1 R1 E) as (e & g & GT & VS); [exists pre, rest; auto|].
    destruct (IH rest (mk_vstate (vs_elements s ++ [e]) (note 1 g (vs_groups s)) (vs_header s) (adv (vs_buf s) (Zlen r))) B2 R2 eq_refl) as (st & gs & V & GS & VG).
    { exists (pre ++ r). cbn [vs_buf adv io_skip io_data io_offset]. rewrite D, O, Zlen_app, app_assoc. auto. }
    exists st, (g :: gs). cbn [vs_groups] in VG. split; [|split].
    + cbn [length]. change (vrun tca (Datatypes.S (Datatypes.S (length l))) s) with
        (match vstep tca s with Err x => Some (Err x) | Ok (inr s') => Some (Ok s') | Ok (inl s') => vrun tca (Datatypes.S (length l)) s' end).
      rewrite VS. exact V.
    + cbn [map]. rewrite GT, GS. reflexivity.
    + rewrite VG. reflexivity.
Qed.
(** A written file lists the group types of its elements, and they are the ones get_group finds
    something for. *)
Theorem C89_written : forall tca l bs, Forall built l -> Forall readable l -> to_vgf l = (bs, None) ->
  exists st gs, opens tca bs (Ok st) /\ map (fun o => o_get o "group_type") l = map VInt gs /\ vs_groups st = group_types gs /\
    forall gt, In gt (vs_groups st) <-> gt <> 0 /\ exists g, get_group (vs_elements st) gt = Ok (Some g).
Proof.
  intros tca l bs B R W. destruct (C47_round_trip_partial tca l bs B R W) as (st' & _ & OP & F & _).
  unfold to_vgf, vgfile in W. cbn [write_all] in W.
  destruct (encode file_header) as [r|] eqn:E; [|destruct file_header_encoded as (? & _ & _ & X); rewrite X in E; discriminate].
  destruct (write_all l) as [rest x] eqn:WL. injection W as <- ->.
  destruct (header_step tca (vgf_start (r ++ rest)) rest r E eq_refl eq_refl eq_refl) as (x & VS & _).
  match type of VS with _ = Ok (inl ?s) => destruct (vrun_written tca l rest s B R WL) as (st & gs & V & GS & VG) end.
  { exists r. cbn [vs_buf adv io_skip io_data io_offset vgf_start io_init]. auto. }
  assert (OP2 : opens tca (r ++ rest) (Ok st)).
  { exists (Datatypes.S (Datatypes.S (length l))). change (vrun tca (Datatypes.S (Datatypes.S (length l))) (vgf_start (r ++ rest))) with
      (match vstep tca (vgf_start (r ++ rest)) with Err x => Some (Err x) | Ok (inr s') => Some (Ok s') | Ok (inl s') => vrun tca (Datatypes.S (length l)) s' end).
    rewrite VS. exact V. }
  assert (st' = st) as -> by (pose proof (C48_one_result _ _ _ _ OP OP2); congruence).
  cbn [vs_groups] in VG. rewrite noted in VG. cbn [app] in VG. rewrite fresh_nil in VG.
  assert (P : map snd (filter (fun x => negb (fst x =? 0)) (map (pair 1) gs)) = gs) by (clear; induction gs as [|g gs IH]; [reflexivity|]; cbn [map filter fst Z.eqb negb snd]; rewrite IH; reflexivity).
  rewrite P in VG. exists st, gs. split; [exact OP2|]. split; [exact GS|]. split; [exact VG|].
  assert (GE : map (fun e => vh_group_type (ve_hdr e)) (vs_elements st) = gs).
  { clear - F GS. revert gs GS. induction F as [|o e l es SE F IH]; intros gs GS; destruct gs as [|g gs]; try discriminate GS; [reflexivity|]. cbn [map] in GS |- *. injection GS as G1 G2.
    rewrite (IH gs G2). f_equal. pose proof (header_int o (ve_hdr e) "group_type" (vh_group_type (ve_hdr e)) (se_header _ _ SE) ltac:(cbn; tauto)). congruence. }
  intros gt. rewrite VG, group_types_in, <- GE, in_map_iff. destruct (C55_groups (vs_elements st) gt) as (q & -> & S). destruct q as [g|].
  - split; [intros [N _]; split; [exact N|eauto]|intros [N _]; split; [exact N|]]. destruct S as (ns & NE & _ & NU & F2). destruct F2 as [|m g' ns g'' _ _]; [congruence|].
    destruct (proj1 (NU m) (or_introl eq_refl)) as (e & I & GT & _). eauto.
  - split; [intros [_ (e & G & I)]; exfalso; exact (S e I G)|intros [_ (g & G)]; discriminate G].
Qed.
Print Assumptions C89_written.
Example C89_written_satisfiable : exists l bs st, Forall built l /\ Forall readable l /\ to_vgf l = (bs, None) /\ opens no_tca bs (Ok st) /\ vs_groups st = [7; 2].
Proof.
  set (l := [act ex_line (AAssign PGroupType (VInt 7)); ex_line; act ex_front (AAssign PGroupType (VInt 2)); act ex_line (AAssign PGroupType (VInt 7))]).
  assert (B : Forall built l) by (repeat apply Forall_cons; try apply b_act; try apply ex_line_built; try apply ex_front_built; try reflexivity; apply Forall_nil).
  assert (R : Forall readable l).
  { repeat apply Forall_cons; try apply Forall_nil; (split; [intros s H; vm_compute in H; discriminate H|intros x H; vm_compute in H; discriminate H]). }
  assert (W : to_vgf l = (fst (to_vgf l), None)) by (vm_compute; reflexivity).
  destruct (C89_written no_tca l _ B R W) as (st & gs & OP & GS & VG & _). exists l, (fst (to_vgf l)), st. repeat split; try assumption.
  assert (gs = [7; 0; 2; 7]) as -> by (vm_compute in GS; repeat (destruct gs as [|? gs]; [discriminate GS|]); destruct gs; [|discriminate GS]; congruence). exact VG.
Qed.
