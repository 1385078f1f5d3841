(** C36-C41: buffer, ordered set, named structs. *)
From Coq Require Import Lia Sorting.Sorted.
From Verif Require Import Base BaseFacts Floats FloatsFacts Structs StructsFacts Tools SpecTools ToolsFacts.

(** C36. Consecutive reads of any sizes return consecutive slices of the data. *)
Theorem C36_reads_partition : forall ns b cs b',
  0 <= io_offset b ->
  Forall (fun n => match n with Some k => 0 <= k | None => True end) ns ->
  io_reads ns b = (cs, b') ->
  io_data b' = io_data b /\ io_marks b' = io_marks b /\
  io_offset b' = io_offset b + Zlen (concat cs) /\
  map Zlen cs = chunk_sizes ns (remaining (io_data b) (io_offset b)) /\
  Zlen (concat cs) <= remaining (io_data b) (io_offset b) /\
  concat cs = firstn (Z.to_nat (Zlen (concat cs))) (skipn (Z.to_nat (io_offset b)) (io_data b)).
Proof. exact io_reads_spec. Qed.
Print Assumptions C36_reads_partition.

(** C36. at_end is true exactly when nothing remains. *)
Theorem C36_at_end : forall b, io_at_end b = true <-> remaining (io_data b) (io_offset b) = 0.
Proof.
  intros b. unfold io_at_end, remaining. rewrite Z.geb_leb, Z.leb_le.
  pose proof (Zlen_nonneg (io_data b)). lia.
Qed.
Print Assumptions C36_at_end.

Example C36_example : io_reads [Some 2; Some 0; Some 5; None] (io_init [1;2;3;4]) =
  ([[1;2];[];[3;4];[]], mk_iobuf [1;2;3;4] 4 []).
Proof. reflexivity. Qed.

(** C37. A mark set at any time leads back to its offset after any operations. *)
Theorem C37_marks : forall b ops k m b1, io_set_mark b = (m, b1) ->
  (exists b2, io_jump_to m k (io_run ops b1) = Ok b2 /\
              io_offset b2 = io_offset b + k /\ io_data b2 = io_data (io_run ops b1)) /\
  io_offset_from m (io_run ops b1) = Ok (io_offset (io_run ops b1) - io_offset b).
Proof.
  intros b ops k m b1 H. destruct (mark_jump b ops k m b1 H) as [H1 H2].
  split; [|exact H2]. eexists; split; [exact H1|]. split; reflexivity.
Qed.
Print Assumptions C37_marks.

Example C37_example :
  let '(m, b1) := io_set_mark (mk_iobuf [1;2;3;4;5;6] 2 [0]) in
  io_offset (io_run [ORead (Some 3); OSetMark; OJump 0 1; OTruncate 2; OSkip None] b1) = 4 /\ m = 1.
Proof. split; reflexivity. Qed.

(** C62. Splicing at a mark keeps the bytes before it, puts the new data after it, and reading
    on from there yields exactly the new data; marks survive; an unknown mark only raises. *)
Theorem C62_splice : forall b ops m b1 d, io_set_mark b = (m, b1) ->
  0 <= io_offset b <= Zlen (io_data (io_run ops b1)) ->
  exists b2, io_splice m d (io_run ops b1) = Ok b2 /\
    io_data b2 = firstn (Z.to_nat (io_offset b)) (io_data (io_run ops b1)) ++ d /\
    io_offset b2 = io_offset b /\ io_marks b2 = io_marks (io_run ops b1) /\
    fst (io_read None b2) = d.
Proof.
  intros b ops m b1 d H Hr. destruct (mark_jump b ops 0 m b1 H) as [H1 _].
  unfold io_splice. rewrite H1. cbn [bind io_data io_offset io_marks].
  rewrite Z.add_0_r. eexists; split; [reflexivity|]. cbn [io_data io_offset io_marks].
  set (X := io_data (io_run ops b1)) in *. clearbody X.
  assert (Hu : py_upto X (io_offset b) = firstn (Z.to_nat (io_offset b)) X)
    by (unfold py_upto; rewrite py_slice_in by lia; rewrite Z.sub_0_r; reflexivity).
  rewrite Hu. split; [reflexivity|]. split; [reflexivity|]. split; [reflexivity|].
  cbn [io_read io_get_next fst io_data io_offset].
  assert (HL : length (firstn (Z.to_nat (io_offset b)) X) = Z.to_nat (io_offset b))
    by (rewrite firstn_length; unfold Zlen in Hr; lia).
  unfold py_from. rewrite py_slice_in; [|lia| |lia].
  - rewrite (skipn_app_exact _ _ _ HL). apply firstn_all2.
    unfold Zlen. rewrite app_length, HL. lia.
  - unfold Zlen. rewrite app_length, HL. lia.
Qed.
Print Assumptions C62_splice.
Theorem C62_unknown_mark : forall b m d, Zlen (io_marks b) <= m ->
  exists x, io_splice m d b = Err x /\ io_step b (OSplice m d) = b.
Proof.
  intros b m d H. pose proof (Zlen_nonneg (io_marks b)).
  assert (E : py_index (io_marks b) m = Err IndexError).
  { unfold py_index. destruct (Z.ltb_spec m 0); [lia|]. destruct (Z.ltb_spec m 0); [lia|].
    replace (nth_error (io_marks b) (Z.to_nat m)) with (@None Z); [reflexivity|].
    symmetry. apply nth_error_None. unfold Zlen in *. lia. }
  exists IndexError. unfold io_step, io_splice, io_jump_to. rewrite E. split; reflexivity.
Qed.
Print Assumptions C62_unknown_mark.
Example C62_example :
  let '(m, b1) := io_set_mark (mk_iobuf [1;2;3;4;5;6] 2 [0]) in
  io_splice m [9;8] (io_run [ORead (Some 3); OTruncate 1; OSetMark] b1) = Ok (mk_iobuf [1;2;9;8] 2 [0;2;5]).
Proof. reflexivity. Qed.

(** C38. A failing structured read leaves the buffer as it was (and reading ascii text does
    not give this guarantee: the bytes are consumed before decoding). *)
Theorem C38_failed_struct_read : forall e fmt b b' x,
  io_read_struct e fmt b = (b', Err x) -> b' = b.
Proof.
  intros e fmt b b' x H. unfold io_read_struct in H.
  destruct (struct_unpack_from _ _ _ _); congruence.
Qed.
Print Assumptions C38_failed_struct_read.
Theorem C38_failed_func_read : forall (A : Type) (f : bytes -> res A) n b b' x,
  io_read_func f n b = (b', Err x) -> b' = b.
Proof.
  intros A f n b b' x H. unfold io_read_func in H. destruct (f _); congruence.
Qed.
Print Assumptions C38_failed_func_read.
Theorem C38_failed_array_read : forall (A : Type) (f : bytes -> A) n b b' x,
  io_read_array f n b = (b', Err x) -> b' = b.
Proof.
  intros A f n b b' x H. unfold io_read_array in H.
  destruct (_ || _); [congruence|]. destruct (_ && _); [congruence|]. destruct (_ <? 4 * _); congruence.
Qed.
Print Assumptions C38_failed_array_read.
(** A structured read at an offset inside the data fails exactly when too few bytes remain,
    and otherwise advances by the size of the structure. *)
Theorem C38_struct_read_iff : forall e fmt b, 0 <= io_offset b ->
  (Zlen (io_data b) - io_offset b < Z.of_nat (calcsize fmt) <->
   io_read_struct e fmt b = (b, Err StructError)) /\
  (Z.of_nat (calcsize fmt) <= Zlen (io_data b) - io_offset b <->
   exists v, io_read_struct e fmt b =
     (mk_iobuf (io_data b) (io_offset b + Z.of_nat (calcsize fmt)) (io_marks b), Ok v)).
Proof.
  intros e fmt b Ho. unfold io_read_struct, struct_unpack_from.
  destruct (Z.ltb_spec (io_offset b) 0); [lia|].
  destruct (Z.ltb_spec (Zlen (io_data b) - io_offset b) (Z.of_nat (calcsize fmt))); split; split;
    intros H1; try lia; try reflexivity; try discriminate.
  - destruct H1 as [v H1]. discriminate.
  - eexists; reflexivity.
Qed.
Print Assumptions C38_struct_read_iff.
Theorem C38_ascii_read_moves_refuted : exists n b b' x,
  io_read_ascii n b = (b', Err x) /\ b' <> b.
Proof. exists (Some 1), (io_init [200]), (mk_iobuf [200] 1 []), UnicodeError. split; [reflexivity|discriminate]. Qed.
Print Assumptions C38_ascii_read_moves_refuted.
Example C38_example : io_read_struct LE [FInt] (mk_iobuf [1;2;3;4;5] 2 []) =
  (mk_iobuf [1;2;3;4;5] 2 [], Err StructError).
Proof. reflexivity. Qed.

(** C39. truncate(n) removes exactly the last n bytes for 1 <= n <= length, keeping offset
    and marks; for n = 0 it removes everything, so the full statement is false. *)
Theorem C39_truncate_partial : forall n b, 1 <= n <= Zlen (io_data b) ->
  (exists cut, io_data b = io_data (io_truncate n b) ++ cut /\ Zlen cut = n) /\
  io_offset (io_truncate n b) = io_offset b /\ io_marks (io_truncate n b) = io_marks b.
Proof. intros n b H. split; [apply truncate_ok; exact H|split; reflexivity]. Qed.
Print Assumptions C39_truncate_partial.
Theorem C39_truncate_zero_refuted : exists b, io_data b <> [] /\ io_data (io_truncate 0 b) = [].
Proof. exists (io_init [1;2;3]). split; [discriminate|reflexivity]. Qed.
Print Assumptions C39_truncate_zero_refuted.
Theorem C39_truncate_zero : forall b, io_data (io_truncate 0 b) = [].
Proof.
  intros b. unfold io_truncate, py_upto, py_slice, py_bound. cbn [io_data].
  change (- 0) with 0. rewrite Z.sub_diag. reflexivity.
Qed.
Print Assumptions C39_truncate_zero.

(** C40. After any history: no duplicates, membership is set membership, and members are
    listed in the order of the insertions that made them members. *)
Theorem C40_ordered_set : forall (A : Type) (eqb : A -> A -> bool),
  (forall x y, eqb x y = true <-> x = y) ->
  forall ops, let s := os_run eqb ops [] in
  NoDup s /\ (forall x, In x s <-> birth eqb x ops <> None) /\
  (forall x, os_mem eqb x s = true <-> birth eqb x ops <> None) /\
  StronglySorted (born_before eqb ops) s.
Proof.
  intros A eqb H ops. destruct (os_run_inv eqb H ops) as (H1 & H2 & _ & H4).
  split; [exact H1|]. split; [exact H2|]. split; [|exact H4].
  intros x. rewrite (os_mem_In eqb H). apply H2.
Qed.
Print Assumptions C40_ordered_set.

Lemma os_init_run (A : Type) (eqb : A -> A -> bool) l : os_init eqb l = os_run eqb (map OsAdd l) [].
Proof.
  unfold os_init, os_run. generalize (@nil A) as s.
  induction l as [|x l IH]; intros s; cbn [fold_left map]; [reflexivity|]. apply IH.
Qed.
(** Construction from an iterable is adding its items in order. *)
Theorem C40_init : forall (A : Type) (eqb : A -> A -> bool),
  (forall x y, eqb x y = true <-> x = y) ->
  forall l, let s := os_init eqb l in
  NoDup s /\ (forall x, In x s <-> In x l).
Proof.
  intros A eqb H l. cbn zeta. rewrite os_init_run.
  destruct (os_run_inv eqb H (map OsAdd l)) as (H1 & H2 & _ & _).
  split; [exact H1|]. intros x. rewrite H2. clear H1 H2.
  induction l as [|y l IH] using rev_ind; cbn.
  - split; [intros C; exfalso; apply C; reflexivity|intros []].
  - rewrite map_app. cbn [map]. rewrite birth_app, in_app_iff. cbn [In].
    destruct (eqb x y) eqn:E.
    + apply H in E. subst. split; [auto|]. intros _.
      destruct (birth eqb y (map OsAdd l)); discriminate.
    + rewrite IH. split; [auto|]. intros [H1|[H1|[]]]; [exact H1|].
      subst. assert (eqb x x = true) by (apply H; reflexivity). congruence.
    + exact H.
Qed.
Print Assumptions C40_init.
(** Equality: ordered between ordered sets, unordered against other collections. *)
Theorem C40_equality : forall (A : Type) (eqb : A -> A -> bool),
  (forall x y, eqb x y = true <-> x = y) -> forall s t,
  (os_eq_ordered eqb s t = true <-> s = t) /\
  (os_eq_set eqb s t = true <-> (forall x, In x s <-> In x t)).
Proof. intros A eqb H s t. split; [apply os_eq_ordered_spec|apply os_eq_set_spec]; exact H. Qed.
Print Assumptions C40_equality.
Example C40_example :
  os_run Z.eqb [OsAdd 3; OsAdd 1; OsAdd 3; OsAdd 2; OsDiscard 3; OsAdd 3; OsAdd 1] [] = [1; 2; 3].
Proof. reflexivity. Qed.

(** C41. Pack/unpack round trip of a named struct: values come back under their own names,
    as stored by their formats, through their own converters; the length is the size. *)
Theorem C41_named_struct : forall e info s kw bs,
  forallb plain_entry info = true -> ns_make info = Ok s -> ns_pack e s kw = Ok bs ->
  Zlen bs = ns_size s /\ ns_unpack e s bs = expected_fields info kw.
Proof. exact ns_roundtrip. Qed.
Print Assumptions C41_named_struct.

Definition c41_info : list ns_entry :=
  [ mk_entry (Some [97]) [FInt] None; mk_entry None [FPad 12] None;
    mk_entry (Some [98]) [FInt] (Some (fun v => match v with VInt z => Ok (VInt (z + 1)) | _ => Err TypeError end));
    mk_entry (Some [99]) [FStr 3; FPad 1] None ].
Example C41_example : forallb plain_entry c41_info = true /\
  match ns_make c41_info with
  | Ok s => match ns_pack BE s [([98], VInt 5); ([99], VBytes [77]); ([97], VInt (-2))] with
            | Ok bs => ns_unpack BE s bs =
                Ok [([97], VInt (-2)); ([98], VInt 6); ([99], VBytes [77; 0; 0])]
            | Err _ => False
            end
  | Err _ => False
  end.
Proof. vm_compute. split; reflexivity. Qed.
