(** Facts about the queries on the buffer: what they answer does not depend on where the buffer stands. *)
From Coq Require Import Lia ZifyBool QArith.
From Verif Require Import Base Words Layout Floats Structs Strings Dates Headers Grib Real Order DmFile Station StationRead Grid GridRead Query SnOut
  Unmerged Tools ReaderIO SpecSession.
From Coq Require Import List.
Import ListNotations.
From Verif Require Calc Merge.
Open Scope Z_scope.

Definition marked (m : list Z) : Prop := nth_error m 0 = Some 0.
Lemma marked_app m l : marked m -> marked (m ++ l).
Proof. unfold marked. destruct m; [discriminate|]. exact (fun H => H). Qed.

Lemma run_andThen {A B} (p : prog A) (f : A -> prog B) b :
  run (andThen p f) b = match run p b with (b', Ok x) => run (f x) b' | (b', Err e) => (b', Err e) end.
Proof.
  revert b. induction p as [r|m off k IH|e k IH|k IH|e fmt k IH]; intros b; cbn [andThen run].
  - destruct r; reflexivity.
  - destruct (io_jump_to m off b); [apply IH|reflexivity].
  - destruct (io_read_int 4 e false b). apply IH.
  - destruct (io_set_mark b). apply IH.
  - destruct (io_read_struct e fmt b) as [b' [vs|x]]; [apply IH|reflexivity].
Qed.

(** ** The file and its first mark stay *)
Definition kept (d : bytes) (b : iobuf) : Prop := io_data b = d /\ marked (io_marks b).
Lemma run_kept {A} (p : prog A) d b : kept d b -> kept d (fst (run p b)).
Proof.
  revert b. induction p as [r|m off k IH|e k IH|k IH|e fmt k IH]; intros b [D M]; cbn [run].
  - split; assumption.
  - unfold io_jump_to. destruct (py_index (io_marks b) m); cbn [bind]; [apply IH|]; split; assumption.
  - unfold io_read_int, io_read. apply IH. split; assumption.
  - unfold io_set_mark. apply IH. split; [exact D|]. apply marked_app. exact M.
  - unfold io_read_struct. destruct (struct_unpack_from _ _ _ _); [apply IH|]; split; assumption.
Qed.
Lemma opened_kept opening d : kept d (opened_by opening d).
Proof. apply run_kept. split; reflexivity. Qed.

(** ** One operation, on a buffer given by its parts *)
Lemma run_jump_start {A} off (k : prog A) d o m : marked m -> run (Jump start off k) (mk_iobuf d o m) = run k (mk_iobuf d off m).
Proof.
  intros M. unfold marked in M. cbn [run]. unfold io_jump_to, start. cbn [io_marks io_data]. destruct m as [|x m]; [discriminate M|].
  cbn in M. injection M as ->. reflexivity.
Qed.
Lemma run_word {A} e (k : Z -> prog A) d o m : run (ReadInt e k) (mk_iobuf d o m) = run (k (rd_uint e d o)) (mk_iobuf d (rd_next d o) m).
Proof. reflexivity. Qed.
Lemma py_index_last (m : list Z) x : py_index (m ++ [x]) (Zlen m) = Ok x.
Proof.
  unfold py_index, Zlen. assert (E : (Z.of_nat (length m) <? 0) = false) by lia. cbv zeta. rewrite E, E. clear E. rewrite Nat2Z.id, nth_error_app2 by lia.
  rewrite Nat.sub_diag. reflexivity.
Qed.
Lemma run_struct {A} e fmt (k : list pyval -> prog A) d o m : run (ReadStruct e fmt k) (mk_iobuf d o m) =
  match rd_struct e fmt d o with
  | Ok vs => run (k vs) (mk_iobuf d (o + Z.of_nat (calcsize fmt)) m)
  | Err x => (mk_iobuf d o m, Err x)
  end.
Proof. cbn [run]. unfold io_read_struct, rd_struct. cbn [io_data io_offset]. destruct (struct_unpack_from e fmt d o); reflexivity. Qed.

(** ** Answers that do not depend on the place *)
(** The program, on the buffer of [d] at the place [o] with the marks [m], comes to the answer [r]; and so it does if, just before
    any of its jumps from the start of the file, the buffer is moved and given other marks. *)
Inductive comes_to {A} (d : bytes) (r : res A) : Z -> list Z -> prog A -> Prop :=
| ct_done o m : comes_to d r o m (Done r)
| ct_start o m off k : (forall m', marked m' -> comes_to d r off m' k) -> comes_to d r o m (Jump start off k)
| ct_jump o m i off k x : i <> start -> py_index m i = Ok x -> comes_to d r (x + off) m k -> comes_to d r o m (Jump i off k)
| ct_int o m e k : comes_to d r (rd_next d o) m (k (rd_uint e d o)) -> comes_to d r o m (ReadInt e k)
| ct_mark o m k : comes_to d r o (m ++ [o]) (k (Zlen m)) -> comes_to d r o m (SetMark k)
| ct_struct o m e fmt k vs : rd_struct e fmt d o = Ok vs -> comes_to d r (o + Z.of_nat (calcsize fmt)) m (k vs) -> comes_to d r o m (ReadStruct e fmt k)
| ct_raise o m e fmt k x : rd_struct e fmt d o = Err x -> r = Err x -> comes_to d r o m (ReadStruct e fmt k).
Lemma step_comes_to {A} d (r : res A) o m p : comes_to d r o m p -> marked m ->
  exists p' o' m', step p (mk_iobuf d o m) = (p', mk_iobuf d o' m') /\ marked m' /\ comes_to d r o' m' p'.
Proof.
  intros H M. destruct H as [o m|o m off k H|o m i off k x N E H|o m e k H|o m k H|o m e fmt k vs E H|o m e fmt k x E ->]; cbn [step].
  - exists (Done r), o, m. repeat split; [exact M|constructor].
  - exists k, off, m. split; [|split; [exact M|exact (H m M)]]. unfold marked in M. unfold io_jump_to, start. cbn [io_marks io_data].
    destruct m as [|y m]; [discriminate M|]. cbn in M. injection M as ->. reflexivity.
  - exists k, (x + off), m. split; [|split; [exact M|exact H]]. unfold io_jump_to. cbn [io_marks io_data]. rewrite E. reflexivity.
  - exists (k (rd_uint e d o)), (rd_next d o), m. split; [reflexivity|split; [exact M|exact H]].
  - exists (k (Zlen m)), o, (m ++ [o]). split; [reflexivity|split; [apply marked_app; exact M|exact H]].
  - exists (k vs), (o + Z.of_nat (calcsize fmt)), m. split; [|split; [exact M|exact H]]. unfold io_read_struct. unfold rd_struct in E. cbn [io_data io_offset].
    rewrite E. reflexivity.
  - exists (Done (Err x)), o, m. split; [|split; [exact M|constructor]]. unfold io_read_struct. unfold rd_struct in E. cbn [io_data io_offset].
    rewrite E. reflexivity.
Qed.
Lemma run_comes_to {A} d (r : res A) o m p : comes_to d r o m p -> marked m ->
  exists o' m', marked m' /\ run p (mk_iobuf d o m) = (mk_iobuf d o' m', r).
Proof.
  intros H. induction H as [o m|o m off k H IH|o m i off k x N E H IH|o m e k H IH|o m k H IH|o m e fmt k vs E H IH|o m e fmt k x E ->]; intros M.
  - exists o, m. split; [exact M|reflexivity].
  - rewrite run_jump_start by exact M. exact (IH m M M).
  - cbn [run]. unfold io_jump_to. cbn [io_marks io_data]. rewrite E. exact (IH M).
  - rewrite run_word. exact (IH M).
  - cbn [run]. unfold io_set_mark. cbn [io_marks io_data io_offset]. apply IH. apply marked_app. exact M.
  - rewrite run_struct, E. exact (IH M).
  - rewrite run_struct, E. exists o, m. split; [exact M|reflexivity].
Qed.
Definition answers {A} (d : bytes) (p : prog A) (r : res A) : Prop := forall o m, marked m -> comes_to d r o m p.
(** and those that depend on it *)
Definition answers_at {A} (d : bytes) (o : Z) (p : prog A) (r : res A) : Prop := forall m, marked m -> comes_to d r o m p.
Lemma answers_kept {A} d (p : prog A) r b : answers d p r -> kept d b -> snd (run p b) = r /\ kept d (fst (run p b)).
Proof.
  intros H [D M]. destruct b as [d' o m]. cbn in D, M. subst d'. destruct (run_comes_to _ _ _ _ _ (H o m M) M) as (o' & m' & M' & ->).
  split; [reflexivity|]. split; [reflexivity|exact M'].
Qed.
Lemma ans_done {A} d (r : res A) : answers d (Done r) r.
Proof. intros o m M. constructor. Qed.
Lemma at_done {A} d o (r : res A) : answers_at d o (Done r) r.
Proof. intros m M. constructor. Qed.
Lemma comes_to_bind {A B} d (p : prog A) (f : A -> prog B) r s o m : comes_to d r o m p -> marked m ->
  (forall x, r = Ok x -> answers d (f x) s) -> (forall e, r = Err e -> s = Err e) -> comes_to d s o m (andThen p f).
Proof.
  intros H M HF HE. induction H as [o m|o m off k H IH|o m i off k x N E H IH|o m e k H IH|o m k H IH|o m e fmt k vs E H IH|o m e fmt k x E ->];
    cbn [andThen].
  - destruct r as [x|e]; [exact (HF x eq_refl o m M)|]. rewrite (HE e eq_refl). constructor.
  - apply ct_start. intros m' M'. exact (IH m' M' M').
  - eapply ct_jump; [exact N|exact E|exact (IH M)].
  - apply ct_int. exact (IH M).
  - apply ct_mark. apply IH. apply marked_app. exact M.
  - eapply ct_struct; [exact E|exact (IH M)].
  - eapply ct_raise; [exact E|exact (HE x eq_refl)].
Qed.
Lemma ans_bind {A B} d (p : prog A) (f : A -> prog B) r g : answers d p r -> (forall x, r = Ok x -> answers d (f x) (g x)) ->
  answers d (andThen p f) (x <- r ;; g x).
Proof.
  intros HP HF o m M. apply (comes_to_bind d p f r); [exact (HP o m M)|exact M| |].
  - intros x ->. exact (HF x eq_refl).
  - intros e ->. reflexivity.
Qed.
Lemma ans_done_bind {A B} d (r : res A) (f : A -> prog B) g : (forall x, r = Ok x -> answers d (f x) (g x)) ->
  answers d (andThen (Done r) f) (x <- r ;; g x).
Proof. intros H. apply ans_bind; [apply ans_done|exact H]. Qed.
Lemma at_done_bind {A B} d o (r : res A) (f : A -> prog B) g : (forall x, r = Ok x -> answers_at d o (f x) (g x)) ->
  answers_at d o (andThen (Done r) f) (x <- r ;; g x).
Proof.
  intros H m M. destruct r as [x|e]; cbn [andThen bind]; [exact (H x eq_refl m M)|constructor].
Qed.
Lemma ans_map {A B} d (f : A -> prog B) g l : (forall x, In x l -> answers d (f x) (g x)) -> answers d (mapP f l) (mapM g l).
Proof.
  induction l as [|x r IH]; intros H; cbn [mapP mapM]; [apply ans_done|].
  apply ans_bind; [apply H; left; reflexivity|]. intros y _. apply ans_bind; [apply IH; intros z Hz; apply H; right; exact Hz|].
  intros ys _. apply ans_done.
Qed.
Lemma ans_fold {A T} d (f : T -> A -> prog T) g l s : (forall t x, In x l -> answers d (f t x) (g t x)) -> answers d (foldP f l s) (foldM g l s).
Proof.
  revert s. induction l as [|x r IH]; intros s H; cbn [foldP foldM]; [apply ans_done|].
  apply ans_bind; [apply H; left; reflexivity|]. intros y _. apply IH. intros t z Hz. apply H. right. exact Hz.
Qed.
Lemma ans_same {A} d (p : prog A) r r' : answers d p r -> r = r' -> answers d p r'.
Proof. intros H <-. exact H. Qed.
Lemma at_same {A} d o (p : prog A) r r' : answers_at d o p r -> r = r' -> answers_at d o p r'.
Proof. intros H <-. exact H. Qed.
Lemma at_struct {A} d o e fmt (k : list pyval -> prog A) g :
  (forall vs, answers_at d (o + Z.of_nat (calcsize fmt)) (k vs) (g vs)) ->
  answers_at d o (andThen (ReadStruct e fmt ret) k) (vs <- rd_struct e fmt d o ;; g vs).
Proof.
  intros H m M. cbn [andThen ret]. destruct (rd_struct _ _ d o) as [vs|x] eqn:E; cbn [bind].
  - apply (ct_struct _ _ _ _ _ _ _ vs E). exact (H vs m M).
  - exact (ct_raise _ _ _ _ _ _ _ x E eq_refl).
Qed.
Lemma at_items {A} d o e c n (k : list pyval -> prog A) g :
  (forall vs o', answers_at d o' (k vs) (g vs)) -> answers_at d o (andThen (read_items_io e c n) k) (vs <- rd_array e c n d o ;; g vs).
Proof.
  intros H. unfold read_items_io, rd_array. destruct (n <? 0); [apply at_done|]. apply at_struct. intros vs. apply H.
Qed.
Lemma at_text {A} d o e n (k : list pyval -> prog A) g :
  (forall vs o', answers_at d o' (k vs) (g vs)) ->
  answers_at d o (andThen (read_text_io e n) k) (if n <? 0 then Err StructError else vs <- rd_struct e [FStr (Z.to_nat n)] d o ;; g vs).
Proof.
  intros H. unfold read_text_io. destruct (n <? 0); [apply at_done|]. apply at_struct. intros vs. apply H.
Qed.
Lemma at_word {A} d o e (k : Z -> prog A) r : answers_at d (rd_next d o) (k (rd_uint e d o)) r -> answers_at d o (andThen (read_word e) k) r.
Proof. intros H m M. cbn [andThen read_word ret]. apply ct_int. exact (H m M). Qed.
Lemma ans_to_data {A} d e hl ptr (k : Z -> prog A) r :
  answers_at d (rd_next d (word_to_position ptr) + word_to_position (hl + 1)) (k (rd_uint e d (word_to_position ptr))) r ->
  answers d (andThen (to_data_io e hl ptr) k) r.
Proof.
  intros H o m M. unfold to_data_io, jump, read_word, set_mark, ret. cbn [andThen]. apply ct_start. intros m' M'. apply ct_int, ct_mark.
  eapply ct_jump; [|apply py_index_last|apply H; apply marked_app; exact M']. unfold marked in M'. unfold start, Zlen.
  destruct m'; [discriminate M'|]. cbn [length]. lia.
Qed.
Lemma ans_start_word {A} d e off (k : Z -> prog A) r :
  (forall o, answers_at d o (k (rd_uint e d off)) r) -> answers d (andThen (andThen (jump start off) (fun _ => read_word e)) k) r.
Proof.
  intros H o m M. unfold jump, read_word, ret. cbn [andThen]. apply ct_start. intros m' M'. apply ct_int. apply H. exact M'.
Qed.
Lemma ans_at {A} d o (p : prog A) r : answers d p r -> answers_at d o p r.
Proof. intros H m M. exact (H o m M). Qed.

(** ** Stations *)
Section Stations.
  Variable f : rfile.
  Notation d := (gf_data (rf_file f)).

  Lemma ans_ptr {A} irow icol iprt (k : Z -> prog A) r : answers d (k (data_ptr f irow icol iprt)) r -> answers d (andThen (data_ptr_io f irow icol iprt) k) r.
  Proof. intros H. apply ans_start_word. intros o. apply ans_at. exact H. Qed.
  Lemma ans_block part q ptr : answers d (read_block_io f part q ptr) (read_block f part q ptr).
  Proof.
    unfold read_block_io, read_block. cbv zeta. apply ans_to_data.
    destruct (rp_data_type part =? 1). { apply (at_items d). intros. apply at_done. }
    destruct (rp_data_type part =? 4). { apply (at_items d). intros. apply at_done. }
    destruct (_ && _); [|apply at_done].
    match goal with |- context [if ?a then Err StructError else _] => match goal with |- context [read_text_io _ ?n] => replace a with (n <? 0) by lia end end.
    apply (at_text d). intros. apply at_done.
  Qed.
  Lemma ans_part irow icol r ip : answers d (add_part_io f irow icol r ip) (add_part f irow icol r ip).
  Proof.
    destruct ip as [iprt [part q]]. unfold add_part_io, add_part. cbv zeta. apply ans_ptr. destruct (_ =? 0); [apply ans_done|].
    apply ans_bind; [apply ans_block|]. intros. apply ans_done.
  Qed.
  Lemma ans_parts irow icol r : answers d (add_parts_io f irow icol r) (add_parts f irow icol r).
  Proof. apply ans_fold. intros. apply ans_part. Qed.
  Lemma ans_cell irow icol : answers d (unpack_cell_io f irow icol) (unpack_cell f irow icol).
  Proof.
    apply ans_done_bind. intros h _.
    destruct (rf_type f); (apply ans_bind; [apply ans_parts|]; intros; apply ans_done).
  Qed.
  Lemma ans_unpack cells : answers d (unpack_io f cells) (unpack f cells).
  Proof. apply ans_bind; [apply ans_map; intros [i j] _; apply ans_cell|]. intros. apply ans_done. Qed.
  Lemma ans_select k a : answers d (select_records_io k f a) (select_records k f a).
  Proof. apply ans_done_bind. intros l _. apply ans_done_bind. intros s _. apply ans_unpack. Qed.
  Lemma ans_sfjson a sp : answers d (sfjson_io f a sp) (sfjson f a sp).
  Proof. apply ans_bind; [apply ans_select|]. intros. apply ans_done. Qed.
  Lemma ans_nearest order when a sp : answers d (nearest_time_io order f when a sp) (nearest_time order f when a sp).
  Proof.
    apply ans_done_bind. intros t _. destruct (given_filters a =? 0); [apply ans_done|]. destruct (given_filters a >? 1); [apply ans_done|].
    apply ans_done_bind. intros l _. apply ans_bind.
    { apply ans_map. intros. apply ans_bind; [apply ans_sfjson|]. intros. apply ans_done. }
    intros r1 _. apply ans_bind.
    { apply ans_map. intros. apply ans_bind; [apply ans_sfjson|]. intros. apply ans_done. }
    intros. apply ans_done.
  Qed.

  Section Soundings.
    Variable of_q : Q -> flt.
    Variable W : Calc.arith.
    Variable num_of : flt -> Calc.num W.
    Variable flt_of : Calc.num W -> flt.
    Variable fuel : nat.

    Lemma ans_upart part q ptr : answers d (read_upart_io of_q f part q ptr) (read_upart of_q f part q ptr).
    Proof.
      unfold read_upart_io, read_upart. cbv zeta. apply ans_to_data.
      destruct (rp_data_type part =? 3) eqn:E3.
      { match goal with |- context [if ?a then Err StructError else _] => match goal with |- context [read_text_io _ ?n] => replace a with (n <? 0) by lia end end.
        apply (at_text d). intros. apply at_done. }
      unfold read_block. cbv zeta. rewrite E3. cbn [andb].
      destruct (rp_data_type part =? 1).
      { eapply at_same; [apply (at_items d); intros; apply at_done|]. destruct (rd_array _ _ _ _ _) as [vs|]; cbn [bind]; [|reflexivity].
        destruct (mapM as_float vs); reflexivity. }
      destruct (rp_data_type part =? 4); [|apply at_done].
      eapply at_same; [apply (at_items d); intros; apply at_done|]. destruct (rd_array _ _ _ _ _) as [vs|]; cbn [bind]; [|reflexivity].
      destruct (mapM as_int vs) as [l|]; cbn [bind]; [|reflexivity]. destruct (unpack_real _ _ _); reflexivity.
    Qed.
    Lemma ans_uparts irow icol : answers d (read_uparts_io of_q f irow icol) (read_uparts of_q f irow icol).
    Proof.
      apply ans_fold. intros acc [iprt [part q]] _. cbv zeta. apply ans_ptr. destruct (_ =? 0); [apply ans_done|].
      apply ans_bind; [apply ans_upart|]. intros. apply ans_done.
    Qed.
    Lemma ans_ucell irow icol : answers d (unmerged_cell_io of_q W num_of flt_of fuel f irow icol) (unmerged_cell of_q W num_of flt_of fuel f irow icol).
    Proof. apply ans_done_bind. intros h _. apply ans_bind; [apply ans_uparts|]. intros. apply ans_done. Qed.
    Lemma ans_snxarray a : answers d (snxarray_io of_q W num_of flt_of fuel f a) (snxarray_any of_q W num_of flt_of fuel f a).
    Proof.
      unfold snxarray_io, snxarray_any. destruct (merged f).
      - apply ans_bind; [apply ans_select|]. intros. apply ans_done.
      - apply ans_done_bind. intros l _. apply ans_done_bind. intros s _. apply ans_bind; [apply ans_map; intros; apply ans_ucell|].
        intros. apply ans_done.
    Qed.
  End Soundings.
End Stations.

(** ** Grids *)
Lemma ans_grid_at g hl kx ky ptr : answers (gf_data g) (read_grid_at_io g hl kx ky ptr) (read_grid_at g hl kx ky ptr).
Proof.
  unfold read_grid_at_io, read_grid_at, meta. cbv zeta. apply ans_to_data. apply at_word.
  destruct (_ =? 0). { destruct (_ >? 1); [|apply at_done]. apply (at_items (gf_data g)). intros. apply at_done. }
  assert (BB : forall (A B C : Type) (r : res A) (h : A -> res B) (k : B -> res C), (x <- (y <- r ;; h y) ;; k x) = (y <- r ;; x <- h y ;; k x))
    by (intros A B C [?|?] h k; reflexivity).
  destruct (_ || _).
  { rewrite !BB. apply at_struct. intros ms. apply at_done_bind. intros mi _. rewrite !BB. apply at_struct. intros rs.
    apply at_done_bind. intros mr _. do 5 (apply at_done_bind; intros ? _). apply at_done_bind. intros _ _. rewrite BB.
    rewrite <- !Z.add_assoc. apply (at_items (gf_data g)). intros. apply at_done. }
  destruct (_ =? 3).
  { rewrite !BB. apply at_struct. intros ms. apply at_done_bind. intros mi _. rewrite !BB. apply at_struct. intros rs.
    apply at_done_bind. intros mr _. do 5 (apply at_done_bind; intros ? _). rewrite BB.
    rewrite <- !Z.add_assoc. apply (at_items (gf_data g)). intros. apply at_done. }
  destruct (_ || _); apply at_done.
Qed.
Lemma ans_read_grid f icol : answers (gf_data (rg_file f)) (read_grid_io f icol) (read_grid f icol).
Proof.
  apply ans_done_bind. intros nv _. apply ans_bind; [|intros; apply ans_done].
  apply ans_map. intros [iprt pt] _. apply ans_start_word. intros o. apply ans_at. apply ans_grid_at.
Qed.
Lemma ans_gdxarray f a : answers (gf_data (rg_file f)) (gdxarray_io f a) (gdxarray f a).
Proof.
  apply ans_done_bind. intros sel _. apply ans_bind; [|intros; apply ans_done]. apply ans_map. intros g _.
  apply ans_bind; [apply ans_read_grid|]. intros. apply ans_done.
Qed.

(** ** Sessions *)
Lemma session_answers {A B} d (prog_of : A -> prog B) (g : A -> res B) l b : kept d b -> (forall x, answers d (prog_of x) (g x)) ->
  snd (session (map prog_of l) b) = map g l /\ kept d (fst (session (map prog_of l) b)).
Proof.
  intros K H. revert b K. induction l as [|x r IH]; intros b K; cbn [map session]; [split; [reflexivity|exact K]|].
  destruct (answers_kept _ _ _ b (H x) K) as [E K1]. destruct (run (prog_of x) b) as [b1 y]. cbn [fst snd] in E, K1. subst y.
  destruct (IH b1 K1) as [E2 K2]. destruct (session _ b1). cbn [fst snd] in *. split; [rewrite E2; reflexivity|exact K2].
Qed.

(** ** Threads *)
Lemma step_run {A} (p : prog A) b : run (fst (step p b)) (snd (step p b)) = run p b.
Proof.
  destruct p as [r|m off k|e k|k|e fmt k]; cbn [step run].
  - reflexivity.
  - destruct (io_jump_to m off b); reflexivity.
  - destruct (io_read_int 4 e false b). reflexivity.
  - destruct (io_set_mark b). reflexivity.
  - destruct (io_read_struct e fmt b) as [b' [vs|x]]; reflexivity.
Qed.
Lemma interleave2_run {A} s : forall (p q : prog A) b c p' q' b' c', interleave2 s p q b c = (p', q', b', c') ->
  run p' b' = run p b /\ run q' c' = run q c.
Proof.
  induction s as [|[|] s IH]; intros p q b c p' q' b' c' H; cbn [interleave2] in H.
  - injection H as -> -> -> ->. split; reflexivity.
  - pose proof (step_run p b) as E. destruct (step p b) as [p1 b1]. cbn [fst snd] in E. apply IH in H as [H1 H2]. split; congruence.
  - pose proof (step_run q c) as E. destruct (step q c) as [q1 c1]. cbn [fst snd] in E. apply IH in H as [H1 H2]. split; congruence.
Qed.
(** one thread after the other *)
Lemma interleave_left {A} n s : forall (p q : prog A) b, exists p1 b1, interleave (repeat true n ++ s) p q b = interleave s p1 q b1 /\ run p1 b1 = run p b.
Proof.
  induction n as [|n IH]; intros p q b; cbn [repeat app interleave]; [exists p, b; split; reflexivity|].
  pose proof (step_run p b) as E. destruct (step p b) as [p1 b1]. cbn [fst snd] in E. destruct (IH p1 q b1) as (p2 & b2 & -> & E2).
  exists p2, b2. split; [reflexivity|congruence].
Qed.
Lemma interleave_right {A} n : forall (p q : prog A) b p' q' c, interleave (repeat false n) p q b = (p', q', c) -> p' = p /\ run q' c = run q b.
Proof.
  induction n as [|n IH]; intros p q b p' q' c H; cbn [repeat interleave] in H; [injection H as <- <- <-; split; reflexivity|].
  pose proof (step_run q b) as E. destruct (step q b) as [q1 b1]. cbn [fst snd] in E. apply IH in H as [-> H]. split; [reflexivity|congruence].
Qed.
Lemma interleave_turns {A} n m (p q p' q' : prog A) b c r s : interleave (repeat true n ++ repeat false m) p q b = (p', q', c) ->
  (p', q') = (Done r, Done s) -> exists b1, run p b = (b1, r) /\ run q b1 = (c, s).
Proof.
  intros H E. injection E as -> ->. destruct (interleave_left n (repeat false m) p q b) as (p1 & b1 & E1 & R1). rewrite E1 in H.
  apply interleave_right in H as [E2 H]. subst p1. exists b1. split; [rewrite <- R1; reflexivity|rewrite <- H; reflexivity].
Qed.
(** threads that take turns between reads *)
Lemma between_answers {A} d (r : res A) o m p : between_reads p -> comes_to d r o m p -> answers d p r.
Proof.
  intros B H. inversion H as [ |? ? off k K| ? ? i off k x N| | | | ]; subst; try contradiction B.
  - apply ans_done.
  - intros o' m' _. apply ct_start. exact K.
Qed.
Lemma interleave_between {A} d (r s : res A) schedule : forall (turn : bool) p q o m p' q' b', marked m ->
  (if turn then comes_to d r o m p /\ answers d q s else answers d p r /\ comes_to d s o m q) ->
  turns_between_reads turn schedule p q (mk_iobuf d o m) -> interleave schedule p q (mk_iobuf d o m) = (p', q', b') ->
  snd (run p' b') = r /\ snd (run q' b') = s.
Proof.
  induction schedule as [|t l IH]; intros turn p q o m p' q' b' M H T E; cbn [turns_between_reads interleave] in T, E.
  - injection E as <- <- <-.
    assert (HPQ : comes_to d r o m p /\ comes_to d s o m q) by (destruct turn; destruct H as [HP HQ]; split; auto).
    destruct HPQ as [HP HQ]. destruct (run_comes_to _ _ _ _ _ HP M) as (? & ? & _ & ->). destruct (run_comes_to _ _ _ _ _ HQ M) as (? & ? & _ & ->).
    split; reflexivity.
  - destruct T as [B T].
    assert (H' : if t then comes_to d r o m p /\ answers d q s else answers d p r /\ comes_to d s o m q).
    { destruct t, turn; try exact H; destruct B as [B|B]; try discriminate B; destruct H as [HP HQ]; split.
      - apply HP, M.
      - exact (between_answers _ _ _ _ _ B HQ).
      - exact (between_answers _ _ _ _ _ B HP).
      - apply HQ, M. }
    destruct t; destruct H' as [HP HQ].
    + destruct (step_comes_to _ _ _ _ _ HP M) as (p1 & o1 & m1 & E1 & M1 & HP1). rewrite E1 in T, E. apply (IH true _ _ _ _ _ _ _ M1 (conj HP1 HQ) T E).
    + destruct (step_comes_to _ _ _ _ _ HQ M) as (q1 & o1 & m1 & E1 & M1 & HQ1). rewrite E1 in T, E. apply (IH false _ _ _ _ _ _ _ M1 (conj HP HQ1) T E).
Qed.
Lemma interleave_queries {A} d (r s : res A) turn schedule p q b p' q' b' : answers d p r -> answers d q s -> kept d b ->
  turns_between_reads turn schedule p q b -> interleave schedule p q b = (p', q', b') ->
  snd (run p' b') = r /\ snd (run q' b') = s.
Proof.
  intros HP HQ [D M] T E. destruct b as [d' o m]. cbn in D, M. subst d'.
  apply (interleave_between d r s schedule turn p q o m p' q' b' M); [|exact T|exact E]. destruct turn; split; auto.
Qed.
