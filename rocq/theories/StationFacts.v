(** Sounding and surface files: what save leaves in the file and what the reader gets back,
    in terms of the object's sorted headers and its data. *)
From Coq Require Import Lia ZifyBool ZifyNat.
From Verif Require Import Base BaseFacts Words Layout LayoutFacts Floats FloatsFacts Structs StructsFacts
  Strings StringsFacts Dates SpecDates DatesFacts Headers HeadersFacts Order OrderFacts SpecLayout Props_Layout
  DmFile StreamFacts DmWriteFacts DmHookFacts DmReadFacts Station Text StationRead.
Ltac Zify.zify_post_hook ::= Z.div_mod_to_equations.

(** ** Index lists *)
Lemma zrange_length n : length (zrange n) = Z.to_nat n.
Proof. unfold zrange. rewrite map_length, seq_length. reflexivity. Qed.
Lemma zrange_nth n i : (i < Z.to_nat n)%nat -> nth_error (zrange n) i = Some (Z.of_nat i).
Proof.
  intros H. unfold zrange. rewrite nth_error_map.
  assert (E : nth_error (seq 0 (Z.to_nat n)) i = Some i).
  { rewrite (nth_error_nth' _ 0%nat) by (rewrite seq_length; exact H). rewrite seq_nth by exact H. reflexivity. }
  rewrite E. reflexivity.
Qed.
Lemma zrange_in n i : In i (zrange n) <-> 0 <= i < n.
Proof.
  unfold zrange. rewrite in_map_iff. split.
  - intros (k & <- & H). apply in_seq in H. lia.
  - intros H. exists (Z.to_nat i). split; [lia|]. apply in_seq. lia.
Qed.
Lemma zrange_NoDup n : NoDup (zrange n).
Proof. unfold zrange. apply FinFun.Injective_map_NoDup; [intros a b; lia|apply seq_NoDup]. Qed.

Lemma indexed_fst {A} (l : list A) : map fst (indexed l) = zrange (Zlen l).
Proof.
  unfold indexed. assert (L : length (zrange (Zlen l)) = length l) by (rewrite zrange_length, Zlen_length; reflexivity).
  revert L. generalize (zrange (Zlen l)). induction l as [|x l IH]; intros [|i r] L; try discriminate L; [reflexivity|].
  cbn. rewrite IH by (cbn in L; lia). reflexivity.
Qed.
Lemma indexed_in {A} (l : list A) i x : In (i, x) (indexed l) <-> 0 <= i /\ nth_error l (Z.to_nat i) = Some x.
Proof.
  unfold indexed, zrange. rewrite Zlen_length. split.
  - intros H. apply In_nth_error in H as (k & H).
    assert (L : (k < length l)%nat).
    { assert (k < length (combine (map Z.of_nat (seq 0 (length l))) l))%nat by (apply nth_error_Some; congruence).
      rewrite combine_length, map_length, seq_length in *. lia. }
    assert (E1 : nth_error (map Z.of_nat (seq 0 (length l))) k = Some (Z.of_nat k)).
    { pose proof (zrange_nth (Zlen l) k) as Z1. unfold zrange in Z1. rewrite Zlen_length in Z1. auto. }
    destruct (nth_error l k) as [y|] eqn:E2; [|apply nth_error_None in E2; lia].
    assert (E3 : nth_error (combine (map Z.of_nat (seq 0 (length l))) l) k = Some (Z.of_nat k, y)).
    { clear H. revert E1 E2. generalize (map Z.of_nat (seq 0 (length l))). clear L. intros q. generalize (Z.of_nat k) as zk.
      revert l q. induction k as [|k IH]; intros [|a l] [|b q] zk; cbn; try discriminate.
      - intros [= ->] [= ->]. reflexivity.
      - apply IH. }
    rewrite E3 in H. injection H as <- <-. split; [lia|]. rewrite Nat2Z.id. exact E2.
  - intros [H1 H2]. apply nth_error_In with (n := Z.to_nat i).
    assert (L : (Z.to_nat i < length l)%nat) by (apply nth_error_Some; congruence).
    pose proof (zrange_nth (Zlen l) (Z.to_nat i)) as E1. unfold zrange in E1. rewrite Zlen_length in E1. specialize (E1 L).
    rewrite Z2Nat.id in E1 by lia. revert E1 H2. generalize (map Z.of_nat (seq 0 (length l))). generalize (Z.to_nat i).
    clear. intros k q. revert l q. induction k as [|k IH]; intros [|a l] [|b q]; cbn; try discriminate.
    + intros [= ->] [= ->]. reflexivity.
    + apply IH.
Qed.
Lemma py_index_in {A} (l : list A) i x : 0 <= i -> nth_error l (Z.to_nat i) = Some x -> py_index l i = Ok x.
Proof.
  intros H1 H2. unfold py_index. assert (L : (Z.to_nat i < length l)%nat) by (apply nth_error_Some; congruence).
  unfold Zlen. destruct (Z.ltb_spec i 0); [lia|]. 
  repeat match goal with |- context [if ?c then _ else _] => destruct c eqn:? end; try lia; rewrite ?H2; try reflexivity.
Qed.

(** ** Words *)
Lemma row_words_len e r ws : row_words e r = Ok ws -> word_list ws /\ Zlen ws = 2.
Proof.
  unfold row_words. intros H. inv_ok. split; [|reflexivity].
  repeat constructor; eapply pack_i32_length; eassumption.
Qed.
Lemma coord_word_length e n w : coord_word e n = Ok w -> length w = 4%nat.
Proof. unfold coord_word. intros H. inv_ok. eapply pack_i32_length; eassumption. Qed.
Lemma num_word_length e n w : num_word e n = Ok w -> length w = 4%nat.
Proof. destruct n; cbn; [apply pack_i32_length|discriminate]. Qed.
Lemma column_words_len e k s ws : column_words e k s = Ok ws -> word_list ws /\ Zlen ws = Zlen (column_names k).
Proof.
  unfold column_words. intros H. destruct k; inv_ok; (split; [|reflexivity]);
  repeat constructor; eauto using pack_i32_length, word_of_str_length, coord_word_length, num_word_length.
Qed.
Lemma block_words_len e k r cols ws : block_words e k r cols = Ok ws -> word_list ws.
Proof.
  unfold block_words. intros H. inv_ok. constructor; [eapply pack_i32_length; eassumption|].
  constructor; [eapply pack_i32_length; eassumption|]. eapply floats_words; eassumption.
Qed.

(** ** The object as save sees it *)
Definition coherent (o : sfile) : Prop :=
  sf_rows o = Zlen (sf_row_headers o) /\ sf_cols o = Zlen (sf_col_headers o).

Lemma sf_head_ok o : coherent o -> head_ok (sf_head o).
Proof.
  intros [H1 H2]. unfold head_ok, sf_head. cbn [hd_rows hd_columns hd_file_headers].
  rewrite H1, H2. split; [apply Zlen_nonneg|]. split; [apply Zlen_nonneg|]. split; [constructor|].
  unfold parts_wf. cbn. constructor; [|constructor]. cbn. rewrite repeat_length. auto.
Qed.

Lemma record_start_idem w : record_start (record_start w) = record_start w.
Proof. pose proof (record_start_spec w). pose proof (record_start_spec (record_start w)). lia. Qed.
Lemma head_data_ptrs o p : coherent o -> head_pointers (sf_head o) = p ->
  record_start (data_block_ptr p) = data_block_ptr p /\ record_start (next_free_word p) = next_free_word p /\
  data_block_ptr p + sf_rows o * sf_cols o <= next_free_word p.
Proof.
  intros HC <-. unfold head_pointers, set_pointers. cbv zeta. cbn [data_block_ptr next_free_word].
  rewrite !record_start_idem. split; [reflexivity|]. split; [reflexivity|].
  cbn [head_shape sf_head sh_part_nparms hd_parts map sh_rows sh_columns hd_rows hd_columns].
  match goal with |- ?a + _ <= record_start ?w => pose proof (record_start_spec w) as [R _]; set (x := a) in *; clearbody x end.
  match type of R with context [Zlen ?l] => change (Zlen l) with 1 in * end.
  rewrite Z.mul_1_l in R. rewrite Z.mul_1_l. apply R.
Qed.

(** The items are indexed by (row index, row) and (column index, column). *)
Definition cell_pairs (o : sfile) : list ((Z * row) * (Z * station)) :=
  let rs := indexed (sf_row_headers o) in
  let cs := indexed (sf_col_headers o) in
  match sf_kind o with
  | KSounding => flat_map (fun jc => map (fun ir => (ir, jc)) rs) cs
  | KSurface => flat_map (fun ir => map (fun jc => (ir, jc)) cs) rs
  end.
Lemma items_of_eq e o base : items_of e o base = map (fun '(ir, jc) => item_of e o base ir jc) (cell_pairs o).
Proof.
  unfold items_of, cell_pairs. destruct (sf_kind o).
  - generalize (indexed (sf_col_headers o)). intros cs. induction cs as [|c cs IH]; [reflexivity|].
    cbn. rewrite map_app, map_map, IH. reflexivity.
  - generalize (indexed (sf_row_headers o)). intros cs. induction cs as [|c cs IH]; [reflexivity|].
    cbn. rewrite map_app, map_map, IH. reflexivity.
Qed.
Lemma cell_pairs_in o ir jc : In (ir, jc) (cell_pairs o) <->
  In ir (indexed (sf_row_headers o)) /\ In jc (indexed (sf_col_headers o)).
Proof.
  unfold cell_pairs. destruct (sf_kind o); rewrite in_flat_map; split.
  - intros (x & H1 & H2). apply in_map_iff in H2 as (y & H2 & H3). injection H2 as <- <-. auto.
  - intros [H1 H2]. exists jc. split; [exact H2|]. apply in_map_iff. exists ir. auto.
  - intros (x & H1 & H2). apply in_map_iff in H2 as (y & H2 & H3). injection H2 as <- <-. auto.
  - intros [H1 H2]. exists ir. split; [exact H1|]. apply in_map_iff. exists jc. auto.
Qed.

Lemma NoDup_map_in {A B} (f : A -> B) l : NoDup l ->
  (forall x y, In x l -> In y l -> f x = f y -> x = y) -> NoDup (map f l).
Proof.
  induction 1 as [|x l Hx _ IH]; intros HI; cbn; constructor.
  - intros H. apply in_map_iff in H as (y & E & Hy). assert (y = x) by (apply HI; [right|left|]; auto). subst y. contradiction.
  - apply IH. intros a b Ha Hb. apply HI; right; assumption.
Qed.
Lemma NoDup_app_disj {A} (l1 l2 : list A) : NoDup l1 -> NoDup l2 -> (forall x, In x l1 -> ~ In x l2) -> NoDup (l1 ++ l2).
Proof.
  induction 1 as [|x l1 Hx _ IH]; intros H2 HD; cbn; [exact H2|]. constructor.
  - rewrite in_app_iff. intros [H|H]; [contradiction|]. apply (HD x); [left; reflexivity|exact H].
  - apply IH; [exact H2|]. intros y Hy. apply HD. right. exact Hy.
Qed.
Lemma NoDup_pairs {A B C} (f : A -> B -> C) la lb : NoDup la -> NoDup lb ->
  (forall a b a' b', f a b = f a' b' -> a = a' /\ b = b') ->
  NoDup (flat_map (fun a => map (f a) lb) la).
Proof.
  intros Na Nb HI. induction Na as [|a la Ha _ IH]; [constructor|]. cbn. apply NoDup_app_disj.
  - apply FinFun.Injective_map_NoDup; [|exact Nb]. intros x y E. apply HI in E. tauto.
  - exact IH.
  - intros x Hx Hx'. apply in_map_iff in Hx as (b & <- & _). apply in_flat_map in Hx' as (a' & Ha' & Hx').
    apply in_map_iff in Hx' as (b' & E & _). apply HI in E as [-> _]. contradiction.
Qed.
Lemma indexed_NoDup {A} (l : list A) : NoDup (indexed l).
Proof. apply (NoDup_map_inv fst). rewrite indexed_fst. apply zrange_NoDup. Qed.
Lemma cell_pairs_NoDup o : NoDup (cell_pairs o).
Proof.
  unfold cell_pairs. destruct (sf_kind o).
  - apply (NoDup_pairs (fun jc ir => (ir, jc))); try apply indexed_NoDup. intros a b a' b' [= -> ->]. auto.
  - apply (NoDup_pairs (fun ir jc => (ir, jc))); try apply indexed_NoDup. intros a b a' b' [= -> ->]. auto.
Qed.
Lemma indexed_range {A} (l : list A) x : In x (indexed l) -> 0 <= fst x < Zlen l.
Proof. intros H. apply (in_map fst) in H. rewrite indexed_fst in H. apply zrange_in in H. exact H. Qed.
Lemma zrange_S n : 0 <= n -> zrange (n + 1) = zrange n ++ [n].
Proof.
  intros H. unfold zrange. replace (Z.to_nat (n + 1)) with (Z.to_nat n + 1)%nat by lia.
  rewrite seq_app, map_app. cbn. rewrite Z2Nat.id by exact H. reflexivity.
Qed.
Lemma combine_app {A B} (a1 a2 : list A) (b1 b2 : list B) : length a1 = length b1 ->
  combine (a1 ++ a2) (b1 ++ b2) = combine a1 b1 ++ combine a2 b2.
Proof.
  revert b1; induction a1 as [|x a1 IH]; intros [|y b1] H; try discriminate H; [reflexivity|].
  cbn. rewrite IH by (cbn in H; lia). reflexivity.
Qed.
Lemma indexed_app_one {A} (l : list A) x : indexed (l ++ [x]) = indexed l ++ [(Zlen l, x)].
Proof.
  unfold indexed. rewrite Zlen_app. change (Zlen [x]) with 1. rewrite zrange_S by apply Zlen_nonneg.
  rewrite combine_app; [reflexivity|]. rewrite zrange_length. apply Zlen_length.
Qed.
Lemma indexed_last {A} (l : list A) : l <> [] -> exists pre x, indexed l = pre ++ [(Zlen l - 1, x)].
Proof.
  intros H. destruct (exists_last H) as (l' & x & ->). exists (indexed l'), x. rewrite indexed_app_one, Zlen_app.
  change (Zlen [x]) with 1. replace (Zlen l' + 1 - 1) with (Zlen l') by lia. reflexivity.
Qed.
Lemma flat_pairs_last {A B C} (f : A -> B -> C) la a lb b :
  exists pre, flat_map (fun a => map (f a) (lb ++ [b])) (la ++ [a]) = pre ++ [f a b].
Proof.
  rewrite flat_map_app. cbn [flat_map]. rewrite app_nil_r, map_app. cbn [map].
  eexists (_ ++ _). rewrite <- app_assoc. reflexivity.
Qed.
Lemma cell_pairs_last o : cell_pairs o <> [] ->
  exists pre r c, cell_pairs o = pre ++ [((Zlen (sf_row_headers o) - 1, r), (Zlen (sf_col_headers o) - 1, c))].
Proof.
  intros H.
  assert (Hr : sf_row_headers o <> []).
  { intros E. apply H. unfold cell_pairs. rewrite E. change (indexed (@nil row)) with (@nil (Z * row)).
    destruct (sf_kind o); [|reflexivity]. induction (indexed (sf_col_headers o)) as [|a q IHq]; [reflexivity|exact IHq]. }
  assert (Hc : sf_col_headers o <> []).
  { intros E. apply H. unfold cell_pairs. rewrite E. change (indexed (@nil station)) with (@nil (Z * station)).
    destruct (sf_kind o); [reflexivity|]. induction (indexed (sf_row_headers o)) as [|a q IHq]; [reflexivity|exact IHq]. }
  destruct (indexed_last _ Hr) as (pr & r & Er). destruct (indexed_last _ Hc) as (pc & c & Ec).
  unfold cell_pairs. rewrite Er, Ec. destruct (sf_kind o).
  - destruct (flat_pairs_last (fun jc ir => (ir, jc)) pc (Zlen (sf_col_headers o) - 1, c) pr (Zlen (sf_row_headers o) - 1, r)) as (pre & E).
    exists pre, r, c. exact E.
  - destruct (flat_pairs_last (fun ir jc => (ir, jc)) pr (Zlen (sf_row_headers o) - 1, r) pc (Zlen (sf_col_headers o) - 1, c)) as (pre & E).
    exists pre, r, c. exact E.
Qed.

Lemma cell_word_range rows cols i j : 0 <= i < rows -> 0 <= j < cols -> 0 <= i * cols + j < rows * cols.
Proof. nia. Qed.
Lemma cell_word_inj cols i j i' j' : 0 <= j < cols -> 0 <= j' < cols -> i * cols + j = i' * cols + j' -> i = i' /\ j = j'.
Proof. intros H1 H2 H. assert (i = i') by nia. subst i'. lia. Qed.

Definition row_hook (e : endian) (o : sfile) := write_headers e (sf_rows o) (Zlen row_names) (row_words e) (sf_row_headers o).

Lemma items_hook e o base nf : coherent o -> 1 <= base -> record_start base = base -> record_start nf = nf ->
  base + sf_rows o * sf_cols o <= nf ->
  data_hook (write_items e (items_of e o base) nf) base (fun _ b => items_at e (items_of e o base) nf b).
Proof.
  intros [C1 C2] Hb R1 R2 Hn.
  assert (RG : forall ir jc, In (ir, jc) (cell_pairs o) -> 0 <= fst ir < sf_rows o /\ 0 <= fst jc < sf_cols o).
  { intros ir jc H. apply cell_pairs_in in H as [H1 H2]. rewrite C1, C2. split; eapply indexed_range; eassumption. }
  apply write_items_hook; try assumption; rewrite items_of_eq.
  - apply Forall_forall. intros it H. apply in_map_iff in H as ([ir jc] & <- & H). apply RG in H as [G1 G2].
    unfold item_of. pose proof (cell_word_range _ _ _ _ G1 G2). clear - H Hn. 
    set (x := fst ir * sf_cols o) in *. set (y := sf_rows o * sf_cols o) in *. clearbody x y. lia.
  - rewrite map_map. apply NoDup_map_in; [apply cell_pairs_NoDup|].
    intros [[i r] [j c]] [[i' r'] [j' c']] H H'. cbn. intros E.
    pose proof (RG _ _ H) as [_ G1]. pose proof (RG _ _ H') as [_ G2]. cbn [fst] in G1, G2.
    destruct (cell_word_inj (sf_cols o) i j i' j') as [-> ->]; [assumption|assumption|lia|].
    apply cell_pairs_in in H as [H1 H2]. apply cell_pairs_in in H' as [H1' H2'].
    apply indexed_in in H1 as [_ H1]. apply indexed_in in H1' as [_ H1']. apply indexed_in in H2 as [_ H2]. apply indexed_in in H2' as [_ H2'].
    congruence.
  - apply Forall_forall. intros it H. apply in_map_iff in H as ([ir jc] & <- & H). unfold item_of.
    destruct (dict_get _ _ _) as [cols|]; [|exact I]. destruct (block_words _ _ _ _) eqn:E; [|exact I]. eapply block_words_len; eassumption.
  - intros it H. apply in_map_iff in H as ([ir jc] & <- & H). pose proof (RG _ _ H) as [G1 G2].
    destruct (cell_pairs_last o) as (pre & r & c & E); [intros E; rewrite E in H; destruct H|].
    rewrite E, map_app. cbn [map]. rewrite last_last. unfold item_of. cbn [fst]. rewrite <- C1, <- C2.
    clear - G1 G2. nia.
Qed.

(** ** What save leaves *)
Record saved (e : endian) (o : sfile) (p : pointers) (b : bytes) : Prop := {
  sv_rows : headers_at e (row_words e) (sf_row_headers o) (row_headers_ptr p) b;
  sv_cols : headers_at e (column_words e (sf_kind o)) (sf_col_headers o) (column_headers_ptr p) b;
  sv_items : items_at e (items_of e o (data_block_ptr p)) (next_free_word p) b;
  sv_open : exists nf, open_gempak b = Ok (file_of e (sf_head o) (the_part (sf_kind o) (sf_names o)) p b None nf)
}.
Lemma items_of_ptrs e o p base : items_of e (with_ptrs o p) base = items_of e o base.
Proof. reflexivity. Qed.

Definition write_at (e : endian) (o : sfile) (p : pointers) : res (bytes * Z) :=
  to_gempak_at e (sf_head o) p (fun s => Ok s)
    (write_headers e (sf_rows o) (Zlen row_names) (row_words e) (sf_row_headers o))
    (write_headers e (sf_cols o) (Zlen (column_names (sf_kind o))) (column_words e (sf_kind o)) (sf_col_headers o))
    (write_items e (items_of e o (data_block_ptr p)) (next_free_word p)).
Lemma save_write_at e o p : head_pointers (sf_head o) = p ->
  save e o = match write_at e o p with
             | Ok (b, nf) => (with_ptrs o (set_next_free p nf), Ok b)
             | Err x => (with_ptrs o p, Err x)
             end.
Proof.
  intros HP. unfold save, write_at. rewrite HP. cbv zeta. rewrite items_of_ptrs.
  cbn [sf_rows sf_cols sf_row_headers sf_col_headers with_ptrs]. reflexivity.
Qed.
Lemma write_at_written e o p b nf : coherent o -> head_pointers (sf_head o) = p -> write_at e o p = Ok (b, nf) ->
  written e (sf_head o) (fun _ => True)
     (headers_at e (row_words e) (sf_row_headers o) (row_headers_ptr p))
     (headers_at e (column_words e (sf_kind o)) (sf_col_headers o) (column_headers_ptr p))
     (fun _ b => items_at e (items_of e o (data_block_ptr p)) (next_free_word p) b) b.
Proof.
  intros HC HP HS. pose proof (head_data_ptrs _ _ HC HP) as (D1 & D2 & D3).
  pose proof (layout_order _ (sf_head_ok _ HC)) as LO. cbv zeta in LO. rewrite HP in LO.
  assert (LD : 1 <= data_block_ptr p) by (clear - LO; pose proof (Zlen_nonneg (hd_row_names (sf_head o))); pose proof (Zlen_nonneg (hd_column_names (sf_head o))); lia).
  clear LO. pose proof (sf_head_ok _ HC) as HK. pose proof HC as [C1 C2]. unfold write_at in HS.
  refine (to_gempak_written e (sf_head o) _ _ _ _ _ _ _ _ p HP HK _ _ _ _ b nf HS).
  - split; [intros ? ?; auto|]. intros s s' _ _ Hs. apply ok_inj in Hs. subst s'. split; [apply changes_refl|exact I].
  - apply (write_headers_hook e (sf_rows o) (Zlen row_names)); [|apply Zlen_nonneg|apply Z.eq_le_incl; symmetry; exact C1].
    intros h ws _ H. apply row_words_len in H. exact H.
  - apply (write_headers_hook e (sf_cols o) (Zlen (column_names (sf_kind o)))); [|apply Zlen_nonneg|apply Z.eq_le_incl; symmetry; exact C2].
    intros h ws _ H. apply column_words_len in H. exact H.
  - apply items_hook; assumption.
Qed.
Lemma save_saved e o o' b p : coherent o -> head_pointers (sf_head o) = p -> save e o = (o', Ok b) ->
  saved e o p b.
Proof.
  intros HC HP HS. rewrite (save_write_at _ _ _ HP) in HS.
  destruct (write_at e o p) as [[b1 nf1]|] eqn:E in HS; [|injection HS as _ HS; discriminate HS].
  injection HS as _ <-. pose proof (write_at_written _ _ _ _ _ HC HP E) as W. clear E.
  pose proof (sf_head_ok _ HC) as HK.
  assert (O : exists nf, items_at e (items_of e o (data_block_ptr p)) (next_free_word p) b1 /\
     open_gempak b1 = Ok (file_of e (sf_head o) (the_part (sf_kind o) (sf_names o)) p b1 None nf)).
  { refine (open_written e (sf_head o) (the_part (sf_kind o) (sf_names o)) p _ _ _ _ b1 None HP W _ _ _ _ _ _ _).
    - reflexivity.
    - reflexivity.
    - apply HK.
    - discriminate.
    - unfold sf_head. cbn. destruct (sf_kind o); discriminate.
    - unfold sf_head. cbn. destruct (sf_kind o); reflexivity.
    - reflexivity. }
  destruct O as (nf & O1 & O2). destruct W. constructor; try assumption. exists nf. exact O2.
Qed.

(** ** Items by cell *)
Lemma items_at_in e items b : forall nf it, items_at e items nf b -> In it items ->
  match snd it with
  | None => rd_uint e b (4 * (fst it - 1)) = 0
  | Some m => exists ws nf', m = Ok ws /\ nf <= nf' /\ rd_uint e b (4 * (fst it - 1)) = nf' /\ words_at ws nf' b
  end \/ nf < 0.
Proof.
  induction items as [|[ptr [m|]] items IH]; intros nf it H HI; [destruct HI| |]; cbn [items_at] in H.
  - destruct (Z_lt_le_dec nf 0) as [?|Hn]; [right; assumption|]. left.
    destruct H as (ws & w & H1 & H2 & H3 & H4 & H5). destruct HI as [<-|HI].
    + cbn [fst snd]. exists ws, nf. split; [exact H1|]. split; [lia|]. split; [|exact H4].
      eapply rd_uint_int; eassumption.
    + pose proof (Zlen_nonneg ws). destruct (IH _ _ H5 HI) as [G|G]; [|lia].
      destruct (snd it); [|exact G]. destruct G as (ws' & nf' & G1 & G2 & G3). exists ws', nf'. split; [exact G1|]. split; [lia|exact G3].
  - destruct H as [(w & H1 & H2) H3]. destruct HI as [<-|HI]; [|apply IH; assumption].
    left. cbn [fst snd]. eapply rd_uint_int; [eassumption|lia|eassumption].
Qed.

(** ** Headers read back *)
Definition minute (t : time) : time := mk_time (ti_h t) (ti_mi t) 0 0.
Definition coord_back (n : pynum) : flt := match enc_coord n with Ok z => dec_coord z | Err _ => S754_nan end.
Definition int_back (n : pynum) : Z := match n with PInt z => z | PFloat _ => 0 end.
Definition row_head (r : row) : header := [(k_DATE, HDate (fst r)); (k_TIME, HTime (minute (snd r)))].
Definition col_head (k : kind) (s : station) : header :=
  [(k_STID, HText (clean (s_id s))); (k_STNM, HInt (s_nm s)); (k_SLAT, HFlt (coord_back (s_lat s)));
   (k_SLON, HFlt (coord_back (s_lon s))); (k_SELV, HInt (s_elv s)); (k_STAT, HText (clean (s_stat s)));
   (k_COUN, HText (clean (s_coun s))); (k_STD2, HText (clean (s_id2 s)))]
  ++ match k with KSounding => [] | KSurface => [(k_SPRI, HInt (int_back (s_pri s)))] end.
Definition row_kind (k : kind) := match k with KSounding => SndRow | KSurface => SfcHead end.
Definition col_kind (k : kind) := match k with KSounding => SndCol | KSurface => SfcHead end.

Definition row_ok (r : row) : Prop :=
  valid_date (fst r) = true /\ valid_time (snd r) = true /\ in_window (da_y (fst r)).

Lemma read_row_head e k r ws d p : row_ok r -> row_words e r = Ok ws -> has_at d p (concat ws) ->
  read_header e (row_kind k) row_names d p = Ok (row_head r).
Proof.
  intros (V1 & V2 & W) H HA. unfold row_words in H.
  pose proof (row_date_roundtrip _ V1 W) as RD. pose proof (row_time_roundtrip _ V2) as RT.
  destruct (enc_date (fst r)) as [zd|]; cbn [bind] in *; [|discriminate].
  destruct (pack_i32 e zd) as [w1|] eqn:E1; cbn [bind] in *; [|discriminate].
  destruct (enc_time (snd r)) as [zt|]; cbn [bind] in *; [|discriminate].
  destruct (pack_i32 e zt) as [w2|] eqn:E2; cbn [bind] in *; [|discriminate].
  apply ok_inj in H. subst ws. unfold read_header.
  replace (map (key_fmt (row_kind k)) row_names) with [FInt; FInt] by (destruct k; reflexivity).
  rewrite (rd_packed e [FInt; FInt] [VInt zd; VInt zt] [w1; w2]) by
    (try exact HA; repeat (constructor; [assumption|]); constructor).
  cbn [bind stored_vals stored row_names combine mapM].
  destruct k; cbn [row_kind key_conv].
  - change (str_eqb k_DATE k_DATE) with true. change (str_eqb k_TIME k_DATE) with false. change (str_eqb k_TIME k_TIME) with true.
    cbn iota. rewrite RD, RT. reflexivity.
  - change (is_coord_key k_DATE) with false. change (is_coord_key k_TIME) with false.
    change (str_eqb k_DATE k_DATE) with true. change (str_eqb k_TIME k_DATE) with false. change (str_eqb k_TIME k_TIME) with true.
    cbn iota. rewrite RD, RT. reflexivity.
Qed.

Lemma read_col_head e k s ws d p : column_words e k s = Ok ws -> has_at d p (concat ws) ->
  read_header e (col_kind k) (column_names k) d p = Ok (col_head k s).
Proof.
  intros H HA. unfold column_words, coord_word in H.
  destruct (word_of_str (s_id s)) as [w1|] eqn:E1; cbn [bind] in H; [|discriminate H].
  destruct (pack_i32 e (s_nm s)) as [w2|] eqn:E2; cbn [bind] in H; [|discriminate H].
  destruct (enc_coord (s_lat s)) as [z3|] eqn:Z3; cbn [bind] in H; [|discriminate H].
  destruct (pack_i32 e z3) as [w3|] eqn:E3; cbn [bind] in H; [|discriminate H].
  destruct (enc_coord (s_lon s)) as [z4|] eqn:Z4; cbn [bind] in H; [|discriminate H].
  destruct (pack_i32 e z4) as [w4|] eqn:E4; cbn [bind] in H; [|discriminate H].
  destruct (pack_i32 e (s_elv s)) as [w5|] eqn:E5; cbn [bind] in H; [|discriminate H].
  destruct (word_of_str (s_stat s)) as [w6|] eqn:E6; cbn [bind] in H; [|discriminate H].
  destruct (word_of_str (s_coun s)) as [w7|] eqn:E7; cbn [bind] in H; [|discriminate H].
  destruct (word_of_str (s_id2 s)) as [w8|] eqn:E8; cbn [bind] in H; [|discriminate H].
  assert (PS : forall s w, word_of_str s = Ok w -> pack_item e (FStr 4) (VBytes w) = Ok w).
  { intros s' w H'. unfold pack_item. rewrite fit_exact by (eapply word_of_str_length; eassumption). reflexivity. }
  assert (FS : forall s w, word_of_str s = Ok w -> fit 4 w = w).
  { intros s' w H'. apply fit_exact. eapply word_of_str_length; eassumption. }
  set (vs8 := [VBytes w1; VInt (s_nm s); VInt z3; VInt z4; VInt (s_elv s); VBytes w6; VBytes w7; VBytes w8]).
  set (f8 := [FStr 4; FInt; FInt; FInt; FInt; FStr 4; FStr 4; FStr 4]).
  assert (P8 : packed e f8 vs8 [w1;w2;w3;w4;w5;w6;w7;w8]).
  { unfold f8, vs8. repeat (constructor; [solve [assumption|eapply PS; eassumption]|]). constructor. }
  unfold read_header, col_head, coord_back. rewrite Z3, Z4. destruct k.
  - apply ok_inj in H. subst ws.
    change (map (key_fmt (col_kind KSounding)) (column_names KSounding)) with f8.
    rewrite (rd_packed e f8 vs8 _ _ _ P8 HA). cbn [bind]. unfold f8, vs8. cbn [stored_vals]. unfold stored.
    rewrite (FS _ _ E1), (FS _ _ E6), (FS _ _ E7), (FS _ _ E8).
    cbn [column_names app combine mapM bind key_conv col_kind].
    rewrite (decode_word _ _ E1), (decode_word _ _ E6), (decode_word _ _ E7), (decode_word _ _ E8). reflexivity.
  - destruct (num_word e (s_pri s)) as [w9|] eqn:E9; cbn [bind] in H; [|discriminate H]. apply ok_inj in H. subst ws.
    destruct (s_pri s) as [z9|]; cbn [num_word] in E9; [|discriminate E9].
    change (map (key_fmt (col_kind KSurface)) (column_names KSurface)) with (f8 ++ [FInt]).
    rewrite (rd_packed e (f8 ++ [FInt]) (vs8 ++ [VInt z9]) [w1;w2;w3;w4;w5;w6;w7;w8;w9]); [|change [w1;w2;w3;w4;w5;w6;w7;w8;w9] with ([w1;w2;w3;w4;w5;w6;w7;w8] ++ [w9]); apply packed_app; [exact P8|constructor; [exact E9|constructor]]|exact HA].
    cbn [bind]. unfold f8, vs8. cbn [stored_vals app]. unfold stored.
    rewrite (FS _ _ E1), (FS _ _ E6), (FS _ _ E7), (FS _ _ E8).
    cbn [column_names app combine mapM bind key_conv col_kind].
    rewrite (decode_word _ _ E1), (decode_word _ _ E6), (decode_word _ _ E7), (decode_word _ _ E8). reflexivity.
Qed.

Definition read_type (k : kind) : stype := match k with KSounding => Sounding | KSurface => Standard end.
Definition opened (e : endian) (o : sfile) (p : pointers) (b : bytes) (nf : Z) : rfile :=
  mk_rf (file_of e (sf_head o) (the_part (sf_kind o) (sf_names o)) p b None nf) (read_type (sf_kind o))
    (map row_head (sf_row_headers o)) (map (col_head (sf_kind o)) (sf_col_headers o)).

Lemma open_saved e o p b : coherent o -> Forall row_ok (sf_row_headers o) -> saved e o p b ->
  exists nf, open_station (sf_kind o) b = Ok (opened e o p b nf).
Proof.
  intros [C1 C2] HR [S1 S2 S3 (nf & S4)]. exists nf. unfold open_station. rewrite S4. cbn [bind].
  set (g := file_of e (sf_head o) (the_part (sf_kind o) (sf_names o)) p b None nf).
  assert (ER : read_header_block g (match sf_kind o with KSounding => SndRow | KSurface => SfcHead end) (gf_row_keys g)
     (lb_rows (gf_label g)) (lb_row_headers_ptr (gf_label g)) = Ok (map row_head (sf_row_headers o))).
  { unfold read_header_block. change (gf_endian g) with e. change (gf_data g) with b.
    change (lb_rows (gf_label g)) with (sf_rows o). change (lb_row_headers_ptr (gf_label g)) with (row_headers_ptr p).
    change (gf_row_keys g) with row_names. change (match sf_kind o with KSounding => SndRow | KSurface => SfcHead end) with (row_kind (sf_kind o)).
    rewrite C1, Zlen_length. unfold word_to_position. replace (row_headers_ptr p * 4 - 4) with (4 * (row_headers_ptr p - 1)) by lia.
    replace (Z.of_nat (calcsize (map (key_fmt (row_kind (sf_kind o))) row_names))) with (4 * 2) by (destruct (sf_kind o); reflexivity).
    apply (read_headers_at e (row_words e) _ row_head 2); [| |exact S1].
    - intros h ws _ H. apply row_words_len in H. exact H.
    - intros h ws q HI HW HA. rewrite Forall_forall in HR. eapply read_row_head; eauto. }
  rewrite ER. cbn [bind]. clear ER.
  assert (EC : read_header_block g (match sf_kind o with KSounding => SndCol | KSurface => SfcHead end) (gf_column_keys g)
     (lb_columns (gf_label g)) (lb_column_headers_ptr (gf_label g)) = Ok (map (col_head (sf_kind o)) (sf_col_headers o))).
  { unfold read_header_block. change (gf_endian g) with e. change (gf_data g) with b.
    change (lb_columns (gf_label g)) with (sf_cols o). change (lb_column_headers_ptr (gf_label g)) with (column_headers_ptr p).
    replace (gf_column_keys g) with (column_names (sf_kind o)) by (unfold g, file_of, sf_head; cbn [gf_column_keys hd_column_names]; destruct (sf_kind o); reflexivity).
    change (match sf_kind o with KSounding => SndCol | KSurface => SfcHead end) with (col_kind (sf_kind o)).
    rewrite C2, Zlen_length. unfold word_to_position. replace (column_headers_ptr p * 4 - 4) with (4 * (column_headers_ptr p - 1)) by lia.
    replace (Z.of_nat (calcsize (map (key_fmt (col_kind (sf_kind o))) (column_names (sf_kind o))))) with (4 * Zlen (column_names (sf_kind o))) by (destruct (sf_kind o); reflexivity).
    apply (read_headers_at e (column_words e (sf_kind o)) _ (col_head (sf_kind o)) _); [| |exact S2].
    - intros h ws _ H. apply column_words_len in H. exact H.
    - intros h ws q HI HW HA. eapply read_col_head; eauto. }
  rewrite EC. cbn [bind]. clear EC. unfold opened. fold g.
  unfold surface_type. replace (gf_column_keys g) with (column_names (sf_kind o)) by (unfold g, file_of, sf_head; cbn [gf_column_keys hd_column_names]; destruct (sf_kind o); reflexivity).
  change (gf_row_keys g) with row_names.
  destruct (sf_kind o); cbn [bind read_type]; [reflexivity|].
  change (has_key k_DATE (column_names KSurface)) with false. rewrite andb_false_r. reflexivity.
Qed.
