(** Header blocks and the data section: what their writers leave, and what the readers find. *)
From Coq Require Import Lia ZifyBool ZifyNat.
From Verif Require Import Base BaseFacts Words Layout LayoutFacts Floats FloatsFacts Structs StructsFacts
  Strings StringsFacts Headers HeadersFacts SpecLayout Props_Layout DmFile StreamFacts DmWriteFacts.
Ltac Zify.zify_post_hook ::= Z.div_mod_to_equations.

Ltac posl := match goal with |- 0 <= st_pos ?s => unfold s; cbn [st_pos]; lia end.

(** ** Header blocks *)
Definition header_block (flag : bytes) (ws : list bytes) : list bytes := flag :: ws.
Definition header_words (flag : bytes) (wss : list (list bytes)) : list bytes :=
  concat (map (header_block flag) wss).

Lemma header_words_len flag wss keys : length flag = 4%nat ->
  Forall (fun ws => word_list ws /\ Zlen ws = keys) wss ->
  word_list (header_words flag wss) /\ Zlen (header_words flag wss) = Zlen wss * (keys + 1).
Proof.
  intros Hf. induction 1 as [|ws wss [H1 H2] _ [I1 I2]]; [split; [constructor|reflexivity]|].
  unfold header_words in *. cbn [map concat header_block]. split.
  - constructor; [exact Hf|]. apply word_list_app; assumption.
  - rewrite <- app_comm_cons. rewrite !Zlen_cons, Zlen_app, I2. lia.
Qed.

Lemma foldM_headers {H} e (words : H -> res (list bytes)) hs s flag : 0 <= st_pos s ->
  pack_i32 e (- missing_int) = Ok flag ->
  foldM (fun s h => s <- st_int e (- missing_int) s ;; ws <- words h ;; Ok (write_words ws s)) hs s =
  (wss <- mapM words hs ;; Ok (st_write (concat (header_words flag wss)) s)).
Proof.
  intros Hs Hf. revert s Hs; induction hs as [|h hs IH]; intros s Hs; cbn [foldM mapM].
  - cbn. rewrite st_write_nil. reflexivity.
  - unfold st_int. rewrite Hf. cbn [bind].
    destruct (words h) as [ws|]; cbn [bind]; [|reflexivity].
    rewrite write_words_eq by (apply st_write_pos; assumption).
    rewrite st_write_write by assumption. unfold st_int in IH. rewrite Hf in IH. cbn [bind] in IH.
    rewrite IH by (apply st_write_pos; assumption).
    destruct (mapM words hs) as [wss|]; cbn [bind]; [|reflexivity].
    rewrite st_write_write by assumption. unfold header_words. cbn [map concat header_block].
    rewrite <- app_comm_cons. cbn [concat]. rewrite concat_app, <- app_assoc. reflexivity.
Qed.

Definition headers_at {H} (e : endian) (words : H -> res (list bytes)) (hs : list H) (w : Z) (b : bytes) : Prop :=
  exists flag wss, pack_i32 e (- missing_int) = Ok flag /\ mapM words hs = Ok wss /\
    words_at (header_words flag wss) w b.

Lemma write_headers_hook {H} e slots keys (words : H -> res (list bytes)) hs lo :
  (forall h ws, In h hs -> words h = Ok ws -> word_list ws /\ Zlen ws = keys) ->
  0 <= keys -> Zlen hs <= slots ->
  hook (write_headers e slots keys words hs) lo (lo + slots * (keys + 1)) (headers_at e words hs lo).
Proof.
  intros HW Hk Hn.
  assert (HWS : forall wss, mapM words hs = Ok wss -> Forall (fun ws => word_list ws /\ Zlen ws = keys) wss).
  { intros wss E. apply mapM_ok_Forall2 in E. clear Hn. induction E as [|h ws hs wss E _ IH]; [constructor|].
    constructor; [apply (HW h); [left; reflexivity|exact E]|]. apply IH. intros h' ws' HI. apply HW. right. exact HI. }
  split.
  - intros b b' HB (flag & wss & F1 & F2 & F3). exists flag, wss. split; [exact F1|]. split; [exact F2|].
    destruct (header_words_len flag wss keys (pack_i32_length _ _ _ F1) (HWS _ F2)) as [L1 L2].
    apply (words_at_stable _ lo (lo + slots * (keys + 1))) with (b := b); [exact L1| |exact HB|exact F3].
    rewrite L2. apply mapM_ok_length in F2. unfold Zlen in *. nia.
  - intros s s' Hs Hlo E. unfold write_headers in E.
    rewrite st_ints_eq in E by lia.
    destruct (mapM (pack_i32 e) (repeat missing_int _)) as [fw|] eqn:Ef; cbn [bind] in E; [|discriminate E].
    destruct (ints_words _ _ _ Ef) as [Wf Lf]. rewrite Zlen_repeat in Lf.
    assert (Hsl : 0 <= slots) by (pose proof (Zlen_nonneg hs); lia).
    destruct (st_words_hook s fw lo (lo + slots * (keys + 1)) Wf Hs Hlo ltac:(nia)) as [C1 _].
    set (s1 := st_write (concat fw) s) in *.
    assert (Ew : st_word s = lo) by (unfold st_word, position_to_word; lia). rewrite Ew in E. clear Ew.
    rewrite st_jump_at in E by lia. cbn [bind] in E.
    set (s2 := mk_st (st_buf s1) (4 * (lo - 1))) in *.
    assert (exists flag, pack_i32 e (- missing_int) = Ok flag) as [flag F1] by (eexists; reflexivity).
    rewrite (foldM_headers e words hs s2 flag) in E by (assumption || posl).
    destruct (mapM words hs) as [wss|] eqn:F2; cbn [bind] in E; [|discriminate E]. inv_ok.
    destruct (header_words_len flag wss keys (pack_i32_length _ _ _ F1) (HWS _ eq_refl)) as [L1 L2].
    assert (Zlen wss = Zlen hs) by (apply mapM_ok_length in F2; unfold Zlen; lia).
    destruct (st_words_hook s2 (header_words flag wss) lo (lo + slots * (keys + 1)) L1 eq_refl Hlo ltac:(nia)) as [C2 P2].
    split; [exact (changes_trans _ _ _ _ _ C1 C2)|].
    exists flag, wss. split; [exact F1|]. split; [exact F2|exact P2].
Qed.

(** The reader's loop over as many slots as there are headers. *)
Lemma rd_flag e d p flag : pack_i32 e (- missing_int) = Ok flag -> has_at d p flag -> rd_uint e d p = USED_FLAG.
Proof. intros F HA. apply (rd_uint_int e d p (- missing_int) flag); [exact F|vm_compute; discriminate|exact HA]. Qed.

Lemma read_headers_at {H R} e (words : H -> res (list bytes)) (rd : Z -> res R) (f : H -> R) keys d hs w :
  (forall h ws, In h hs -> words h = Ok ws -> word_list ws /\ Zlen ws = keys) ->
  (forall h ws p, In h hs -> words h = Ok ws -> has_at d p (concat ws) -> rd p = Ok (f h)) ->
  headers_at e words hs w d ->
  read_headers e rd (4 * keys) d (length hs) (4 * (w - 1)) = Ok (map f hs).
Proof.
  intros HW HR (flag & wss & F1 & F2 & F3).
  pose proof (pack_i32_length _ _ _ F1) as Lf.
  assert (GO : forall hs wss p, mapM words hs = Ok wss ->
    (forall h ws, In h hs -> words h = Ok ws -> word_list ws /\ Zlen ws = keys) ->
    (forall h ws p, In h hs -> words h = Ok ws -> has_at d p (concat ws) -> rd p = Ok (f h)) ->
    (wss = [] \/ has_at d p (concat (header_words flag wss))) ->
    read_headers e rd (4 * keys) d (length hs) p = Ok (map f hs)).
  { clear hs wss F2 F3 HW HR. induction hs as [|h hs IH]; intros wss p E HW HR HA; [reflexivity|].
    cbn [mapM] in E. destruct (words h) as [ws|] eqn:Eh; cbn [bind] in E; [|discriminate E].
    destruct (mapM words hs) as [wss'|] eqn:Es; cbn [bind] in E; [|discriminate E]. inv_ok.
    destruct HA as [HA|HA]; [discriminate HA|].
    unfold header_words in HA. cbn [map concat header_block] in HA. rewrite <- app_comm_cons in HA. cbn [concat] in HA.
    rewrite concat_app in HA.
    apply has_at_app in HA as [A1 A2]. assert (Zlen flag = 4) by (unfold Zlen; lia).
    replace (p + Zlen flag) with (p + 4) in A2 by lia. apply has_at_app in A2 as [A2 A3].
    destruct (HW h ws (or_introl eq_refl) Eh) as [W1 W2].
    rewrite word_list_concat, W2 in A3 by assumption.
    cbn [length read_headers]. rewrite (rd_flag e d p flag F1 A1). rewrite Z.eqb_refl.
    rewrite (HR h ws (p + 4) (or_introl eq_refl) Eh A2). cbn [bind].
    rewrite (IH wss' (p + 4 + 4 * keys) eq_refl); [reflexivity| | |right; exact A3].
    - intros h' ws' HI. apply HW. right. exact HI.
    - intros h' ws' p' HI. apply HR. right. exact HI. }
  apply (GO hs wss _ F2 HW HR). destruct F3 as [F3|F3]; [|right; exact F3].
  left. destruct wss as [|ws wss]; [reflexivity|discriminate F3].
Qed.

(** ** The pointer table and the data blocks *)
Notation item := (Z * option (res (list bytes)))%type.
Fixpoint items_at (e : endian) (items : list item) (nf : Z) (b : bytes) : Prop :=
  match items with
  | [] => True
  | (ptr, None) :: r =>
      (exists w, pack_i32 e 0 = Ok w /\ has_at b (4 * (ptr - 1)) w) /\ items_at e r nf b
  | (ptr, Some m) :: r =>
      exists ws w, m = Ok ws /\ pack_i32 e nf = Ok w /\ has_at b (4 * (ptr - 1)) w /\
        words_at ws nf b /\ items_at e r (nf + Zlen ws) b
  end.
(** The next free word after the items. *)
Fixpoint items_end (items : list item) (nf : Z) : Z :=
  match items with
  | [] => nf
  | (_, Some (Ok ws)) :: r => items_end r (nf + Zlen ws)
  | _ :: r => items_end r nf
  end.
Definition items_wf (items : list item) : Prop :=
  Forall (fun '(_, d) => match d with Some (Ok ws) => word_list ws | _ => True end) items.

Lemma items_end_ge items nf : nf <= items_end items nf.
Proof.
  revert nf; induction items as [|[ptr [[ws|]|]] items IH]; intros nf; cbn; try apply IH; [lia|].
  specialize (IH (nf + Zlen ws)). pose proof (Zlen_nonneg ws). lia.
Qed.

(** Bytes away from the pointers of the items and from the data region. *)
Definition off_items (items : list item) (nf nf' : Z) (q : Z) (bs : bytes) : Prop :=
  Forall (fun '(ptr, _) => outside ptr (ptr + 1) q bs) items /\ outside nf nf' q bs.

Lemma items_at_stable e items : forall nf (b b' : bytes), items_wf items ->
  (forall q bs, (Exists (fun '(ptr, _) => inside ptr (ptr + 1) q bs) items \/ inside nf (items_end items nf) q bs) ->
     has_at b q bs -> has_at b' q bs) ->
  items_at e items nf b -> items_at e items nf b'.
Proof.
  induction items as [|[ptr [m|]] items IH]; intros nf b b' HW HB H; [exact I| |];
    apply forall_inv in HW; destruct HW as [HW1 HW2]; cbn [items_at] in *.
  - destruct H as (ws & w & -> & H2 & H3 & H4 & H5). exists ws, w. split; [reflexivity|]. split; [exact H2|].
    cbn [items_end] in HB. pose proof (items_end_ge items (nf + Zlen ws)). pose proof (Zlen_nonneg ws).
    split; [|split].
    + apply HB; [|exact H3]. left. constructor. unfold inside. pose proof (pack_i32_length _ _ _ H2). unfold Zlen. lia.
    + destruct H4 as [H4|H4]; [left; exact H4|]. right. apply HB; [|exact H4]. right.
      unfold inside. rewrite word_list_concat by exact HW1. lia.
    + apply (IH _ b b'); [exact HW2| |exact H5]. intros q bs HQ. apply HB. destruct HQ as [HQ|HQ].
      * left. apply Exists_cons_tl. exact HQ.
      * right. unfold inside in *. lia.
  - destruct H as [(w & H1 & H2) H3]. split.
    + exists w. split; [exact H1|]. apply HB; [|exact H2]. left. constructor. unfold inside.
      pose proof (pack_i32_length _ _ _ H1). unfold Zlen. lia.
    + apply (IH _ b b'); [exact HW2| |exact H3]. intros q bs HQ. apply HB. destruct HQ as [HQ|HQ].
      * left. apply Exists_cons_tl. exact HQ.
      * right. exact HQ.
Qed.

Definition end_pos (items : list item) (nf : Z) (pos0 pos : Z) : Prop :=
  match rev items with
  | [] => pos = pos0
  | (ptr, None) :: _ => pos = 4 * ptr
  | (_, Some _) :: _ => pos = 4 * (items_end items nf - 1)
  end.

Lemma write_items_fold e items : forall s nf s' nf' lo,
  1 <= lo -> 0 <= st_pos s ->
  Forall (fun '(ptr, _) => lo <= ptr < nf) items -> NoDup (map fst items) -> items_wf items ->
  foldM (write_item e) items (s, nf) = Ok (s', nf') ->
  nf' = items_end items nf /\ items_at e items nf (st_buf s') /\
  (forall q bs, off_items items nf nf' q bs -> has_at (st_buf s) q bs -> has_at (st_buf s') q bs) /\
  end_pos items nf (st_pos s) (st_pos s') /\ 0 <= st_pos s'.
Proof.
  induction items as [|[ptr d] items IH]; intros s nf s' nf' lo Hlo Hpos HR HN HW E; cbn [foldM] in E.
  - apply (f_equal (fun r => match r with Ok x => x | Err _ => (s, nf) end)) in E. injection E as <- <-.
    split; [reflexivity|]. split; [exact I|]. split; [intros q bs _ HA; exact HA|]. split; [reflexivity|exact Hpos].
  - apply forall_inv in HR. destruct HR as [HR1 HR2]. inversion HN as [|? ? HN1 HN2]; subst.
    apply forall_inv in HW. destruct HW as [HW1 HW2].
    cbn [write_item] in E. rewrite st_jump_at in E by lia. cbn [bind] in E.
    set (s1 := mk_st (st_buf s) (4 * (ptr - 1))) in *.
    assert (Hapart : forall q bs, outside ptr (ptr + 1) q bs -> forall w, length w = 4%nat ->
              has_at (st_buf s) q bs -> has_at (st_buf (st_write w s1)) q bs).
    { intros q bs HO w Hw HA. apply (st_write_changes s1 w ptr (ptr + 1)); [posl| |exact HO|exact HA].
      unfold inside, Zlen. cbn [st_pos s1]. lia. }
    assert (Hptr : forall w, length w = 4%nat -> has_at (st_buf (st_write w s1)) (4 * (ptr - 1)) w).
    { intros w Hw. apply (st_write_has s1); [posl|]. left. destruct w; [discriminate Hw|discriminate]. }
    assert (Hlater : forall w, length w = 4%nat -> Forall (fun '(p, _) => outside p (p + 1) (4 * (ptr - 1)) w) items).
    { intros w Hw. apply Forall_forall. intros [p dd] HI. unfold outside, Zlen.
      assert (p <> ptr). { intros ->. apply HN1. apply in_map_iff. exists (ptr, dd). split; [reflexivity|exact HI]. }
      lia. }
    destruct d as [m|].
    + unfold st_int in E. destruct (pack_i32 e nf) as [w|] eqn:Ew; cbn [bind] in E; [|discriminate E].
      pose proof (pack_i32_length _ _ _ Ew) as Lw.
      rewrite st_jump_at in E by lia. cbn [bind] in E.
      destruct m as [ws|]; cbn [bind] in E; [|discriminate E].
      set (s2 := mk_st (st_buf (st_write w s1)) (4 * (nf - 1))) in *.
      rewrite write_words_eq in E by posl.
      assert (Enf : st_word (st_write (concat ws) s2) = nf + Zlen ws).
      { unfold st_word, position_to_word, st_write. cbn [st_pos s2]. rewrite word_list_concat by exact HW1. lia. }
      rewrite Enf in E. pose proof (Zlen_nonneg ws).
      destruct (st_words_hook s2 ws nf (nf + Zlen ws)) as [C2 P2]; [exact HW1|reflexivity|lia|lia|].
      change (st_buf s2) with (st_buf (st_write w s1)) in C2.
      set (s3 := st_write (concat ws) s2) in *.
      assert (Hs3 : 0 <= st_pos s3). { apply st_write_pos. posl. }
      assert (P3 : st_pos s3 = 4 * (nf + Zlen ws - 1)).
      { unfold s3, st_write. cbn [st_pos s2]. rewrite word_list_concat by exact HW1. lia. }
      clearbody s3.
      destruct (IH s3 (nf + Zlen ws) s' nf' lo Hlo Hs3) as (I1 & I2 & I3 & I4 & I5);
        [|exact HN2|exact HW2|exact E|].
      { eapply Forall_impl; [|exact HR2]. intros [p dd]. lia. }
      pose proof (items_end_ge items (nf + Zlen ws)) as HE.
      cbn [items_end items_at]. split; [exact I1|]. split; [|split; [|split]].
      * exists ws, w. split; [reflexivity|]. split; [exact Ew|]. split; [|split; [|exact I2]].
        -- apply I3.
           ++ split; [apply Hlater; exact Lw|]. unfold outside, Zlen. lia.
           ++ apply C2; [|apply Hptr; exact Lw]. unfold outside, Zlen. lia.
        -- destruct P2 as [P2|P2]; [left; exact P2|]. right. apply I3; [|exact P2]. split.
           ++ eapply Forall_impl; [|exact HR2]. intros [p dd] Hp. unfold outside. lia.
           ++ unfold outside. rewrite word_list_concat by exact HW1. lia.
      * intros q bs [O1 O2] HA. apply forall_inv in O1. destruct O1 as [O1 O1'].
        apply I3; [split; [exact O1'|]|].
        -- unfold outside in *. lia.
        -- apply C2; [unfold outside in *; lia|]. apply Hapart; assumption.
      * unfold end_pos in *. cbn [rev items_end]. destruct (rev items) as [|[p [dd|]] rr] eqn:Er.
        -- apply (f_equal (@rev _)) in Er. rewrite rev_involutive in Er. subst items. cbn in *. lia.
        -- cbn. exact I4.
        -- cbn. exact I4.
      * exact I5.
    + unfold st_int in E. destruct (pack_i32 e 0) as [w|] eqn:Ew; cbn [bind] in E; [|discriminate E].
      pose proof (pack_i32_length _ _ _ Ew) as Lw.
      set (s3 := st_write w s1) in *.
      assert (Hs3 : 0 <= st_pos s3). { apply st_write_pos. posl. }
      assert (P3 : st_pos s3 = 4 * ptr). { unfold s3, st_write, Zlen. cbn [st_pos s1]. lia. }
      destruct (IH s3 nf s' nf' lo Hlo Hs3) as (I1 & I2 & I3 & I4 & I5);
        [exact HR2|exact HN2|exact HW2|exact E|].
      pose proof (items_end_ge items nf) as HE.
      cbn [items_end items_at]. split; [exact I1|]. split; [|split; [|split]].
      * split; [|exact I2]. exists w. split; [exact Ew|]. apply I3; [|apply Hptr; exact Lw].
        split; [apply Hlater; exact Lw|]. unfold outside, Zlen. lia.
      * intros q bs [O1 O2] HA. apply forall_inv in O1. destruct O1 as [O1 O1'].
        apply I3; [split; [exact O1'|exact O2]|]. apply Hapart; assumption.
      * unfold end_pos in *. cbn [rev items_end]. destruct (rev items) as [|[p [dd|]] rr] eqn:Er.
        -- apply (f_equal (@rev _)) in Er. rewrite rev_involutive in Er. subst items. cbn in *. lia.
        -- cbn. exact I4.
        -- cbn. exact I4.
      * exact I5.
Qed.

Lemma ok_inj {A} (a b : A) : Ok a = Ok b -> a = b.
Proof. intros H. injection H. auto. Qed.
Lemma fill_record_ok e s s' w : st_pos s = 4 * (w - 1) -> 1 <= w -> fill_record e s = Ok s' ->
  changes w (record_start w) (st_buf s) (st_buf s').
Proof.
  intros Hs Hw. unfold fill_record.
  assert (Ew : st_word s = w) by (unfold st_word, position_to_word; lia). rewrite Ew.
  unfold record_start. destruct (dmword w) as [r k] eqn:Ed. apply dmword_spec in Ed as [D1 D2].
  destruct (Z.eqb_spec k 1); cbn [negb].
  - intros H. inv_ok. apply changes_refl.
  - rewrite st_ints_eq by lia. intros H.
    destruct (mapM (pack_i32 e) _) as [zw|] eqn:Ez; cbn [bind] in H; [|discriminate H]. apply ok_inj in H. subst s'. clear Ew.
    destruct (ints_words _ _ _ Ez) as [W L]. rewrite Zlen_repeat in L.
    apply (st_words_hook s zw w); [exact W|exact Hs|lia|]. unfold MBLKSZ in *. lia.
Qed.

Lemma record_start_mono a b : a <= b -> record_start b = b -> record_start a <= b.
Proof.
  intros H Hb. pose proof (record_start_spec a). pose proof (record_start_spec b). lia.
Qed.

Lemma last_rev {A} (l : list A) x d : l <> [] -> last l d = match rev l with [] => x | y :: _ => y end.
Proof.
  intros H. destruct (exists_last H) as (l' & a & ->). rewrite last_last, rev_app_distr. reflexivity.
Qed.

Lemma write_items_hook e items lo nf0 :
  1 <= lo -> record_start lo = lo -> record_start nf0 = nf0 ->
  Forall (fun '(ptr, _) => lo <= ptr < nf0) items -> NoDup (map fst items) -> items_wf items ->
  (forall it, In it items -> fst it <= fst (last items it)) ->
  data_hook (write_items e items nf0) lo (fun _ b => items_at e items nf0 b).
Proof.
  intros Hlo Hlr Hnr HR HN HW HL s s' nf Hs _ E. unfold write_items in E.
  destruct (foldM (write_item e) items (s, nf0)) as [[s1 nf1]|] eqn:E1; cbn [bind] in E; [|discriminate E].
  destruct (fill_record e s1) as [s2|] eqn:E2; cbn [bind] in E; [|discriminate E].
  apply (f_equal (fun r => match r with Ok x => x | Err _ => (s, nf) end)) in E. injection E as -> ->.
  destruct (write_items_fold e items s nf0 s1 nf lo Hlo ltac:(lia) HR HN HW E1) as (I1 & I2 & I3 & I4 & I5).
  pose proof (items_end_ge items nf0) as HE.
  destruct items as [|it0 items0] eqn:Eit.
  { exists lo. unfold end_pos in I4. cbn in I4. assert (C := fill_record_ok e s1 s' lo ltac:(lia) Hlo E2).
    rewrite Hlr in C. split; [intros b b' _ _; exact I|]. split; [|exact I].
    cbn [foldM] in E1. apply ok_inj in E1. injection E1 as <- <-. exact C. }
  rewrite <- Eit in *. assert (Hne : items <> []) by (rewrite Eit; discriminate). clear it0 items0 Eit.
  set (w := st_pos s1 / 4 + 1).
  assert (HW1 : exists w, st_pos s1 = 4 * (w - 1) /\ 1 <= w /\
            Forall (fun '(ptr, _) => ptr < w) items /\ (nf <= w \/ record_start w <= nf0)).
  { unfold end_pos in I4. destruct (rev items) as [|[p dd] rr] eqn:Er.
    - apply (f_equal (@rev _)) in Er. rewrite rev_involutive in Er. cbn in Er. contradiction.
    - assert (Elast : forall d, last items d = (p, dd)).
      { intros d. rewrite (last_rev items d d Hne), Er. reflexivity. }
      assert (Hmax : Forall (fun '(ptr, _) => ptr <= p) items).
      { apply Forall_forall. intros [q x] HI. specialize (HL _ HI). rewrite Elast in HL. exact HL. }
      assert (Hin : In (p, dd) items). { apply in_rev. rewrite Er. left. reflexivity. }
      pose proof (proj1 (Forall_forall _ _) HR _ Hin) as Hp. cbn in Hp.
      destruct dd as [m|].
      + exists nf. split; [lia|]. split; [lia|]. split; [|left; lia].
        eapply Forall_impl; [|exact HR]. intros [q x]. lia.
      + exists (p + 1). split; [lia|]. split; [lia|]. split.
        * eapply Forall_impl; [|exact Hmax]. intros [q x]. lia.
        * right. apply record_start_mono; [lia|exact Hnr]. }
  clear w. destruct HW1 as (w & W1 & W2 & W3 & W4).
  assert (C := fill_record_ok e s1 s' w W1 W2 E2).
  pose proof (record_start_spec w) as [R1 _].
  exists (Z.max (Z.max nf (record_start w)) nf0). split; [|split].
  - intros b b' HB. apply items_at_stable; [exact HW|]. intros q bs HQ. apply HB. destruct HQ as [HQ|HQ].
    + apply Exists_exists in HQ as ([p x] & HI & HQ). pose proof (proj1 (Forall_forall _ _) HR _ HI) as Hp. cbn in Hp.
      unfold inside in *. lia.
    + assert (HR0 : lo <= nf0).
      { destruct items as [|[p x] r]; [congruence|]. apply forall_inv in HR. destruct HR as [HR _]. lia. }
      unfold inside in *. lia.
  - intros q bs O HA. apply C.
    + unfold outside in *. assert (lo <= w); [|lia].
      destruct items as [|[p x] r]; [congruence|]. apply forall_inv in HR. destruct HR as [HR _].
      apply forall_inv in W3. destruct W3 as [W3 _]. lia.
    + apply I3; [|exact HA]. assert (HR0 : lo <= nf0).
      { destruct items as [|[p x] r]; [congruence|]. apply forall_inv in HR. destruct HR as [HR _]. lia. }
      split.
      * eapply Forall_impl; [|exact HR]. intros [p x] Hp. unfold outside in *. lia.
      * unfold outside in *. lia.
  - revert I2. apply items_at_stable; [exact HW|]. intros q bs HQ HA. apply C; [|exact HA]. destruct HQ as [HQ|HQ].
    + apply Exists_exists in HQ as ([p x] & HI & HQ). pose proof (proj1 (Forall_forall _ _) W3 _ HI) as Hp. cbn in Hp.
      unfold inside, outside in *. lia.
    + unfold inside, outside in *. lia.
Qed.
