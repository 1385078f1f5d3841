(** Facts about opening files: the label check and header blocks with unused slots. *)
From Coq Require Import Lia ZifyBool ZifyNat.
From Verif Require Import Base BaseFacts Floats Structs Strings StringsFacts Headers HeadersFacts StreamFacts DmFile DmHookFacts Station StationRead.
Open Scope Z_scope.

Lemma check_header_iff d : check_header d = Ok tt <-> firstn 28 d = GEMPAK_HEADER.
Proof.
  unfold check_header, rd_struct, struct_unpack_from. change (Z.of_nat (calcsize [FStr 28])) with 28.
  cbn [Z.ltb Z.compare]. rewrite Z.sub_0_r. change (skipn (Z.to_nat 0) d) with d.
  destruct (Z.ltb_spec (Zlen d) 28) as [L|L].
  - split; [discriminate|]. intros H. apply (f_equal (@length Z)) in H. rewrite firstn_length in H. unfold Zlen in L. cbn [GEMPAK_HEADER length] in H. lia.
  - cbn [bind unpack_vals unpack_item fmtc_size].
    change (py_index [VBytes (firstn 28 d)] 0) with (Ok (VBytes (firstn 28 d))). cbn [bind as_bytes]. unfold bytes_str.
    destruct (is_ascii (firstn 28 d)) eqn:A; cbn [bind].
    + destruct (str_eqb (firstn 28 d) GEMPAK_HEADER) eqn:E; [apply str_eqb_spec in E; tauto|].
      split; [discriminate|]. intros H. apply str_eqb_spec in H. congruence.
    + split; [discriminate|]. intros H. rewrite H in A. discriminate A.
Qed.

Section Slots.
  Context {H : Type}.
  Variables (e : endian) (rd : Z -> res H) (size : Z) (d : bytes).
  Lemma read_headers_unused n : forall pos, (forall i, 0 <= i < Z.of_nat n -> rd_uint e d (pos + 4 * i) <> USED_FLAG) ->
    read_headers e rd size d n pos = Ok [].
  Proof.
    induction n as [|n IH]; intros pos HU; [reflexivity|]. cbn [read_headers].
    pose proof (HU 0) as H0. rewrite Z.add_0_r in H0. replace (rd_uint e d pos =? USED_FLAG) with false by lia.
    apply IH. intros i Hi. replace (pos + 4 + 4 * i) with (pos + 4 * (i + 1)) by lia. apply HU. lia.
  Qed.
  Lemma read_headers_used hs : forall n pos,
    (forall i h, nth_error hs i = Some h -> rd_uint e d (pos + Z.of_nat i * (4 + size)) = USED_FLAG /\
       rd (pos + Z.of_nat i * (4 + size) + 4) = Ok h) ->
    (forall i, 0 <= i < Z.of_nat n -> rd_uint e d (pos + Zlen hs * (4 + size) + 4 * i) <> USED_FLAG) ->
    read_headers e rd size d (length hs + n) pos = Ok hs.
  Proof.
    induction hs as [|h hs IH]; intros n pos HU HN.
    - cbn [length Nat.add]. apply read_headers_unused. intros i Hi. specialize (HN i Hi). cbn [Zlen length] in HN.
      change (Zlen []) with 0 in HN. rewrite Z.mul_0_l, Z.add_0_r in HN. exact HN.
    - cbn [length Nat.add read_headers]. destruct (HU 0%nat h eq_refl) as [H1 H2]. cbn [Z.of_nat] in H1, H2. rewrite Z.mul_0_l, Z.add_0_r in H1, H2.
      rewrite H1, Z.eqb_refl, H2. cbn [bind]. rewrite IH; [reflexivity| |].
      + intros i x Hx. destruct (HU (S i) x Hx) as [H3 H4].
        replace (pos + 4 + size + Z.of_nat i * (4 + size)) with (pos + Z.of_nat (S i) * (4 + size)) by lia. split; assumption.
      + intros i Hi. specialize (HN i Hi). unfold Zlen in *. cbn [length] in HN.
        replace (pos + 4 + size + Z.of_nat (length hs) * (4 + size) + 4 * i) with (pos + Z.of_nat (S (length hs)) * (4 + size) + 4 * i) by lia. exact HN.
  Qed.
End Slots.
