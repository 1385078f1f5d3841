(** Specifications for the tools properties. *)
From Verif Require Import Base Floats Structs Tools.

(** Bytes left after an offset. *)
Definition remaining (data : bytes) (off : Z) : Z := Z.max 0 (Zlen data - off).

(** Number of bytes a read request is entitled to. *)
Definition request (n : option Z) (left : Z) : Z :=
  match n with None => left | Some k => Z.min k left end.

(** [chunk_sizes ns left]: the sizes of the chunks returned by consecutive reads. *)
Fixpoint chunk_sizes (ns : list (option Z)) (left : Z) : list Z :=
  match ns with
  | [] => []
  | n :: r => request n left :: chunk_sizes r (left - request n left)
  end.

(** For a history of add/discard operations: the position in the history of the insertion
    that made [x] a member, if it is one at the end. *)
Section OrderedSetSpec.
Context {A : Type} (eqb : A -> A -> bool).
Definition birth_step (x : A) (st : nat * option nat) (o : @os_op A) : nat * option nat :=
  let '(i, b) := st in
  (S i, match o with
        | OsAdd y => if eqb x y then match b with None => Some i | Some j => Some j end else b
        | OsDiscard y => if eqb x y then None else b
        end).
Definition birth (x : A) (ops : list (@os_op A)) : option nat :=
  snd (fold_left (birth_step x) ops (O, None)).
Definition born_before (ops : list (@os_op A)) (x y : A) : Prop :=
  exists i j, birth x ops = Some i /\ birth y ops = Some j /\ (i < j)%nat.
End OrderedSetSpec.

(** What a named struct must hand back: for every named entry its keyword value as the
    format stores it, passed through the entry's own converter. *)
Definition float32_of (v : pyval) : pyval :=
  match v with VFloat f => VFloat (np32 f) | VInt z => VFloat (np32 (of_Z z)) | _ => v end.
Fixpoint stored_by (fmt : list fmtc) (v : pyval) : pyval :=
  match fmt with
  | [] => VNone
  | FPad _ :: r => stored_by r v
  | FFloat :: _ => float32_of v
  | FStr n :: _ => match v with VBytes b => VBytes (firstn n b ++ repeat 0 (n - length b)) | _ => v end
  | _ :: _ => v
  end.
Fixpoint expected_fields (info : list ns_entry) (kw : list (name * pyval))
  : res (list (name * pyval)) :=
  match info with
  | [] => Ok []
  | i :: r =>
      match ne_name i with
      | None => expected_fields r kw
      | Some n =>
          v <- kw_get n kw ;;
          y <- match ne_conv i with None => Ok (stored_by (ne_fmt i) v)
                                  | Some c => c (stored_by (ne_fmt i) v) end ;;
          t <- expected_fields r kw ;; Ok ((n, y) :: t)
      end
  end.

(** Value-consuming items of a format. *)
Definition is_value (c : fmtc) : bool := match c with FPad _ => false | _ => true end.
Definition values_in (fmt : list fmtc) : nat := length (filter is_value fmt).

(** A description list of the kind the code uses: a named entry stands for one value
    (possibly with padding around it), an unnamed entry is padding without converter. *)
Definition plain_entry (i : ns_entry) : bool :=
  match ne_name i with
  | Some _ => Nat.eqb (values_in (ne_fmt i)) 1
  | None => Nat.eqb (values_in (ne_fmt i)) 0 &&
            match ne_conv i with None => true | Some _ => false end
  end.
