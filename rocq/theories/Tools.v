(** gempakio/tools.py: NamedStruct, IOBuffer, OrderedSet.  Definitions only. *)
From Verif Require Import Base Floats Structs.

(** ** IOBuffer (tools.py:71-196) *)
Record iobuf := mk_iobuf { io_data : bytes; io_offset : Z; io_marks : list Z }.

(** tools.py:77-80, 87-90 *)
Definition io_init (source : bytes) : iobuf := mk_iobuf source 0 [].
Definition io_reset (b : iobuf) : iobuf := mk_iobuf (io_data b) 0 [].
(** tools.py:105-107 *)
Definition io_clear_marks (b : iobuf) : iobuf := mk_iobuf (io_data b) (io_offset b) [].

(** tools.py:92-95 *)
Definition io_set_mark (b : iobuf) : Z * iobuf :=
  (Zlen (io_marks b), mk_iobuf (io_data b) (io_offset b) (io_marks b ++ [io_offset b])).

(** tools.py:97-99 *)
Definition io_jump_to (mark off : Z) (b : iobuf) : res iobuf :=
  m <- py_index (io_marks b) mark ;; Ok (mk_iobuf (io_data b) (m + off) (io_marks b)).

(** tools.py:101-103 *)
Definition io_offset_from (mark : Z) (b : iobuf) : res Z :=
  m <- py_index (io_marks b) mark ;; Ok (io_offset b - m).

(** tools.py:167-172 ([None] = to the end) *)
Definition io_skip (n : option Z) (b : iobuf) : iobuf :=
  mk_iobuf (io_data b) (match n with None => Zlen (io_data b) | Some k => io_offset b + k end)
    (io_marks b).

(** tools.py:160-165 *)
Definition io_get_next (n : option Z) (b : iobuf) : bytes :=
  match n with
  | None => py_from (io_data b) (io_offset b)
  | Some k => py_slice (io_data b) (io_offset b) (io_offset b + k)
  end.

(** tools.py:154-158 *)
Definition io_read (n : option Z) (b : iobuf) : bytes * iobuf :=
  let r := io_get_next n b in (r, io_skip (Some (Zlen r)) b).

(** tools.py:144-146 [read_int] for unsigned and signed integers *)
Definition io_read_int (size : Z) (e : endian) (signed : bool) (b : iobuf) : Z * iobuf :=
  let '(r, b') := io_read (Some size) b in
  let u := dec_uint e r in
  ((if signed && (2 * u >=? 256 ^ Zlen r) && negb (Zlen r =? 0) then u - 256 ^ Zlen r else u), b').

(** tools.py:114-118.  The state after the call is returned together with the result so that
    the effect of a failing call is visible. *)
Definition io_read_struct (e : endian) (fmt : list fmtc) (b : iobuf) : iobuf * res (list pyval) :=
  match struct_unpack_from e fmt (io_data b) (io_offset b) with
  | Ok v => (io_skip (Some (Z.of_nat (calcsize fmt))) b, Ok v)
  | Err x => (b, Err x)
  end.

(** tools.py:120-125 *)
Definition io_read_func {A} (f : bytes -> res A) (n : option Z) (b : iobuf) : iobuf * res A :=
  match f (io_get_next n b) with
  | Ok v => (io_skip n b, Ok v)
  | Err x => (b, Err x)
  end.

(** tools.py:127-129: bytes.decode('ascii') rejects bytes above 127; the read happened first. *)
Definition ascii_decode (l : bytes) : res (list Z) :=
  if forallb (fun c => c <? 128) l then Ok l else Err UnicodeError.
Definition io_read_ascii (n : option Z) (b : iobuf) : iobuf * res (list Z) :=
  let '(r, b') := io_read n b in (b', ascii_decode r).

(** tools.py:148-152 with a 4-byte dtype: numpy.frombuffer raises ValueError when the buffer
    is too small or the offset is outside it; a negative count means all that remains, which
    must then be a whole number of items. [conv] decodes one item. *)
Definition io_read_array {A} (conv : bytes -> A) (count : Z) (b : iobuf) : iobuf * res (list A) :=
  let n := Zlen (io_data b) in
  let off := io_offset b in
  let k := if count <? 0 then (n - off) / 4 else count in
  if (off <? 0) || (n <? off) then (b, Err ValueError)
  else if (count <? 0) && negb ((n - off) mod 4 =? 0) then (b, Err ValueError)
  else if n - off <? 4 * k then (b, Err ValueError)
  else
    let items := map (fun i => conv (py_slice (io_data b) (off + 4 * Z.of_nat i) (off + 4 * Z.of_nat i + 4)))
                     (seq 0 (Z.to_nat k)) in
    (io_skip (Some (4 * k)) b, Ok items).

(** tools.py:174-176, 182-184, 194-196 *)
Definition io_check_remains (n : Z) (b : iobuf) : bool :=
  Zlen (py_from (io_data b) (io_offset b)) =? n.
Definition io_at_end (b : iobuf) : bool := io_offset b >=? Zlen (io_data b).
Definition io_len (b : iobuf) : Z := Zlen (io_data b).

(** tools.py:178-180: data[:-n] *)
Definition io_truncate (n : Z) (b : iobuf) : iobuf :=
  mk_iobuf (py_upto (io_data b) (- n)) (io_offset b) (io_marks b).

(** tools.py:109-112 *)
Definition io_splice (mark : Z) (newdata : bytes) (b : iobuf) : res iobuf :=
  b' <- io_jump_to mark 0 b ;;
  Ok (mk_iobuf (py_upto (io_data b') (io_offset b') ++ newdata) (io_offset b') (io_marks b')).

(** Operation sequences on a buffer (all but reset/clear_marks, which drop marks).  A failing
    operation raises; the caller may catch it and go on, so the state after it is kept. *)
Inductive io_op :=
| ORead (n : option Z) | OSkip (n : option Z) | OJump (mark off : Z) | OSetMark
| OReadInt (size : Z) (e : endian) (signed : bool)
| OReadStruct (e : endian) (fmt : list fmtc)
| OReadAscii (n : option Z) | OTruncate (n : Z) | OSplice (mark : Z) (d : bytes).

Definition or_same (r : res iobuf) (b : iobuf) : iobuf := match r with Ok b' => b' | Err _ => b end.
Definition io_step (b : iobuf) (o : io_op) : iobuf :=
  match o with
  | ORead n => snd (io_read n b)
  | OSkip n => io_skip n b
  | OJump m k => or_same (io_jump_to m k b) b
  | OSetMark => snd (io_set_mark b)
  | OReadInt s e sg => snd (io_read_int s e sg b)
  | OReadStruct e f => fst (io_read_struct e f b)
  | OReadAscii n => fst (io_read_ascii n b)
  | OTruncate n => io_truncate n b
  | OSplice m d => or_same (io_splice m d b) b
  end.
Definition io_run (ops : list io_op) (b : iobuf) : iobuf := fold_left io_step ops b.

(** A loop of reads: the chunks returned and the final buffer. *)
Fixpoint io_reads (ns : list (option Z)) (b : iobuf) : list bytes * iobuf :=
  match ns with
  | [] => ([], b)
  | n :: r => let '(c, b1) := io_read n b in
              let '(cs, b2) := io_reads r b1 in (c :: cs, b2)
  end.

(** ** OrderedSet (tools.py:199-237): the keys of an insertion-ordered dict. *)
Section OrderedSet.
Context {A : Type} (eqb : A -> A -> bool).

(** tools.py:208-210 *)
Definition os_mem (x : A) (s : list A) : bool := existsb (eqb x) s.
(** tools.py:220-222: assignment to an existing key keeps its place *)
Definition os_add (x : A) (s : list A) : list A := if os_mem x s then s else s ++ [x].
(** tools.py:224-226 *)
Definition os_discard (x : A) (s : list A) : list A := filter (fun y => negb (eqb x y)) s.
(** tools.py:202-206 *)
Definition os_init (l : list A) : list A := fold_left (fun s x => os_add x s) l [].

Inductive os_op := OsAdd (x : A) | OsDiscard (x : A).
Definition os_step (s : list A) (o : os_op) : list A :=
  match o with OsAdd x => os_add x s | OsDiscard x => os_discard x s end.
Definition os_run (ops : list os_op) (s : list A) : list A := fold_left os_step ops s.

(** tools.py:233-237: against another OrderedSet, list equality; against another iterable,
    set equality. *)
Fixpoint list_eqb (l1 l2 : list A) : bool :=
  match l1, l2 with
  | [], [] => true
  | x :: r1, y :: r2 => eqb x y && list_eqb r1 r2
  | _, _ => false
  end.
Definition os_eq_ordered (s t : list A) : bool := list_eqb s t.
Definition os_eq_set (s t : list A) : bool :=
  forallb (fun x => existsb (eqb x) t) s && forallb (fun x => existsb (eqb x) s) t.
End OrderedSet.

(** ** NamedStruct (tools.py:14-68) *)
Definition name := list Z.
Fixpoint name_eqb (a b : name) : bool :=
  match a, b with
  | [], [] => true
  | x :: r, y :: t => (x =? y) && name_eqb r t
  | _, _ => false
  end.

(** One entry of the description list: (name or None, format or None[, converter]). *)
Record ns_entry := mk_entry {
  ne_name : option name; ne_fmt : list fmtc; ne_conv : option (pyval -> res pyval) }.

Record namedstruct := mk_ns {
  ns_fields : list name;                          (* namedtuple fields *)
  ns_fmt : list fmtc;                             (* the struct *)
  ns_convs : list (Z * (pyval -> res pyval))      (* index in the tuple -> converter *)
}.

(** tools.py:25-31: the loop computing the converter positions. *)
Fixpoint ns_conv_loop (info : list ns_entry) (ind conv_off : Z)
  : list (Z * (pyval -> res pyval)) :=
  match info with
  | [] => []
  | i :: r =>
      match ne_conv i with
      | Some c => (ind - conv_off, c) :: ns_conv_loop r (ind + 1) conv_off
      | None => match ne_name i with
                | None => ns_conv_loop r (ind + 1) (conv_off + 1)
                | Some _ => ns_conv_loop r (ind + 1) conv_off
                end
      end
  end.

Fixpoint names_of (info : list ns_entry) : list name :=
  match info with
  | [] => []
  | i :: r => match ne_name i with Some n => n :: names_of r | None => names_of r end
  end.
Fixpoint nodup_names (l : list name) : bool :=
  match l with [] => true | n :: r => negb (existsb (name_eqb n) r) && nodup_names r end.

(** tools.py:20-33.  namedtuple() raises ValueError for repeated field names.  (It also
    rejects strings that are not identifiers; not modelled.) *)
Definition ns_make (info : list ns_entry) : res namedstruct :=
  if nodup_names (names_of info) then
    Ok (mk_ns (names_of info) (flat_map ne_fmt info) (ns_conv_loop info 0 0))
  else Err ValueError.

(** tools.py:35-38 *)
Definition ns_size (s : namedstruct) : Z := Z.of_nat (calcsize (ns_fmt s)).

(** tools.py:49-51 with positional arguments: TypeError unless one value per field *)
Definition ns_tuple (s : namedstruct) (items : list pyval) : res (list (name * pyval)) :=
  if Nat.eqb (length items) (length (ns_fields s)) then Ok (combine (ns_fields s) items)
  else Err TypeError.

(** items[ind] = v *)
Fixpoint list_set {A} (l : list A) (i : nat) (v : A) : list A :=
  match l, i with
  | [], _ => []
  | _ :: r, O => v :: r
  | x :: r, S k => x :: list_set r k v
  end.

(** tools.py:40-47 *)
Definition ns_create (s : namedstruct) (items : list pyval) : res (list (name * pyval)) :=
  match ns_convs s with
  | [] => ns_tuple s items
  | convs =>
      items' <- foldM (fun its ic =>
                   x <- py_index its (fst ic) ;;
                   y <- snd ic x ;;
                   Ok (list_set its (Z.to_nat (fst ic)) y)) convs items ;;
      ns_tuple s (items' ++ repeat VNone (length (ns_fields s) - length items'))
  end.

(** tools.py:53-55 *)
Definition ns_unpack (e : endian) (s : namedstruct) (l : bytes) : res (list (name * pyval)) :=
  v <- struct_unpack e (ns_fmt s) l ;; ns_create s v.
(** tools.py:57-59 *)
Definition ns_unpack_from (e : endian) (s : namedstruct) (l : bytes) (off : Z)
  : res (list (name * pyval)) :=
  v <- struct_unpack_from e (ns_fmt s) l off ;; ns_create s v.

(** tools.py:65-68: make_tuple( **kwargs ) raises TypeError for a missing or unexpected name. *)
Fixpoint kw_get (k : name) (kw : list (name * pyval)) : res pyval :=
  match kw with
  | [] => Err TypeError
  | (n, v) :: r => if name_eqb n k then Ok v else kw_get k r
  end.
Definition ns_pack (e : endian) (s : namedstruct) (kw : list (name * pyval)) : res bytes :=
  if forallb (fun p => existsb (name_eqb (fst p)) (ns_fields s)) kw then
    t <- mapM (fun n => kw_get n kw) (ns_fields s) ;;
    struct_pack e (ns_fmt s) t
  else Err TypeError.
