(** Specification side of the vector graphics properties: what a record and a file look like
    as bytes, which values are documented for which attribute, and what a reader must get back.
    Written from the documentation of the element classes, without the model's helpers. *)
From Verif Require Import Base Floats Structs Vgf.
From Coq Require Import QArith.
From Verif Require Import Order.
From Coq Require Import List.
Open Scope string_scope.
Open Scope list_scope.
Open Scope Z_scope.

(** ** Records *)

(** The four-byte big-endian unsigned number at byte [i] *)
Definition u32_at (b : bytes) (i : nat) : Z :=
  ((nth i b 0 * 256 + nth (i + 1) b 0) * 256 + nth (i + 2) b 0) * 256 + nth (i + 3) b 0.
(** The record size field of an element header: its twelfth field, at byte 20 *)
Definition size_field (b : bytes) : Z := u32_at b 20.
(** [n] records one after the other, each at least a header and as long as its size field says *)
Inductive chain : nat -> bytes -> Prop :=
| chain_nil : chain 0 []
| chain_cons : forall n b rest, (40 <= length b)%nat -> size_field b = Zlen b -> chain n rest ->
    chain (S n) (b ++ rest).

(** ** Attributes *)

(** The instance attribute behind a property *)
Definition attribute (p : prop) : string :=
  match p with
  | PClosed => "closed" | PFilled => "filled" | PSmooth => "smooth" | PGroupType => "group_type"
  | PGroupNumber => "group_number" | PMajorColor => "major_color" | PMinorColor => "minor_color"
  | PWidth => "width" | PLineType => "line_type" | PFrontCode => "front_code" | PPipSize => "pip_size"
  | PPipStroke => "pip_stroke" | PPipDirection => "pip_direction" | PDirection => "direction"
  | PSize => "size" | PTextColor => "text_color" | PFont => "font" | PAlign => "align"
  | PRotation => "rotation" | POffsetX => "offset_x" | POffsetY => "offset_y" | PTextFlag => "text_flag"
  | PTextType => "text_type" | PEdgecolor => "edgecolor" | PFacecolor => "facecolor"
  | PTurbulence => "turbulence_symbol" | PSymbolCode => "symbol_code"
  end.
(** Reading a property *)
Definition value (o : obj) (p : prop) : pyval := o_get o (attribute p).

(** The number a value denotes, when it is one *)
Definition denotes (v : pyval) (q : Q) : Prop :=
  match v with
  | VInt z => (q == inject_Z z)%Q
  | VFloat f => finite f = true /\ (q == q_of f)%Q
  | _ => False
  end.
(** The value is one of the integers of a set (as 3 or 3.0) *)
Definition whole (P : Z -> Prop) (v : pyval) : Prop := exists z, denotes v (inject_Z z) /\ P z.
(** The value is not below / not above a bound, as Python compares *)
Definition at_least (f : flt) (n : Z) (v : pyval) : Prop :=
  match v with VInt z => n <= z | VFloat x => SFleb f x = true | _ => False end.
Definition at_most (n : Z) (v : pyval) : Prop :=
  match v with VInt z => z <= n | VFloat x => SFleb x (of_Z n) = true | _ => False end.

(** The documented range of every validated property *)
Definition documented (o : obj) (p : prop) : Prop :=
  let v := value o p in
  match p with
  | PClosed => whole (fun z => z = 0 \/ z = 1) v
  | PFilled => whole (fun z => 0 <= z <= 8) v
  | PSmooth => whole (fun z => 0 <= z <= 2) v
  | PGroupType | PGroupNumber => at_least (of_Z 0) 0 v
  | PMajorColor | PMinorColor | PTextColor | PEdgecolor | PFacecolor => whole (fun z => 0 <= z <= 32) v
  | PWidth =>
      match o_kind o with
      | KFront => whole (fun z => 1 <= z <= 8) v
      | KSpecialText => True
      | _ => at_least (of_Z 1) 1 v /\ at_most 10 v
      end
  | PLineType =>
      match o_kind o with
      | KSpecialLine => whole (fun z => 1 <= z <= 26) v
      | _ => at_least (of_Z 0) 0 v /\ at_most 99 v
      end
  | PFrontCode => whole (fun z => 0 <= z <= 999) v
  | PPipSize => whole (fun z => 40 <= z <= 500) v
  | PPipStroke => match v with VInt z => 0 < z | VFloat x => SFltb (of_Z 0) x = true | _ => False end
  | PPipDirection | PDirection => whole (fun z => z = 1 \/ z = -1) v
  | PSize =>
      match o_kind o with
      | KSpecialText => whole (fun z => In z [10; 12; 14; 18; 24; 34]) v
      | _ => at_least one_tenth 1 v /\ at_most 10 v
      end
  | PFont => whole (fun z => z = 1) (value o PTextFlag) \/
             whole (fun z => exists t s, z = t * 10 + s /\ 0 <= t <= 3 /\ 1 <= s <= 3) v
  | PAlign => whole (fun z => -1 <= z <= 1) v
  | PTextFlag => whole (fun z => z = 1 \/ z = 2) v
  | PTextType => whole (fun z => 0 <= z <= 16) v
  | PTurbulence =>
      (whole (fun z => z = 7 \/ z = 9) (value o PTextType) -> whole (fun z => 0 <= z <= 8) v) /\
      (whole (fun z => z = 12) (value o PTextType) -> whole (fun z => 0 <= z <= 10) v)
  | PSymbolCode => match o_kind o with
                   | KMarker => whole (fun z => 1 <= z <= 24) v
                   | _ => whole (fun z => 1 <= z <= 41) v
                   end
  | PRotation | POffsetX | POffsetY => True
  end.

(** Not the float "not a number" *)
Definition not_nan (v : pyval) : Prop := v <> VFloat S754_nan.
Definition is_int (v : pyval) : Prop := exists z, v = VInt z.

(** Two objects with the same class, attributes and points *)
Definition same_object (a b : obj) : Prop :=
  o_kind a = o_kind b /\ (forall k, o_get a k = o_get b k) /\ o_lat a = o_lat b /\ o_lon a = o_lon b.

(** Objects reached from [o] by actions that satisfy [P] *)
Definition history (P : action -> Prop) (o : obj) (l : list action) : Prop :=
  Forall (fun a => allowed (o_kind o) a = true /\ P a) l.
Definition after (o : obj) (l : list action) : obj := fold_left act l o.

(** Actions that assign no NaN, and for the font do not switch back to hardware fonts *)
Definition careful (p : prop) (a : action) : Prop :=
  match a with
  | AAssign q v => not_nan v /\ (p = PFont -> q = PTextFlag -> ~ whole (fun z => z = 2) v)
  | AFlip => True
  end.
(** Actions that give fronts integer codes and widths *)
Definition front_ints (a : action) : Prop :=
  match a with AAssign PFrontCode v | AAssign PWidth v => is_int v | _ => True end.

(** A constructor call that succeeded, with the arguments it validates *)
Inductive made : obj -> list pyval -> Prop :=
| m_line : forall lon lat a b c d e f o, new_line lon lat a b c d e f = Ok o -> made o [a; b; c; d; e; f]
| m_front : forall lon lat a b c d e f g o, new_front lon lat a b c d e f g = Ok o -> made o [a; b; c; d; e; f; g]
| m_special_line : forall lon lat a b c d e f g h i o,
    new_special_line lon lat a b c d e f g h i = Ok o -> made o [a; b; c; d; e; f; g; h; i]
| m_special_text : forall lon lat t c d e f g h i j k l m o,
    new_special_text lon lat t c d e f g h i j k l m = Ok o -> made o [c; d; e; f; g; h; i; m]
| m_symbol : forall mk lon lat code color width size x y o,
    new_symbol mk lon lat code color width size x y = Ok o -> made o [color].
