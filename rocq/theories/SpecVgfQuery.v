(** Specification side of the queries on an opened vector graphics file: which elements a
    selection must contain, what a group is, and what encloses means. *)
From Verif Require Import Base Floats VgfRead.
From Coq Require Import List.
Import ListNotations.
Open Scope Z_scope.

(** [f] holds exactly the members of [l] with property [P], in the order of [l]. *)
Inductive picked (P : velem -> Prop) : list velem -> list velem -> Prop :=
| picked_nil : picked P [] []
| picked_yes : forall e l f, P e -> picked P l f -> picked P (e :: l) (e :: f)
| picked_no : forall e l f, ~ P e -> picked P l f -> picked P (e :: l) f.

(** A selection reports [None] when there is nothing to select. *)
Definition selection (P : velem -> Prop) (l : list velem) (r : option (list velem)) : Prop :=
  match r with
  | Some f => f <> [] /\ picked P l f
  | None => picked P l []
  end.

Definition element_class (e : velem) : Z := vh_class (ve_hdr e).
Definition element_type (e : velem) : Z := vh_type (ve_hdr e).
Definition of_class (c : Z) (e : velem) : Prop := element_class e = c.
Definition of_class_type (c t : Z) (e : velem) : Prop := element_class e = c /\ element_type e = t.

(** The filter arguments; with neither of them nothing is selected. *)
Definition passes (c t : option Z) (op : fop) (e : velem) : Prop :=
  match c, t with
  | Some c, Some t => match op with
                      | OpOr => element_class e = c \/ element_type e = t
                      | _ => element_class e = c /\ element_type e = t
                      end
  | Some c, None => element_class e = c
  | None, Some t => element_type e = t
  | None, None => False
  end.

(** A group of elements with the given type and number *)
Definition in_group (gt gn : Z) (e : velem) : Prop :=
  vh_group_type (ve_hdr e) = gt /\ vh_group_number (ve_hdr e) = gn.
Definition is_group (gt : Z) (l : list velem) (gn : Z) (g : group) : Prop :=
  gr_type g = Some gt /\ gr_number g = Some gn /\ gr_elements g <> [] /\
  gr_size g = Zlen (gr_elements g) /\ picked (in_group gt gn) l (gr_elements g).

(** The box [(ymin, xmin, ymax, xmax)] contains the element's extent. *)
Definition encloses (b : flt * flt * flt * flt) (h : vhdr) : Prop :=
  let '(ymin, xmin, ymax, xmax) := b in
  SFleb ymin (vh_min_lat h) = true /\ SFleb xmin (vh_min_lon h) = true /\
  SFleb (vh_max_lat h) ymax = true /\ SFleb (vh_max_lon h) xmax = true.
Definition corners (h : vhdr) : list flt := [vh_min_lat h; vh_min_lon h; vh_max_lat h; vh_max_lon h].
