(** Specification side of the points of a vector graphics file read back, in terms of the
    numbers alone: how close they are, and in which order they come. *)
From Coq Require Import QArith Qabs.
From Verif Require Import Base Floats Structs VgfBase VgfRead Vgf Order.
From Coq Require Import List.
Import ListNotations.
Open Scope string_scope.
Open Scope list_scope.
Open Scope Z_scope.

(** A coordinate in degrees *)
Definition degrees (x : flt) : Prop := finite x = true /\ (Qabs (q_of x) <= 360)%Q.

(** [y] is a multiple of a hundredth of a degree, up to the precision of a 32-bit float, and no
    further from [x] than half a hundredth and again that precision. *)
Definition hundredth_near (x y : flt) : Prop :=
  finite y = true /\ exists n,
    (Qabs (inject_Z n / 100 - q_of x) <= 51 # 10000)%Q /\ (Qabs (q_of y - inject_Z n / 100) <= 1 # 32768)%Q.

(** The points in the order they are read: a line that is closed and has three points or more
    ends where it began; a special line of direction -1 is reversed. *)
Definition path (o : obj) (l : list flt) : list flt :=
  let c := match o_get o "closed", l with
           | VInt 0, _ => l
           | _, a :: _ :: _ :: _ => l ++ [a]
           | _, _ => l
           end in
  match o_kind o with
  | KFront => l
  | KSpecialLine => match o_get o "direction" with VInt (-1) => rev c | _ => c end
  | _ => c
  end.
Definition has_path (o : obj) : Prop := o_kind o = KLine \/ o_kind o = KSpecialLine \/ o_kind o = KFront.

(** The element [e] read back has the points of [o]. *)
Definition same_points (o : obj) (e : velem) : Prop :=
  exists lat lon, ve_lat e = CoArr lat /\ ve_lon e = CoArr lon /\
    Forall2 hundredth_near (path o (o_lat o)) lat /\ Forall2 hundredth_near (path o (o_lon o)) lon.

(** A number of at most 360 given for an attribute comes back within [eps]. *)
Definition value_near (eps : Q) (v w : pyval) : Prop :=
  forall x, match v with VInt z => x = of_Z z | VFloat f => x = f | _ => False end -> degrees x ->
    exists y, w = VFloat y /\ finite y = true /\ (Qabs (q_of y - q_of x) <= eps)%Q.

(** The bounds of the element, the position of symbols and text, and their size and rotation *)
Definition same_place (o : obj) (e : velem) : Prop :=
  let near eps name := exists w, lookup name (ve_attrs e) = Some w /\ value_near eps (o_get o name) w in
  value_near (51 # 10000) (o_get o "min_lat") (VFloat (vh_min_lat (ve_hdr e))) /\
  value_near (51 # 10000) (o_get o "max_lat") (VFloat (vh_max_lat (ve_hdr e))) /\
  value_near (51 # 10000) (o_get o "min_lon") (VFloat (vh_min_lon (ve_hdr e))) /\
  value_near (51 # 10000) (o_get o "max_lon") (VFloat (vh_max_lon (ve_hdr e))) /\
  match o_kind o with
  | KSpecialText => near (51 # 10000) "lat" /\ near (51 # 10000) "lon" /\ near (501 # 10000) "rotation"
  | KSpecialSymbol | KMarker => near (51 # 10000) "lat" /\ near (51 # 10000) "lon" /\ near (501 # 10000) "size"
  | KSpecialLine => near (501 # 10000) "size"
  | _ => True
  end.
