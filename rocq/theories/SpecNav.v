(** Specification for C94 and C95: the parameters of a projection by their CF and PROJ names. *)
From Coq Require Import String List.
From Verif Require Import Base Floats GridRead Nav.
Import ListNotations.
Local Open Scope string_scope.

(** CF grid mapping name, the PROJ name of the same projection, and for each CF parameter that
    fixes the projection on a sphere its PROJ name.  False northings and eastings are left out. *)
Definition cf_kinds : list (string * string * list (string * string)) :=
  [("mercator", "merc", [("standard_parallel", "lat_ts"); ("longitude_of_projection_origin", "lon_0")]);
   ("polar_stereographic", "stere", [("latitude_of_projection_origin", "lat_0"); ("straight_vertical_longitude_from_pole", "lon_0"); ("standard_parallel", "lat_ts")]);
   ("stereographic", "stere", [("latitude_of_projection_origin", "lat_0"); ("longitude_of_projection_origin", "lon_0")]);
   ("lambert_conformal_conic", "lcc", [("longitude_of_central_meridian", "lon_0"); ("latitude_of_projection_origin", "lat_0")]);
   ("orthographic", "ortho", [("latitude_of_projection_origin", "lat_0"); ("longitude_of_projection_origin", "lon_0")]);
   ("azimuthal_equidistant", "aeqd", [("latitude_of_projection_origin", "lat_0"); ("longitude_of_projection_origin", "lon_0")])].
(** The same for projections without a CF name, by method name and parameters of the operation *)
Definition wkt_kinds : list (string * string * list (string * string)) :=
  [("Equidistant Cylindrical", "eqc", [("latitude_of_natural_origin", "lat_0"); ("longitude_of_natural_origin", "lon_0"); ("latitude_of_1st_standard_parallel", "lat_ts")]);
   ("Equidistant Cylindrical (Spherical)", "eqc", [("latitude_of_natural_origin", "lat_0"); ("longitude_of_natural_origin", "lon_0"); ("latitude_of_1st_standard_parallel", "lat_ts")]);
   ("Gnomonic", "gnom", [("latitude_of_natural_origin", "lat_0"); ("longitude_of_natural_origin", "lon_0")]);
   ("Lambert Azimuthal Equal Area (Spherical)", "laea", [("latitude_of_natural_origin", "lat_0"); ("longitude_of_natural_origin", "lon_0")])].

(** The first entry under a name *)
Definition entry {A} (d : list (string * A)) (k : string) : option A :=
  option_map snd (find (fun kv => String.eqb k (fst kv)) d).

(** [kind p proj]: [p] is a projection PROJ calls [proj] *)
Definition kind (p : projection) (proj : string) : Prop :=
  (exists n ks, pj_cf_name p = Some n /\ In (n, proj, ks) cf_kinds) \/
  (exists m ks, pj_cf_name p = None /\ pj_method p = m /\ In (m, proj, ks) wkt_kinds).
(** [parameter p k x]: PROJ's parameter [k] of the projection [p] is [x] *)
Inductive parameter (p : projection) : string -> flt -> Prop :=
| by_cf n proj ks cf k x : pj_cf_name p = Some n -> In (n, proj, ks) cf_kinds -> In (cf, k) ks ->
    entry (pj_cf p) cf = Some (CNum x) -> parameter p k x
| first_parallel a b : pj_cf_name p = Some "lambert_conformal_conic" ->
    entry (pj_cf p) "standard_parallel" = Some (CNums [a; b]) -> parameter p "lat_1" a
| second_parallel a b : pj_cf_name p = Some "lambert_conformal_conic" ->
    entry (pj_cf p) "standard_parallel" = Some (CNums [a; b]) -> parameter p "lat_2" b
| by_wkt m proj ks cf k x : pj_cf_name p = None -> pj_method p = m -> In (m, proj, ks) wkt_kinds -> In (cf, k) ks ->
    entry (pj_operation p) cf = Some x -> parameter p k x.
(** Every parameter of the projection is given *)
Definition complete (p : projection) : Prop :=
  (forall n proj ks, pj_cf_name p = Some n -> In (n, proj, ks) cf_kinds ->
     (forall cf k, In (cf, k) ks -> exists x, entry (pj_cf p) cf = Some (CNum x)) /\
     (n = "lambert_conformal_conic" -> exists a b, entry (pj_cf p) "standard_parallel" = Some (CNums [a; b]))) /\
  (forall m proj ks, pj_cf_name p = None -> pj_method p = m -> In (m, proj, ks) wkt_kinds ->
     forall cf k, In (cf, k) ks -> exists x, entry (pj_operation p) cf = Some x).
(** The parameters the reader does not get back *)
Definition lost : list (string * string) := [("merc", "lat_ts"); ("stere", "lat_ts"); ("lcc", "lat_0"); ("eqc", "lat_ts")].

(** ** C95 *)

Open Scope Z_scope.
(** An array of [ny] rows of [nx] cells *)
Definition fits (nx ny : Z) (a : gcells) : Prop :=
  match a with
  | CQ l => Zlen l = ny * nx
  | CF l => Zlen l = ny * nx
  | CDiff rows => Zlen rows = ny /\ Forall (fun r => Zlen r = nx) rows
  end.
