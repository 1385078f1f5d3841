(** The projection and the coordinates of a grid file: what the writer stores in the navigation
    block and what the reader builds from it. *)
From Coq Require Import String.
From Verif Require Import Base Floats Strings DmFile Grid GridRead.
Import ListNotations.
Open Scope Z_scope.
Local Open Scope list_scope.

(** ** Writer *)
(** A value of the dictionary crs.to_cf() gives *)
Inductive cf_value := CNum (x : flt) | CNums (l : list flt).
(** A pyproj.Proj as encode/gempak.py:676-755 sees it: the entry grid_mapping_name of
    crs.to_cf() (None when there is none), the other entries of that dictionary, the method name
    of the coordinate operation, and its parameters with their names as _to_dict makes them
    (encode/gempak.py:651-656).  Simplification: the patterns of 731-752 that look a parameter up in
    the WKT text are taken to find the parameter of the operation with that name, in full. *)
Record projection := mk_projection {
  pj_cf_name : option string;
  pj_cf : list (string * cf_value);
  pj_method : string;
  pj_operation : list (string * flt)
}.
(** d[k] *)
Fixpoint item {A} (d : list (string * A)) (k : string) : res A :=
  match d with
  | [] => Err KeyError
  | (k', v) :: r => if String.eqb k k' then Ok v else item r k
  end.
(** Simplification: a list where one number is stored fails here and not when the file is written. *)
Definition cf_number (d : list (string * cf_value)) (k : string) : res flt :=
  v <- item d k ;; match v with CNum x => Ok x | CNums _ => Err TypeError end.
(** a, b = d[k] *)
Definition cf_two (d : list (string * cf_value)) (k : string) : res (flt * flt) :=
  v <- item d k ;;
  match v with CNum _ => Err TypeError | CNums [a; b] => Ok (a, b) | CNums _ => Err ValueError end.
(** pat in s *)
Definition text_in (pat s : string) : bool := match String.index 0 pat s with Some _ => true | None => false end.

(** encode/gempak.py:676-692: the name, and whether the parameters are now the WKT text *)
Definition mapping_name (p : projection) : string * bool :=
  match pj_cf_name p with
  | Some n => (n, false)
  | None =>
      if text_in "Equidistant Cylindrical" (pj_method p) then ("equidistant_cylindrical"%string, false)
      else if String.eqb (pj_method p) "Gnomonic" then ("gnomonic"%string, true)
      else if text_in "Lambert Azimuthal Equal Area" (pj_method p) then ("lambert_azimuthal_equal_area"%string, true)
      else ("unknown"%string, false)
  end.
(** encode/gempak.py:731-752: re.search on the WKT text; on a dictionary it is a TypeError *)
Definition wkt_number (p : projection) (wkt : bool) (k : string) : res flt :=
  if wkt then item (pj_operation p) k else Err TypeError.
(** encode/gempak.py:694-755: gemproj and the angles 1, 2 and 3; an angle that is not set stays 0
    (580-582). *)
Definition projection_params (p : projection) (rotation : flt) : res (str * (flt * flt * flt)) :=
  let (name, wkt) := mapping_name p in
  let d := pj_cf p in
  if String.eqb name "mercator" then
    a1 <- cf_number d "standard_parallel" ;; a2 <- cf_number d "longitude_of_projection_origin" ;;
    Ok ([77;69;82], (a1, a2, rotation))
  else if String.eqb name "polar_stereographic" then
    a1 <- cf_number d "latitude_of_projection_origin" ;; a2 <- cf_number d "straight_vertical_longitude_from_pole" ;;
    Ok ([83;84;82], (a1, a2, of_Z 0))
  else if String.eqb name "stereographic" then
    a1 <- cf_number d "latitude_of_projection_origin" ;; a2 <- cf_number d "longitude_of_projection_origin" ;;
    Ok ([83;84;82], (a1, a2, rotation))
  else if String.eqb name "lambert_conformal_conic" then
    '(a1, a3) <- cf_two d "standard_parallel" ;; a2 <- cf_number d "longitude_of_central_meridian" ;;
    Ok ([76;67;67], (a1, a2, a3))
  else if String.eqb name "equidistant_cylindrical" then
    a1 <- item (pj_operation p) "latitude_of_natural_origin" ;; a2 <- item (pj_operation p) "longitude_of_natural_origin" ;;
    Ok ([67;69;68], (a1, a2, rotation))
  else if String.eqb name "orthographic" then
    a1 <- cf_number d "latitude_of_projection_origin" ;; a2 <- cf_number d "longitude_of_projection_origin" ;;
    Ok ([79;82;84], (a1, a2, rotation))
  else if String.eqb name "azimuthal_equidistant" then
    a1 <- cf_number d "latitude_of_projection_origin" ;; a2 <- cf_number d "longitude_of_projection_origin" ;;
    Ok ([65;69;68], (a1, a2, rotation))
  else if String.eqb name "lambert_azimuthal_equal_area" then
    a1 <- wkt_number p wkt "latitude_of_natural_origin" ;; a2 <- wkt_number p wkt "longitude_of_natural_origin" ;;
    Ok ([76;69;65], (a1, a2, rotation))
  else if String.eqb name "gnomonic" then
    a1 <- wkt_number p wkt "latitude_of_natural_origin" ;; a2 <- wkt_number p wkt "longitude_of_natural_origin" ;;
    Ok ([71;78;79], (a1, a2, rotation))
  else Err NotImplementedError.
(** encode/gempak.py:631-640, 658-668 with use_xy=True: one-dimensional x and y; [inv] is the given
    projection's inverse. *)
Definition projected (inv : flt * flt -> flt * flt) (x y : ndarray) (gp : str) (a1 a2 a3 : flt) : res geom :=
  match fst y, fst x with
  | [_], [_] =>
      let nx := Zlen (snd x) in
      let ny := Zlen (snd y) in
      let cells := flat_map (fun yy => map (fun xx => inv (xx, yy)) (snd x)) (snd y) in
      x0 <- py_index (snd x) 0 ;; y0 <- py_index (snd y) 0 ;;
      x1 <- py_index (snd x) (-1) ;; y1 <- py_index (snd y) (-1) ;;
      Ok (mk_geom nx ny ([ny; nx], map fst cells) ([ny; nx], map snd cells)
            (fst (inv (x0, y0))) (snd (inv (x0, y0))) (fst (inv (x1, y1))) (snd (inv (x1, y1))) gp a1 a2 a3)
  | _, _ => Err ValueError
  end.
(** encode/gempak.py:535-649 GridFile(lon, lat, projection, use_xy, rotation).  Simplification:
    when both the projection and the coordinates are refused the exception is the projection's. *)
Definition new_geometry (use_xy : bool) (inv : flt * flt -> flt * flt) (lon lat : ndarray) (p : projection) (rotation : flt) : res geom :=
  '(gp, (a1, a2, a3)) <- projection_params p rotation ;;
  if use_xy then projected inv lon lat gp a1 a2 a3 else geographic lon lat gp a1 a2 a3.

(** ** Reader *)
(** A value of the dictionary given to pyproj.CRS.from_dict *)
Inductive crs_value := KText (s : string) | KNum (x : flt).
Inductive ptype := Azm | Cyl | Con.
(** decode/gempak.py:55-70 [GEMPROJ_TO_PROJ] *)
Definition gemproj_to_proj : list (str * (string * ptype)) :=
  [([77;69;82], ("merc"%string, Cyl)); ([78;80;83], ("stere"%string, Azm)); ([83;80;83], ("stere"%string, Azm));
   ([76;67;67], ("lcc"%string, Con)); ([83;67;67], ("lcc"%string, Con)); ([67;69;68], ("eqc"%string, Cyl));
   ([77;67;68], ("eqc"%string, Cyl)); ([78;79;82], ("ortho"%string, Azm)); ([83;79;82], ("ortho"%string, Azm));
   ([83;84;82], ("stere"%string, Azm)); ([65;69;68], ("aeqd"%string, Azm)); ([79;82;84], ("ortho"%string, Azm));
   ([76;69;65], ("laea"%string, Azm)); ([71;78;79], ("gnom"%string, Azm))].
Fixpoint proj_of (t : list (str * (string * ptype))) (g : str) : res (string * ptype) :=
  match t with
  | [] => Err NotImplementedError
  | (g', v) :: r => if str_eqb g g' then Ok v else proj_of r g
  end.
(** A float of the navigation block by position (decode/gempak.py:244-259): 6 and 7 are
    lower_left_lat and lower_left_lon, 8 and 9 upper_right_lat and upper_right_lon, 10 to 12 the angles. *)
Definition nav_float (nv : gnav) (i : Z) : res flt := v <- py_index (nv_values nv) i ;; as_float v.
(** decode/gempak.py:705-784; [fcos] is math.cos.  The warnings about rotation are left out. *)
Definition get_crs (fcos : flt -> flt) (nv : gnav) : res (list (string * crs_value)) :=
  '(proj, ty) <- proj_of gemproj_to_proj (nv_projection nv) ;;
  a1 <- nav_float nv 10 ;; a2 <- nav_float nv 11 ;; a3 <- nav_float nv 12 ;;
  let tail := [("ellps"%string, KText "sphere"); ("R"%string, KNum (of_Z 6371200))] in
  match ty with
  | Azm => Ok ([("proj"%string, KText proj); ("lat_0"%string, KNum a1); ("lon_0"%string, KNum a2)] ++ tail)
  | Cyl =>
      if negb (str_eqb (nv_projection nv) [77;67;68]) then
        Ok ([("proj"%string, KText proj); ("lat_0"%string, KNum a1); ("lon_0"%string, KNum a2)] ++ tail)
      else
        ur <- nav_float nv 8 ;; ll <- nav_float nv 6 ;;
        let avglat := fmul (fadd ur ll) (fdiv (of_Z 1) (of_Z 2)) in
        k0 <- (if float_is a1 0 then
                 if float_is (fcos avglat) 0 then Err ZeroDivisionError else Ok (fdiv (of_Z 1) (fcos avglat))
               else Ok a1) ;;
        Ok ([("proj"%string, KText proj); ("lat_0"%string, KNum avglat); ("lon_0"%string, KNum a2); ("k_0"%string, KNum k0)] ++ tail)
  | Con => Ok ([("proj"%string, KText proj); ("lon_0"%string, KNum a2); ("lat_1"%string, KNum a1); ("lat_2"%string, KNum a3)] ++ tail)
  end.

(** numpy.linspace(start, stop, n, dtype=float32) for two float64 numbers *)
Definition linspace (start stop : flt) (n : Z) : res (list flt) :=
  if n <? 0 then Err ValueError
  else
    let div := n - 1 in
    let delta := fsub stop start in
    let step := fdiv delta (of_Z div) in
    let point i :=
      if (0 <? div) && (i =? div) then stop
      else if 0 <? div then
             if float_is step 0 then fadd (fmul (fdiv (of_Z i) (of_Z div)) delta) start
             else fadd (fmul (of_Z i) step) start
           else fadd (fmul (of_Z i) delta) start in
    Ok (map (fun i => np32 (point (Z.of_nat i))) (seq 0 (Z.to_nat n))).
(** What _set_coordinates leaves; the two-dimensional arrays in row-major order, (ky, kx) *)
Record coords := mk_coords { co_x : list flt; co_y : list flt; co_lon : list flt; co_lat : list flt }.
(** decode/gempak.py:786-805; [proj] and [inv] are the two directions of pyproj.Proj(crs), x and y
    of longitude and latitude and back, for each dictionary. *)
Definition set_coordinates (fcos : flt -> flt) (proj inv : list (string * crs_value) -> flt * flt -> flt * flt)
    (nv : gnav) : res coords :=
  c <- get_crs fcos nv ;;
  lllat <- nav_float nv 6 ;; lllon <- nav_float nv 7 ;; urlat <- nav_float nv 8 ;; urlon <- nav_float nv 9 ;;
  let (llx, lly) := proj c (lllon, lllat) in
  let (urx, ury) := proj c (urlon, urlat) in
  x <- linspace llx urx (nv_kx nv) ;;
  y <- linspace lly ury (nv_ky nv) ;;
  let cells := flat_map (fun yy => map (fun xx => inv c (xx, yy)) x) y in
  Ok (mk_coords x y (map (fun q => np32 (fst q)) cells) (map (fun q => np32 (snd q)) cells)).
