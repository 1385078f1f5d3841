(** What a selection should return, stated entry by entry. *)
From Coq Require Import QArith.
From Verif Require Import Base Floats Strings Dates SpecDates Headers Order DmFile Station StationRead Grid GridRead Query.
Open Scope Z_scope.

(** Microseconds since the start of day 0. *)
Definition instant (t : dtime) : Z := minute_number t * 60000000 + dt_s t * 1000000 + dt_us t.

(** An absent argument accepts everything, a single value what it means, a list what one of its
    values means. *)
Definition accepts {A} (meaning : A -> Prop) (arg : option (some_of A)) : Prop :=
  match arg with
  | None => True
  | Some (One x) => meaning x
  | Some (Many l) => exists x, In x l /\ meaning x
  end.
(** Names are given in either case; the file stores upper case. *)
Definition name_matches (stored given : str) : Prop := stored = upper given.
(** A number equal to an integer level. *)
Definition level_matches (stored : option Z) (given : pynum) : Prop :=
  match stored, given with
  | Some z, PInt w => z = w
  | Some z, PFloat f => finite f = true /\ (q_of f == inject_Z z)%Q
  | None, _ => False
  end.
(** The words for the extreme times. *)
Definition means_first (i : titem) : Prop := i = TStr w_first \/ i = TStr w_FIRST.
Definition means_last (i : titem) : Prop := i = TStr w_last \/ i = TStr w_LAST.
(** A datetime means itself, any other string the time it spells (strptime with %Y%m%d%H%M). *)
Definition means (i : titem) (t : dtime) : Prop :=
  match i with TDt d => d = t | TStr s => strptime fmt_YmdHM s = Ok t end.
(** [all]: the times of all entries of the file. *)
Definition time_accepted (all : list dtime) (arg : option (some_of titem)) (t : dtime) : Prop :=
  match arg with
  | Some (One i) =>
      (means_first i /\ forall u, In u all -> instant t <= instant u) \/
      (means_last i /\ forall u, In u all -> instant u <= instant t) \/
      means i t
  | _ => accepts (fun i => means i t) arg
  end.
(** The second time of a grid may be absent. *)
Definition time2_accepted (all : list (option dtime)) (arg : option (some_of titem)) (t : option dtime) : Prop :=
  match arg with
  | None => True
  | Some (One i) =>
      (means_first i /\ forall u, In u all ->
         match t, u with Some a, Some b => instant a <= instant b | None, None => True | _, _ => False end) \/
      (means_last i /\ forall u, In u all ->
         match t, u with Some a, Some b => instant b <= instant a | None, None => True | _, _ => False end) \/
      exists a, t = Some a /\ means i a
  | Some (Many l) => exists a i, t = Some a /\ In i l /\ means i a
  end.

Definition wanted_grid (all : list glisting) (a : gdargs) (g : glisting) : Prop :=
  accepts (name_matches (gl_parm g)) (a_parameter a) /\
  time_accepted (map gl_time1 all) (a_time a) (gl_time1 g) /\
  accepts (name_matches (gl_coord g)) (a_coordinate a) /\
  accepts (level_matches (gl_level1 g)) (a_level a) /\
  time2_accepted (map gl_time2 all) (a_time2 a) (gl_time2 g) /\
  accepts (level_matches (gl_level2 g)) (a_level2 a).

(** Inside the box, borders included. *)
Definition inside (b : bbox) (x : listing) : Prop :=
  let '(west, east, south, north) := b in
  (west <= q_of (ls_lon x) <= east /\ south <= q_of (ls_lat x) <= north)%Q.
(** All conditions but those on state and country. *)
Definition wanted_place_time (all : list listing) (a : stargs) (x : listing) : Prop :=
  accepts (name_matches (ls_id x)) (a_id a) /\
  accepts (fun n => ls_number x = n) (a_number a) /\
  time_accepted (map ls_time all) (a_when a) (ls_time x) /\
  (forall b, a_bbox a = Some b -> inside b x).
Definition wanted_entry (all : list listing) (a : stargs) (x : listing) : Prop :=
  wanted_place_time all a x /\
  accepts (name_matches (ls_state x)) (a_state a) /\ accepts (name_matches (ls_country x)) (a_country a).

(** The file order of entries: by row, then by column. *)
Definition entry_before (a b : listing) : Prop :=
  ls_row a < ls_row b \/ (ls_row a = ls_row b /\ ls_col a < ls_col b).

(** A time argument is usable: strings spell times, and an extreme is asked of a file that has
    times. *)
Definition time_arg_ok (all : list dtime) (arg : option (some_of titem)) : Prop :=
  let good i := exists t, means i t in
  match arg with
  | None => True
  | Some (One i) => ((means_first i \/ means_last i) /\ all <> []) \/ (~ means_first i /\ ~ means_last i /\ good i)
  | Some (Many l) => forall i, In i l -> good i
  end.
Definition time2_arg_ok (all : list (option dtime)) (arg : option (some_of titem)) : Prop :=
  let good i := exists t, means i t in
  match arg with
  | None => True
  | Some (One i) =>
      ((means_first i \/ means_last i) /\ all <> [] /\ (all = [None] \/ forall u, In u all -> u <> None)) \/
      (~ means_first i /\ ~ means_last i /\ good i)
  | Some (Many l) => forall i, In i l -> good i
  end.
