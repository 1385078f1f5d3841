(** Specification for C93: what tells two grids apart. *)
From Verif Require Import Base Floats Strings Dates GridRead Query.
Open Scope Z_scope.

(** Two returned arrays that carry the same labels: name, time, vertical dimension, level, type *)
Definition same_labels (x y : gout) : Prop :=
  go_name x = go_name y /\ go_time x = go_time y /\ go_coord x = go_coord y /\ go_level x = go_level y /\ go_type x = go_type y.
(** Two listed grids that differ in nothing but their number *)
Definition alike (a b : glisting) : Prop :=
  gl_type a = gl_type b /\ gl_time1 a = gl_time1 b /\ gl_time2 a = gl_time2 b /\ gl_parm a = gl_parm b /\
  gl_level1 a = gl_level1 b /\ gl_level2 a = gl_level2 b /\ gl_coord a = gl_coord b.
(** No lower-case letter a..z *)
Definition capital (s : str) : Prop := forall c, In c s -> ~ (97 <= c <= 122).
(** P, Z and THETA: the names given to arrays of PRES, HGHT and THTA *)
Definition short_names : list str := [[80]; [90]; [84;72;69;84;65]].
Definition plain (g : glisting) : Prop := capital (gl_parm g) /\ capital (gl_coord g) /\ ~ In (gl_parm g) short_names.
(** The arguments can separate [b] from [a]: another name, coordinate or first time, or another
    level or second time where [a] has one *)
Definition separable (a b : glisting) : Prop :=
  gl_parm a <> gl_parm b \/ gl_coord a <> gl_coord b \/ gl_time1 a <> gl_time1 b \/
  (exists z, gl_level1 a = Some z /\ gl_level1 b <> Some z) \/ (exists z, gl_level2 a = Some z /\ gl_level2 b <> Some z) \/
  (exists t, gl_time2 a = Some t /\ gl_time2 b <> Some t).
