(** Specification side: what the objects returned for stations say about the records read. *)
From Coq Require Import QArith Sorted Permutation.
From Verif Require Import Base Floats Strings Dates Headers Order DmFile Station StationRead Query SnOut.
Open Scope Z_scope.

(** The record has the entry [k] with value [v] *)
Definition entry (r : record) (k : str) (v : dval) : Prop := In (k, v) r.
Definition at_time (r : record) (t : dtime) : Prop :=
  entry r k_DATE (DHead (HDate (mk_date (dt_y t) (dt_mo t) (dt_d t)))) /\
  entry r k_TIME (DHead (HTime (mk_time (dt_h t) (dt_mi t) (dt_s t) (dt_us t)))).
(** No other entry than [k], leaving out the names [except], has the name [k] in lower case *)
Definition sole (except : list str) (r : record) (k : str) : Prop :=
  forall k' v', entry r k' v' -> ~ In k' except -> lower k' = lower k -> k' = k.

(** ** Surface reports *)
Definition report_headers : list str := [k_DATE; k_TIME; k_STID; k_STD2; k_STNM; k_SLON; k_SLAT; k_SELV; k_STAT; k_COUN; k_SPRI].
Record describes (r : record) (o : sfobj) : Prop := {
  d_time : at_time r (ob_time o);
  d_id : exists a b, entry r k_STID (DHead (HText a)) /\ entry r k_STD2 (DHead (HText b)) /\ ob_id o = a ++ b;
  d_number : entry r k_STNM (ob_number o);
  d_lon : entry r k_SLON (ob_lon o);
  d_lat : entry r k_SLAT (ob_lat o);
  d_elev : entry r k_SELV (ob_elev o);
  d_state : entry r k_STAT (ob_state o);
  d_country : entry r k_COUN (ob_country o);
  d_priority : entry r k_SPRI (ob_priority o);
  (* the values are those of the other entries, under their names in lower case *)
  d_sound : forall n v, In (n, v) (ob_values o) -> exists k, entry r k v /\ ~ In k report_headers /\ n = lower k;
  d_all : forall k v, entry r k v -> ~ In k report_headers -> exists w, In (lower k, w) (ob_values o);
  d_same : forall k v, entry r k v -> ~ In k report_headers -> sole report_headers r k -> In (lower k, v) (ob_values o);
  d_once : NoDup (map fst (ob_values o)) }.

(** ** Soundings *)
(** The arrays of the record *)
Definition array (v : dval) (l : list lval) : Prop := v = DArr (map (fun x => match x with LF f => f | LQ _ => S754_nan end) l) /\ Forall (fun x => exists f, x = LF f) l \/
  v = DArrQ (map (fun x => match x with LQ q => q | LF _ => None end) l) /\ Forall (fun x => exists q, x = LQ q) l.
(** Every value is a number ([mf] stands for a missing one) *)
Definition number (mf : flt) (x : lval) : Prop :=
  match x with LF f => finite f = true | LQ (Some _) => True | LQ None => finite mf = true end.
Definition number_value (mf : flt) (x : lval) : Q :=
  match x with LF f => q_of f | LQ (Some q) => q | LQ None => q_of mf end.
(** A value is masked exactly when it is the missing value *)
Definition masked_as (mf : flt) (x : lval) (o : option lval) : Prop :=
  match x with
  | LF f => (o = None /\ SFeqb f mf = true) \/ (o = Some x /\ SFeqb f mf = false)
  | LQ None => finite mf = true -> o = None
  | LQ (Some q) => (o = None /\ finite mf = true /\ (q == q_of mf)%Q) \/ (o = Some x /\ ~ (finite mf = true /\ (q == q_of mf)%Q))
  end.
(** The levels that [order] gives, one after the other *)
Definition taken {X Y} (P : X -> Y -> Prop) (order : list nat) (l : list X) (l' : list Y) : Prop :=
  Forall2 (fun i y => exists x, nth_error l i = Some x /\ P x y) order l'.
Definition coordinate (on : vcoord) : str := match on with VPres => k_PRES | VHght => k_HGHT end.
Definition not_variables (on : vcoord) : list str :=
  [k_STID; k_STNM; k_SLAT; k_SLON; k_SELV; k_STAT; k_COUN; k_DATE; k_TIME] ++ text_keys ++ [coordinate on].
Record shows (mf : flt) (r : record) (ds : dataset) (order : list nat) (levels : list lval) : Prop := {
  s_id : entry r k_STID (ds_id ds);
  s_number : entry r k_STNM (ds_number ds);
  s_lat : entry r k_SLAT (ds_lat ds);
  s_lon : entry r k_SLON (ds_lon ds);
  s_elev : entry r k_SELV (ds_elev ds);
  s_state : entry r k_STAT (ds_state ds);
  s_country : entry r k_COUN (ds_country ds);
  s_time : at_time r (ds_time ds);
  s_text : forall k v, In (k, v) (ds_text ds) <-> entry r k v /\ In k text_keys;
  (* on pressures if there are any, else on heights *)
  s_on : ds_on ds = VPres <-> exists v, entry r k_PRES v;
  s_levels : exists v, entry r (coordinate (ds_on ds)) v /\ array v levels;
  s_pressure : ds_pressure ds = match ds_on ds with VPres => nth_error levels 0 | VHght => None end;
  (* all levels, each once, in order of falling pressure or rising height *)
  s_order : Permutation order (seq 0 (length levels));
  s_coord : taken eq order levels (ds_levels ds);
  s_sorted : Forall (number mf) levels -> StronglySorted (fun a b =>
      match ds_on ds with VPres => (number_value mf b <= number_value mf a)%Q | VHght => (number_value mf a <= number_value mf b)%Q end) (ds_levels ds);
  (* the variables are the other entries, in the same order of levels *)
  s_sound : forall n l, In (n, l) (ds_vars ds) -> exists k v a, entry r k v /\ ~ In k (not_variables (ds_on ds)) /\ n = lower k /\
      array v a /\ length a = length levels /\ taken (masked_as mf) order a l;
  s_all : forall k v, entry r k v -> ~ In k (not_variables (ds_on ds)) -> exists l, In (lower k, l) (ds_vars ds);
  s_same : forall k v, entry r k v -> ~ In k (not_variables (ds_on ds)) -> sole (not_variables (ds_on ds)) r k ->
      exists a l, array v a /\ In (lower k, l) (ds_vars ds) /\ taken (masked_as mf) order a l;
  s_once : NoDup (map fst (ds_vars ds)) }.
(** A sounding that can be returned: the station's entries, a time, a vertical coordinate with at
    least one level, and everything else arrays of as many values *)
Definition complete (r : record) : Prop :=
  (forall k, In k [k_STID; k_STNM; k_SLAT; k_SLON; k_SELV; k_STAT; k_COUN] -> exists v, entry r k v) /\
  (exists t, at_time r t) /\
  exists on v levels, (on = VPres <-> exists v, entry r k_PRES v) /\ entry r (coordinate on) v /\ array v levels /\ levels <> [] /\
    forall k v, entry r k v -> ~ In k (not_variables on) -> exists a, array v a /\ length a = length levels.
