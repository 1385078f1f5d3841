(** Calculations on soundings (gemcalc.py), over any arithmetic. *)
From Verif Require Import Base.
From Coq Require Import List ZArith Bool.
Import ListNotations.
Open Scope Z_scope.

(** The numbers the code computes with: numpy float32 and float64 scalars and Python floats.  The
    model is parameterised by them: comparisons, arithmetic, natural logarithm, exponential,
    conversion to a float64 array element, and decimal literals [m * 10^e].  Simplified: every
    operation is total (one operand of each division is a numpy scalar, so division by zero does
    not raise), and [x in list] compares with [==] only. *)
Record arith := mk_arith {
  num : Type;
  n_eq : num -> num -> bool; n_lt : num -> num -> bool; n_le : num -> num -> bool;
  n_add : num -> num -> num; n_sub : num -> num -> num; n_mul : num -> num -> num;
  n_div : num -> num -> num; n_mod : num -> num -> num;
  n_abs : num -> num; n_log : num -> num; n_exp : num -> num; n_f64 : num -> num;
  n_lit : Z -> Z -> num }.

(** The six profile arrays of a sounding dictionary; other entries are never touched here. *)
Inductive key := PRES | HGHT | TEMP | DWPT | DRCT | SPED.
Definition keys : list key := [PRES; HGHT; TEMP; DWPT; DRCT; SPED].
Definition key_eqb (a b : key) : bool :=
  match a, b with
  | PRES, PRES | HGHT, HGHT | TEMP, TEMP | DWPT, DWPT | DRCT, DRCT | SPED, SPED => true
  | _, _ => false
  end.
Record sounding (N : Type) := mk_sounding {
  s_pres : list N; s_hght : list N; s_temp : list N; s_dwpt : list N; s_drct : list N; s_sped : list N }.
Arguments mk_sounding {N}. Arguments s_pres {N}. Arguments s_hght {N}. Arguments s_temp {N}.
Arguments s_dwpt {N}. Arguments s_drct {N}. Arguments s_sped {N}.
Definition get {N} (s : sounding N) (k : key) : list N :=
  match k with
  | PRES => s_pres s | HGHT => s_hght s | TEMP => s_temp s
  | DWPT => s_dwpt s | DRCT => s_drct s | SPED => s_sped s
  end.
Definition put {N} (s : sounding N) (k : key) (l : list N) : sounding N :=
  let f k' := if key_eqb k' k then l else get s k' in
  mk_sounding (f PRES) (f HGHT) (f TEMP) (f DWPT) (f DRCT) (f SPED).

(** l[i] and l[i] = x for 0 <= i *)
Definition at_ {N} (l : list N) (i : nat) : res N :=
  match nth_error l i with Some x => Ok x | None => Err IndexError end.
Definition set_ {N} (l : list N) (i : nat) (x : N) : res (list N) :=
  if (i <? length l)%nat then Ok (firstn i l ++ x :: skipn (S i) l) else Err IndexError.
Definition bound {N} (o : option N) : res N := match o with Some x => Ok x | None => Err UnboundLocal end.
(** range(a, b) *)
Definition range (a b : nat) : list nat := seq a (b - a).

Section Calc.
Variable A : arith.
Notation N := (num A).
Notation snd_ := (sounding N).
Notation "a == b" := (n_eq A a b) (at level 70).
Notation "a +: b" := (n_add A a b) (at level 50, left associativity).
Notation "a -: b" := (n_sub A a b) (at level 50, left associativity).
Notation "a *: b" := (n_mul A a b) (at level 40, left associativity).
Notation "a /: b" := (n_div A a b) (at level 40, left associativity).
Definition lit (m e : Z) : N := n_lit A m e.
Definition n_gt (a b : N) : bool := n_lt A b a.
(** missing in [...] *)
Definition isin (x : N) (l : list N) : bool := existsb (fun y => y == x) l.
(** The default of the [missing] arguments *)
Definition dflt : N := lit (-9999) 0.
(** gemcalc.py:8-12 *)
Definition grav : N := lit 980616 (-5).
Definition Rd : N := lit 28704 (-2).

(** gemcalc.py:464-485 *)
Definition vapor_pressure (dwpc missing : N) : N :=
  if dwpc == missing then missing
  else lit 6112 (-3) *: n_exp A (lit 1767 (-2) *: dwpc /: (dwpc +: lit 2435 (-1))).

(** gemcalc.py:344-377 *)
Definition mixing_ratio (dwpc pres missing : N) : N :=
  if isin missing [dwpc; pres] then missing
  else
    let vapr := vapor_pressure dwpc missing in
    if vapr == missing then missing
    else
      let corr := lit 1001 (-3) +: ((pres -: lit 1000 (-1)) /: lit 9000 (-1)) *: lit 34 (-4) in
      let e := corr *: vapr in
      if n_gt e (lit 5 (-1) *: pres) then missing
      else lit 62197 (-5) *: (e /: (pres -: e)) *: lit 10000 (-1).

(** gemcalc.py:488-525 *)
Definition virtual_temperature (tmpc dwpc pres missing : N) : N :=
  if isin missing [tmpc; pres] then missing
  else if dwpc == missing then tmpc +: lit 27315 (-2)
  else
    let tmpk := tmpc +: lit 27315 (-2) in
    let rmix := mixing_ratio dwpc pres missing in
    if rmix == missing then tmpc +: lit 27315 (-2)
    else tmpk *: (lit 10 (-1) +: lit 1 (-3) *: rmix /: lit 62197 (-5)) /: (lit 10 (-1) +: lit 1 (-3) *: rmix).

(** gemcalc.py:416-461 *)
Definition scale_height (tmpc_bot tmpc_top dwpc_bot dwpc_top pres_bot pres_top missing : N) : N :=
  if isin missing [tmpc_bot; tmpc_top; pres_bot; pres_top] then missing
  else
    let tvbk := virtual_temperature tmpc_bot dwpc_bot pres_bot missing in
    let tvtk := virtual_temperature tmpc_top dwpc_top pres_top missing in
    if isin missing [tvbk; tvtk] then missing
    else (Rd /: grav) *: ((tvbk +: tvtk) *: lit 5 (-1)).

(** gemcalc.py:380-413 *)
Definition moist_hydrostatic_height (z_bot pres_bot pres_top scale_height missing : N) : N :=
  if isin missing [z_bot; pres_bot; pres_top; scale_height] || n_le A pres_bot (lit 0 0) || n_le A pres_top (lit 0 0)
  then missing
  else z_bot +: scale_height *: n_log A (pres_bot /: pres_top).

(** ** gemcalc.py:284-341 [interp_parameters], on the six arrays' entries of two levels *)
Definition interp_between (v p1 p2 : N) : bool :=
  (n_lt A p1 p2 && n_lt A p1 v && n_lt A v p2) || (n_lt A p2 p1 && n_lt A p2 v && n_lt A v p1).
Definition interp_angle (aval bval rmult : N) : N :=
  let c := lit 360 0 in
  let ang1 := n_mod A aval c in
  let ang2 := n_mod A bval c in
  let '(ang1, ang2) :=
    if n_gt (n_abs A (ang1 -: ang2)) (lit 180 0)
    then if n_lt A ang1 ang2 then (ang1 +: c, ang2) else (ang1, ang2 +: c)
    else (ang1, ang2) in
  n_mod A (ang1 +: (ang2 -: ang1) *: rmult) c.
Definition interp_parameters (vlev : N) (adata bdata : key -> N) (missing : N) : res (key -> N) :=
  let pres1 := adata PRES in
  let pres2 := bdata PRES in
  if negb (interp_between vlev pres1 pres2) then Err ValueError
  else if n_le A pres1 (lit 0 0) || n_le A pres2 (lit 0 0) then Err ValueError
  else
    let rmult := n_log A (vlev /: pres1) /: n_log A (pres2 /: pres1) in
    Ok (fun k =>
      let aval := adata k in
      let bval := bdata k in
      if isin missing [aval; bval] then missing
      else match k with
           | DRCT => interp_angle aval bval rmult
           | _ => aval +: (bval -: aval) *: rmult
           end).

(** ** gemcalc.py:15-88 [interp_logp_height] *)

(** 30-37: the highest level with a height; the lowest level is not looked at *)
Fixpoint top_height (h : list N) (missing : N) (j : nat) : res (option nat) :=
  match j with
  | O => Ok None
  | S k => x <- at_ h j ;; if negb (x == missing) then Ok (Some j) else top_height h missing k
  end.
Definition max_level (h : list N) (missing : N) : res (option nat) :=
  match length h with O => Err IndexError | S k => top_height h missing k end.
(** 54-60: the loop that looks for the level above; [fuel] rounds at most *)
Fixpoint climb (fuel : nat) (pr h : list N) (missing pres : N) (ilev : nat) (ptop : N) (ztop : option N)
  : res (N * option N) :=
  match fuel with
  | O => Err OutOfFuel
  | S f =>
      if n_le A pres ptop then
        z <- at_ h ilev ;;
        if negb (z == missing) then
          p <- at_ pr ilev ;; climb f pr h missing pres ilev p (Some z)
        else climb f pr h missing pres (S ilev) ptop ztop
      else Ok (ptop, ztop)
  end.
(** 39-63 *)
Record logp_state := mk_logp { lg_h : list N; lg_pbot : N; lg_zbot : option N; lg_ptop : option N; lg_ztop : option N }.
Definition logp_step (fuel : nat) (pr : list N) (missing : N) (st : logp_state) (i : nat) : res logp_state :=
  pres <- at_ pr i ;;
  hght <- at_ (lg_h st) i ;;
  if pres == missing then Ok st
  else if negb (hght == missing) then Ok (mk_logp (lg_h st) pres (Some hght) (Some (lit 2000 0)) (lg_ztop st))
  else if lg_pbot st == missing then Ok st
  else
    p0 <- bound (lg_ptop st) ;;
    '(ptop, ztop) <- climb fuel pr (lg_h st) missing pres (S i) p0 (lg_ztop st) ;;
    zb <- bound (lg_zbot st) ;;
    zt <- bound ztop ;;
    h <- set_ (lg_h st) i (zb +: (zt -: zb) *: (n_log A (pres /: lg_pbot st) /: n_log A (ptop /: lg_pbot st))) ;;
    Ok (mk_logp h (lg_pbot st) (lg_zbot st) (Some ptop) ztop).
(** 65-88: levels above the highest height *)
Record above_state := mk_above { ab_h : list N; ab_p : N; ab_t : N; ab_td : N; ab_z : N }.
Definition above_step (s : snd_) (missing : N) (st : above_state) (i : nat) : res above_state :=
  z <- at_ (ab_h st) i ;;
  h <- (if z == missing then
          tt <- at_ (s_temp s) i ;;
          tdt <- at_ (s_dwpt s) i ;;
          pt <- at_ (s_pres s) i ;;
          let scale_z := scale_height (ab_t st) tt (ab_td st) tdt (ab_p st) pt missing in
          set_ (ab_h st) i (moist_hydrostatic_height (ab_z st) (ab_p st) pt scale_z dflt)
        else Ok (ab_h st)) ;;
  t <- at_ (s_temp s) i ;;
  z' <- at_ h i ;;
  if negb (isin missing [t; z']) then
    pb <- at_ (s_pres s) i ;;
    tdb <- at_ (s_dwpt s) i ;;
    Ok (mk_above h pb t tdb z')
  else Ok (mk_above h (ab_p st) (ab_t st) (ab_td st) (ab_z st)).
Definition interp_logp_height (fuel : nat) (s : snd_) (missing : N) : res snd_ :=
  let size := length (s_hght s) in
  maxlev <- max_level (s_hght s) missing ;;
  st <- foldM (logp_step fuel (s_pres s) missing) (range 0 (match maxlev with Some m => m | None => 0%nat end))
              (mk_logp (s_hght s) missing None None None) ;;
  let h := lg_h st in
  let first := match maxlev with Some m => S m | None => 0%nat end in
  if (first <? size)%nat then
    st0 <- match maxlev with
           | Some m =>
               pb <- at_ (s_pres s) m ;; zb <- at_ h m ;; tb <- at_ (s_temp s) m ;; tdb <- at_ (s_dwpt s) m ;;
               Ok (mk_above h pb tb tdb zb)
           | None => Ok (mk_above h missing missing missing missing)
           end ;;
    ab <- foldM (above_step s missing) (range first size) st0 ;;
    Ok (put s HGHT (ab_h ab))
  else Ok (put s HGHT h).

(** ** gemcalc.py:91-129 [interp_logp_pressure] *)
Record press_state := mk_press {
  pr_p : list N; pr_ilev : option nat; pr_klev : option nat; pr_pt : N; pr_pb : N; pr_zt : N; pr_zb : N }.
Definition press_fill (hg : list N) (missing pb pt zb zt : N) (p : list N) (j : nat) : res (list N) :=
  z <- at_ hg j ;;
  if negb (z == missing) && negb (zb == missing) && negb (pb == missing)
  then set_ p j (pb *: n_exp A ((z -: zb) *: n_log A (pt /: pb) /: (zt -: zb)))
  else Ok p.
Definition press_step (hg : list N) (missing : N) (st : press_state) (i : nat) : res press_state :=
  p <- at_ (pr_p st) i ;;
  z <- at_ hg i ;;
  let full := negb (p == missing) && negb (z == missing) in
  let klev := if full then Some i else pr_klev st in
  let pt := if full then p else pr_pt st in
  let zt := if full then z else pr_zt st in
  ps <- match pr_ilev st, klev with
        | Some il, Some kl => foldM (press_fill hg missing (pr_pb st) pt (pr_zb st) zt) (range (S il) kl) (pr_p st)
        | _, _ => Ok (pr_p st)
        end ;;
  Ok (mk_press ps klev klev pt pt zt zt).
Definition interp_logp_pressure (s : snd_) (missing : N) : res snd_ :=
  st <- foldM (press_step (s_hght s) missing) (range 0 (length (s_pres s)))
              (mk_press (s_pres s) None None missing missing missing missing) ;;
  Ok (put s PRES (pr_p st)).

(** ** gemcalc.py:132-186 [interp_missing_data] *)

(** 155-164: the next level with a value, below [size] *)
Fixpoint find_above (l : list N) (missing : N) (j rem : nat) : res (option nat) :=
  match rem with
  | O => Ok None
  | S r => x <- at_ l j ;; if negb (x == missing) then Ok (Some j) else find_above l missing (S j) r
  end.
(** 175-180: the six values of a level *)
Definition level_at (s : snd_) (i : nat) : res (key -> N) :=
  p <- at_ (s_pres s) i ;; h <- at_ (s_hght s) i ;; t <- at_ (s_temp s) i ;;
  d <- at_ (s_dwpt s) i ;; r <- at_ (s_drct s) i ;; v <- at_ (s_sped s) i ;;
  Ok (fun k => match k with PRES => p | HGHT => h | TEMP => t | DWPT => d | DRCT => r | SPED => v end).
(** One pass of the while loop; [iabove] is 0 when there is no level above *)
Definition miss_step (missing : N) (size : nat) (var1 : key) (var2 : option key) (s : snd_) (iabove i : nat)
  : res (snd_ * nat * bool) :=
  x <- at_ (get s var1) i ;;
  if x == missing then
    '(iabove, more) <-
      (if (iabove <=? i)%nat then
         f <- find_above (get s var1) missing (S i) (size - S i) ;;
         Ok (match f with Some j => (j, true) | None => (0%nat, false) end)
       else Ok (iabove, true)) ;;
    iabove <-
      (match var2 with
       | Some _ => Ok iabove
       | None =>
           if (iabove =? 0)%nat then Ok iabove
           else
             p0 <- at_ (s_pres s) (i - 1) ;;
             if n_gt p0 (lit 100 0) then
               p1 <- at_ (s_pres s) iabove ;;
               Ok (if n_lt A p1 (lit 100 0) then 0%nat else iabove)
             else Ok iabove
       end) ;;
    if (iabove =? 0)%nat then Ok (s, iabove, more)
    else
      adata <- level_at s (i - 1) ;;
      bdata <- level_at s iabove ;;
      vlev <- at_ (s_pres s) i ;;
      out <- interp_parameters vlev adata bdata missing ;;
      l1 <- set_ (get s var1) i (out var1) ;;
      let s1 := put s var1 l1 in
      s2 <- match var2 with
            | Some v => l2 <- set_ (get s1 v) i (out v) ;; Ok (put s1 v l2)
            | None => Ok s1
            end ;;
      Ok (s2, iabove, more)
  else Ok (s, iabove, true).
(** while i < size - 1 and more; [rem] is size - 1 - i *)
Fixpoint miss_loop (missing : N) (size : nat) (var1 : key) (var2 : option key) (s : snd_) (iabove i rem : nat) : res snd_ :=
  match rem with
  | O => Ok s
  | S r =>
      '(s', iabove', more) <- miss_step missing size var1 var2 s iabove i ;;
      if more then miss_loop missing size var1 var2 s' iabove' (S i) r else Ok s'
  end.
Definition recipe : list (key * option key) := [(TEMP, Some DWPT); (DRCT, Some SPED); (DWPT, None)].
Definition interp_missing_data (s : snd_) (missing : N) : res snd_ :=
  let size := length (s_pres s) in
  foldM (fun s '(v1, v2) => miss_loop missing size v1 v2 s 0 1 (size - 2)) recipe s.

(** ** gemcalc.py:189-281 [interp_moist_height] *)

(** 210-221: the first level at or above [i] with pressure, temperature and height *)
Fixpoint first_full (s : snd_) (missing : N) (i rem : nat) : res (option nat) :=
  match rem with
  | O => Ok None
  | S r =>
      p <- at_ (s_pres s) i ;;
      ok <- (if p == missing then Ok false
             else t <- at_ (s_temp s) i ;;
                  if t == missing then Ok false
                  else z <- at_ (s_hght s) i ;; Ok (negb (z == missing))) ;;
      if ok then Ok (Some i) else first_full s missing (S i) r
  end.
(** 234-262: up to the next level with height and temperature.  The result: the level where the
    loop stops, the height there and the height computed there (None past the top), the list of
    scale heights. *)
Fixpoint layer (s : snd_) (missing : N) (nlev ilev : nat) (fuel jlev : nat) (tb tdb pb zb : N) (hlist : list N)
  : res (nat * option (N * N) * list N) :=
  match fuel with
  | O => Err OutOfFuel
  | S f =>
      let jlev := S jlev in
      if (nlev <=? jlev)%nat then Ok (jlev, None, hlist)
      else
        pt <- at_ (s_pres s) jlev ;;
        tt <- at_ (s_temp s) jlev ;;
        tdt <- at_ (s_dwpt s) jlev ;;
        zt <- at_ (s_hght s) jlev ;;
        pi <- at_ (s_pres s) ilev ;;
        ti <- at_ (s_temp s) ilev ;;
        let mand := negb (zt == missing) && negb (tt == missing) in
        let ok := negb (pi == missing) && negb (ti == missing) && negb (pt == missing) && negb (tt == missing) in
        let scale_z := if ok then scale_height tb tt tdb tdt pb pt missing else missing in
        let znew := if ok then moist_hydrostatic_height zb pb pt scale_z missing else missing in
        hlist' <- set_ hlist jlev (n_f64 A scale_z) ;;
        if mand then Ok (jlev, Some (zt, znew), hlist')
        else if negb (znew == missing) then layer s missing nlev ilev f jlev tt tdt pt znew hlist'
        else layer s missing nlev ilev f jlev tb tdb pb zb hlist'
  end.
(** 269-278 *)
Definition moist_fill (pr hlist : list N) (st : list N * N * N) (ii : nat) : res (list N * N * N) :=
  let '(h, hbb, pbb) := st in
  p <- at_ pr ii ;;
  scale_z <- at_ hlist ii ;;
  let z := moist_hydrostatic_height hbb pbb p scale_z dflt in
  h' <- set_ h ii z ;;
  Ok (h', z, p).
(** 223-280 *)
Fixpoint moist_loop (missing : N) (nlev : nat) (fuel : nat) (s : snd_) (ilev : nat) (hlist : list N) : res snd_ :=
  match fuel with
  | O => Err OutOfFuel
  | S f =>
      plev <- at_ (s_pres s) ilev ;;
      tb <- at_ (s_temp s) ilev ;;
      tdb <- at_ (s_dwpt s) ilev ;;
      zlev <- at_ (s_hght s) ilev ;;
      '(jlev, next, hlist1) <- layer s missing nlev ilev (S nlev) ilev tb tdb plev zlev hlist ;;
      hlist2 <-
        (match next with
         | Some (zt, znew) =>
             let r := (zt -: zlev) /: (znew -: zlev) in
             foldM (fun l h => x <- at_ l h ;; set_ l h (n_f64 A (x *: r))) (range (S ilev) (S jlev)) hlist1
         | None => Ok hlist1
         end) ;;
      '(h, _, _) <- foldM (moist_fill (s_pres s) hlist2) (range (S ilev) jlev) (s_hght s, zlev, plev) ;;
      let s' := put s HGHT h in
      match next with Some _ => moist_loop missing nlev f s' jlev hlist2 | None => Ok s' end
  end.
Definition interp_moist_height (s : snd_) (missing : N) : res snd_ :=
  let nlev := length (s_pres s) in
  f <- first_full s missing 0 nlev ;;
  match f with
  | None => Ok s
  | Some i => moist_loop missing nlev (S nlev) s i (repeat (lit (-9999) 0) nlev)
  end.

End Calc.
