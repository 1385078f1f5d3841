(** Merging the parts of an unmerged sounding (decode/gempak.py:1369-2009 [_merge_sounding]). *)
From Coq Require Import List ZArith Bool String.
From Verif Require Import Base Calc.
From Coq Require Import List.
Import ListNotations.
Open Scope string_scope.
Open Scope Z_scope.

Definition key_name (k : key) : string :=
  match k with PRES => "PRES" | HGHT => "HGHT" | TEMP => "TEMP" | DWPT => "DWPT" | DRCT => "DRCT" | SPED => "SPED" end.
Definition key_of (n : string) : option key := find (fun k => String.eqb (key_name k) n) keys.

(** bisect.bisect_left(l, x): [fuel] halvings at most *)
Fixpoint bisect_loop {N} (lt : N -> N -> bool) (l : list N) (x : N) (fuel : nat) (lo hi : nat) : nat :=
  match fuel with
  | O => lo
  | S f =>
      if (lo <? hi)%nat then
        let mid := Nat.div2 (lo + hi) in
        match nth_error l mid with
        | Some y => if lt y x then bisect_loop lt l x f (S mid) hi else bisect_loop lt l x f lo mid
        | None => lo
        end
      else lo
  end.
Definition bisect_left {N} (lt : N -> N -> bool) (l : list N) (x : N) : nat :=
  bisect_loop lt l x (S (length l)) 0 (length l).

(** l.insert(loc, x): a negative loc counts from the end; both are clamped *)
Definition insert_ {N} (l : list N) (loc : Z) (x : N) : list N :=
  let n := Zlen l in
  let i := Z.to_nat (if loc <? 0 then Z.max 0 (loc + n) else Z.min loc n) in
  firstn i l ++ x :: skipn i l.
(** l.index(x): ValueError when absent *)
Fixpoint index_ {N} (eq : N -> N -> bool) (l : list N) (x : N) : res nat :=
  match l with
  | [] => Err ValueError
  | y :: r => if eq y x then Ok 0%nat else i <- index_ eq r x ;; Ok (S i)
  end.

Section Merge.
Variable A : arith.
Notation N := (num A).
Notation snd_ := (sounding N).
Notation "a == b" := (n_eq A a b) (at level 70).

(** The decoded parts: the arrays of each part by parameter name.  Text parts are not modelled:
    they are copied to the result (1999-2007). *)
Definition part : Type := list (string * list N).
Definition parts_t : Type := list (string * part).
Definition assoc {B} (k : string) (l : list (string * B)) : option B :=
  match find (fun e => String.eqb (fst e) k) l with Some e => Some (snd e) | None => None end.
(** parts[name][k] *)
Definition arr_of (p : part) (k : key) : res (list N) :=
  match assoc (key_name k) p with Some l => Ok l | None => Err KeyError end.
Definition arr (ps : parts_t) (name : string) (k : key) : res (list N) :=
  match assoc name ps with Some p => arr_of p k | None => Err KeyError end.
(** parts[name][k][i] *)
Definition val (ps : parts_t) (name : string) (k : key) (i : nat) : res N := l <- arr ps name k ;; at_ l i.
(** len(parts[name][k]) if name in parts else 0 *)
Definition levels (ps : parts_t) (name : string) (k : key) : res nat :=
  match assoc name ps with Some p => l <- arr_of p k ;; Ok (length l) | None => Ok 0%nat end.
Definition set_key (s : snd_) (k : key) (i : nat) (x : N) : res snd_ := l <- set_ (get s k) i x ;; Ok (put s k l).
(** The same position of each of the six arrays *)
Definition insert_level (s : snd_) (loc : Z) (f : key -> N) : snd_ :=
  mk_sounding (insert_ (s_pres s) loc (f PRES)) (insert_ (s_hght s) loc (f HGHT)) (insert_ (s_temp s) loc (f TEMP))
              (insert_ (s_dwpt s) loc (f DWPT)) (insert_ (s_drct s) loc (f DRCT)) (insert_ (s_sped s) loc (f SPED)).

Section WithMissing.
Variable missing : N.      (* self.dm_label.missing_float *)
Definition ismiss (x : N) : bool := x == missing.
Definition ne (x : N) : bool := negb (ismiss x).
Definition l_ (z : Z) : N := n_lit A z 0.

(** np.isclose(a, b): |a - b| <= 1e-8 + 1e-5 |b| *)
Definition isclose (a b : N) : bool :=
  n_le A (n_abs A (n_sub A a b)) (n_add A (n_lit A 1 (-8)) (n_mul A (n_lit A 1 (-5)) (n_abs A b))) || (a == b).

(** 1420-1447: are the significant winds on height surfaces?  [z < 0] marks pressures stored as
    heights; the parts then get a 'PRES' entry. *)
Definition wind_coord (ps : parts_t) (name : string) (n : nat) : res (bool * parts_t) :=
  match n with
  | O => Ok (true, ps)
  | S _ =>
      match assoc name ps with
      | None => Err KeyError
      | Some p =>
          match assoc "PRES" p with
          | Some _ => Ok (false, ps)
          | None =>
              h <- arr_of p HGHT ;;
              if existsb (fun z => ne z && n_lt A z (l_ 0)) h
              then Ok (false, map (fun e => if String.eqb (fst e) name then (fst e, (snd e ++ [("PRES", h)])%list) else e) ps)
              else Ok (true, ps)
          end
      end
  end.

(** 1467-1481: the first mandatory level with pressure, temperature and height; the arrays must be
    equally long unless one is found first *)
Fixpoint first_mandatory (p t z : list N) : res (option N) :=
  match p, t, z with
  | mp :: p', mt :: t', mz :: z' => if ne mp && ne mt && ne mz then Ok (Some mp) else first_mandatory p' t' z'
  | [], [], [] => Ok None
  | _, _, _ => Err ValueError
  end.

(** 1449-1495 *)
Definition surface (ps : parts_t) (selv : N) (num_man : nat) : res snd_ :=
  s <- (match num_man with
        | O => Ok (mk_sounding [missing] [missing] [missing] [missing] [missing] [missing])
        | S _ =>
            p <- val ps "TTAA" PRES 0 ;; h <- val ps "TTAA" HGHT 0 ;; t <- val ps "TTAA" TEMP 0 ;;
            d <- val ps "TTAA" DWPT 0 ;; r <- val ps "TTAA" DRCT 0 ;; v <- val ps "TTAA" SPED 0 ;;
            Ok (mk_sounding [p] [h] [t] [d] [r] [v])
        end) ;;
  s <- set_key s HGHT 0 selv ;;
  first_man_p <- (match num_man with
                  | O => Ok missing
                  | S _ => p <- arr ps "TTAA" PRES ;; t <- arr ps "TTAA" TEMP ;; z <- arr ps "TTAA" HGHT ;;
                           f <- first_mandatory p t z ;; Ok (match f with Some x => x | None => missing end)
                  end) ;;
  p0 <- at_ (s_pres s) 0 ;;
  let surface_p := if n_lt A (l_ 1060) p0 then missing else p0 in
  if ismiss surface_p || (n_lt A surface_p first_man_p && ne surface_p)
  then Ok (mk_sounding [missing] [missing] [missing] [missing] [missing] [missing])
  else Ok s.

(** 1497-1509 *)
Definition surface_sigt (ps : parts_t) (num_sigt : nat) (s : snd_) : res snd_ :=
  match num_sigt with
  | O => Ok s
  | S _ =>
      p <- val ps "TTBB" PRES 0 ;;
      t <- val ps "TTBB" TEMP 0 ;;
      if ne p && ne t then
        p0 <- at_ (s_pres s) 0 ;;
        if (ismiss p0) || isclose p0 p then
          s <- set_key s PRES 0 p ;;
          d <- val ps "TTBB" DWPT 0 ;;
          s <- set_key s DWPT 0 d ;;
          set_key s TEMP 0 t
        else Ok s
      else Ok s
  end.

(** 1511-1531 *)
Definition surface_sigw (ps : parts_t) (num_sigw : nat) (is_z : bool) (s : snd_) : res snd_ :=
  match num_sigw with
  | O => Ok s
  | S _ =>
      if is_z then
        h <- val ps "PPBB" HGHT 0 ;;
        if h == l_ 0 then
          d <- val ps "PPBB" DRCT 0 ;;
          if ne d then
            v <- val ps "PPBB" SPED 0 ;; s <- set_key s DRCT 0 d ;; set_key s SPED 0 v
          else Ok s
        else Ok s
      else
        p <- val ps "PPBB" PRES 0 ;;
        if ne p then
          d <- val ps "PPBB" DRCT 0 ;;
          if ne d then
            p0 <- at_ (s_pres s) 0 ;;
            if (ismiss p0) || isclose p0 (n_abs A p) then
              v <- val ps "PPBB" SPED 0 ;;
              s <- set_key s PRES 0 (n_abs A p) ;; s <- set_key s DRCT 0 d ;; set_key s SPED 0 v
            else Ok s
          else Ok s
        else Ok s
  end.

(** 1549-1550, 1566-1567: every array of the part, appended to the array of the same name *)
Definition append_level (p : part) (i : nat) (s : snd_) : res snd_ :=
  foldM (fun s e => match key_of (fst e) with
                    | Some k => x <- at_ (snd e) i ;; Ok (put s k (get s k ++ [x])%list)
                    | None => Err KeyError
                    end) p s.
(** 1533-1568, of one part: the sounding, the last pressure, the number of levels below ground *)
Definition man_step (p : part) (count : bool) (st : snd_ * N * nat) (i : nat) : res (snd_ * N * nat) :=
  let '(s, plast, bgl) := st in
  pl <- arr_of p PRES ;; pr <- at_ pl i ;;
  ok <- (if n_lt A pr plast && ne pr then
           tl <- arr_of p TEMP ;; t <- at_ tl i ;;
           if ne t then zl <- arr_of p HGHT ;; z <- at_ zl i ;; Ok (ne z) else Ok false
         else Ok false) ;;
  if ok then
    s' <- append_level p i s ;;
    last <- py_index (s_pres s') (-1) ;;
    Ok (s', last, bgl)
  else if count then
    p0 <- at_ (s_pres s) 0 ;;
    Ok (s, plast, if n_lt A p0 pr then S bgl else bgl)
  else Ok (s, plast, bgl).
Definition part_of (ps : parts_t) (name : string) : part := match assoc name ps with Some p => p | None => [] end.
Definition mandatory (ps : parts_t) (num_man num_above : nat) (s : snd_) : res (snd_ * nat) :=
  p0 <- at_ (s_pres s) 0 ;;
  let plast := if ismiss p0 then l_ 2000 else p0 in
  '(s, plast, bgl) <- foldM (man_step (part_of ps "TTAA") true) (range 1 num_man) (s, plast, 0%nat) ;;
  '(s, _, bgl) <- foldM (man_step (part_of ps "TTCC") false) (range 0 num_above) (s, plast, bgl) ;;
  Ok (s, bgl).

(** 1570-1590: winds of one part at levels already there *)
Definition man_wind (ps : parts_t) (name : string) (num_wind num_man : nat) (s : snd_) : res snd_ :=
  if (1 <=? num_wind)%nat && (1 <=? num_man)%nat && (2 <=? length (s_pres s))%nat then
    pl <- arr ps name PRES ;;
    foldM (fun s i =>
             pr <- at_ pl i ;;
             if existsb (fun y => y == pr) (skipn 1 (s_pres s)) then
               loc <- index_ (n_eq A) (s_pres s) pr ;;
               d <- at_ (s_drct s) loc ;;
               if ismiss d then
                 d' <- val ps name DRCT i ;; s <- set_key s DRCT loc d' ;;
                 v' <- val ps name SPED i ;; set_key s SPED loc v'
               else Ok s
             else Ok s) (range 0 (length pl)) s
  else Ok s.

(** ** Levels inserted by pressure: the loop all of 1603-1661, 1674-1724, 1739-1797, 1808-1866 are
    instances of.  [usable i] is the test on the part's values; [found] updates a level that is
    already there; [fresh] gives the values of a new one.  The state also holds [pbot] and the
    local variable [size] (None while unassigned). *)
Record ins_state := mk_ins { in_s : snd_; in_pbot : N; in_size : option nat }.
Definition insert_step (pl : list N) (usable : nat -> res bool) (found : snd_ -> nat -> nat -> res snd_)
    (fresh : nat -> res (key -> N)) (st : ins_state) (i : nat) : res ins_state :=
  raw <- at_ pl i ;;
  let pres := n_abs A raw in
  ok <- (if ne pres then u <- usable i ;; Ok (u && negb (pres == l_ 0)) else Ok false) ;;
  if ok then
    if n_lt A (in_pbot st) pres then Ok st
    else if existsb (fun y => y == pres) (s_pres (in_s st)) then
      ploc <- index_ (n_eq A) (s_pres (in_s st)) pres ;;
      s' <- found (in_s st) ploc i ;;
      Ok (mk_ins s' pres (in_size st))
    else
      let size := length (s_pres (in_s st)) in
      let loc := Z.of_nat size - Z.of_nat (bisect_left (n_lt A) (rev (s_pres (in_s st))) pres) in
      f <- fresh i ;;
      Ok (mk_ins (insert_level (in_s st) loc (fun k => match k with PRES => pres | _ => f k end)) pres (Some size))
  else Ok (mk_ins (in_s st) pres (in_size st)).
Definition insert_part (ps : parts_t) (name : string) (n : nat) (usable : nat -> res bool)
    (found : snd_ -> nat -> nat -> res snd_) (fresh : nat -> res (key -> N)) (st : ins_state) : res ins_state :=
  match n with
  | O => Ok st
  | S _ => pl <- arr ps name PRES ;; foldM (insert_step pl usable found fresh) (range 0 (length pl)) st
  end.

(** 1592-1601, 1663-1672: where to start *)
Definition start_pbot (ps : parts_t) (name : string) (s : snd_) : res N :=
  p0 <- at_ (s_pres s) 0 ;;
  if ne p0 then Ok p0
  else if (1 <? length (s_pres s))%nat then
    p1 <- at_ (s_pres s) 1 ;;
    q <- val ps name PRES 1 ;;
    Ok (if n_lt A p1 q then l_ 1050 else p1)
  else Ok (l_ 1050).
(** 1731-1737, 1799-1806 *)
Definition start_wind (s : snd_) : res N :=
  p0 <- at_ (s_pres s) 0 ;;
  if ne p0 then Ok p0
  else if (1 <? length (s_pres s))%nat then at_ (s_pres s) 1 else Ok (l_ 0).

Definition has_temp (ps : parts_t) (name : string) (i : nat) : res bool := t <- val ps name TEMP i ;; Ok (ne t).
Definition has_wind (ps : parts_t) (name : string) (i : nat) : res bool :=
  d <- val ps name DRCT i ;; if ne d then v <- val ps name SPED i ;; Ok (ne v) else Ok false.
(** 1615-1617, 1686-1688 *)
Definition fill_temp (ps : parts_t) (name : string) (s : snd_) (loc i : nat) : res snd_ :=
  t <- at_ (s_temp s) loc ;;
  if ismiss t then
    t' <- val ps name TEMP i ;; s <- set_key s TEMP loc t' ;;
    d' <- val ps name DWPT i ;; set_key s DWPT loc d'
  else Ok s.
(** 1618-1620 *)
Definition fill_dir (ps : parts_t) (name : string) (s : snd_) (loc i : nat) : res snd_ :=
  d <- at_ (s_drct s) loc ;;
  if ismiss d then
    d' <- val ps name DRCT i ;; s <- set_key s DRCT loc d' ;;
    v' <- val ps name SPED i ;; set_key s SPED loc v'
  else Ok s.
(** 1752-1757, 1821-1826 *)
Definition fill_wind (ps : parts_t) (name : string) (s : snd_) (loc i : nat) : res snd_ :=
  d <- at_ (s_drct s) loc ;;
  full <- (if ismiss d then Ok false else v <- at_ (s_sped s) loc ;; Ok (ne v)) ;;
  if full then Ok s
  else
    d' <- val ps name DRCT i ;; s <- set_key s DRCT loc d' ;;
    v' <- val ps name SPED i ;; set_key s SPED loc v'.
Definition fresh_trop (ps : parts_t) (name : string) (i : nat) : res (key -> N) :=
  t <- val ps name TEMP i ;; d <- val ps name DWPT i ;; r <- val ps name DRCT i ;; v <- val ps name SPED i ;;
  Ok (fun k => match k with TEMP => t | DWPT => d | DRCT => r | SPED => v | _ => missing end).
Definition fresh_sigt (ps : parts_t) (name : string) (i : nat) : res (key -> N) :=
  t <- val ps name TEMP i ;; d <- val ps name DWPT i ;;
  Ok (fun k => match k with TEMP => t | DWPT => d | _ => missing end).
Definition fresh_wind (ps : parts_t) (name : string) (i : nat) : res (key -> N) :=
  r <- val ps name DRCT i ;; v <- val ps name SPED i ;;
  Ok (fun k => match k with DRCT => r | SPED => v | _ => missing end).

(** 1603-1661: tropopause levels of one part; the height of a level already there is discarded *)
Definition trop_part (ps : parts_t) (name : string) (n : nat) (st : ins_state) : res ins_state :=
  insert_part ps name n (has_temp ps name)
    (fun s loc i => s <- fill_temp ps name s loc i ;; s <- fill_dir ps name s loc i ;; set_key s HGHT loc missing)
    (fresh_trop ps name) st.
(** 1674-1724: significant temperatures *)
Definition sigt_part (ps : parts_t) (name : string) (n : nat) (st : ins_state) : res ins_state :=
  insert_part ps name n (has_temp ps name) (fill_temp ps name) (fresh_sigt ps name) st.
(** 1739-1797, 1808-1866: significant and maximum winds *)
Definition wind_part (ps : parts_t) (name : string) (n : nat) (st : ins_state) : res ins_state :=
  insert_part ps name n (has_wind ps name) (fill_wind ps name) (fresh_wind ps name) st.

(** ** 1871-1977: significant winds on height surfaces *)
Record zw_state := mk_zw {
  zw_s : snd_; zw_more : bool; zw_zold : N; zw_znxt : N; zw_ilev : nat; zw_size : nat }.
(** 1942-1950 *)
Fixpoint zw_climb (fuel : nat) (hght : N) (st : zw_state) : res zw_state :=
  match fuel with
  | O => Err OutOfFuel
  | S f =>
      if zw_more st && n_lt A (zw_znxt st) hght then
        let ilev := S (zw_ilev st) in
        if (zw_size st <=? ilev)%nat then
          zw_climb f hght (mk_zw (zw_s st) false (zw_znxt st) (zw_znxt st) ilev (zw_size st))
        else
          z <- at_ (s_hght (zw_s st)) ilev ;;
          zw_climb f hght (mk_zw (zw_s st) (ne z) (zw_znxt st) z ilev (zw_size st))
      else Ok st
  end.
(** 1927-1951: (skip, the new state) *)
Definition zw_skip (hght drct sped : N) (st : zw_state) : res (bool * zw_state) :=
  if (ismiss hght) && (ismiss drct) && (ismiss sped) || n_le A hght (zw_zold st) then Ok (true, st)
  else if n_lt A (n_abs A (n_sub A (zw_zold st) hght)) (l_ 1) then
    d <- at_ (s_drct (zw_s st)) (zw_ilev st - 1) ;;
    full <- (if ismiss d then Ok false else v <- at_ (s_sped (zw_s st)) (zw_ilev st - 1) ;; Ok (ne v)) ;;
    if full then Ok (true, st)
    else
      s <- set_key (zw_s st) DRCT (zw_ilev st - 1) drct ;;
      s <- set_key s SPED (zw_ilev st - 1) sped ;;
      Ok (true, mk_zw s (zw_more st) (zw_zold st) (zw_znxt st) (zw_ilev st) (zw_size st))
  else if n_le A (zw_znxt st) hght then
    st' <- zw_climb (S (S (zw_size st))) hght st ;; Ok (false, st')
  else Ok (false, st).
(** 1953-1970 *)
Definition zw_place (hght drct sped : N) (st : zw_state) : res zw_state :=
  if n_lt A (n_abs A (n_sub A (zw_znxt st) hght)) (l_ 1) then
    d <- at_ (s_drct (zw_s st)) (zw_ilev st - 1) ;;
    full <- (if ismiss d then Ok false else v <- at_ (s_sped (zw_s st)) (zw_ilev st - 1) ;; Ok (ne v)) ;;
    if full then Ok st
    else
      s <- set_key (zw_s st) DRCT (zw_ilev st) drct ;;
      s <- set_key s SPED (zw_ilev st) sped ;;
      Ok (mk_zw s (zw_more st) (zw_zold st) (zw_znxt st) (zw_ilev st) (zw_size st))
  else
    let loc := Z.of_nat (bisect_left (n_lt A) (s_hght (zw_s st)) hght) in
    let s := insert_level (zw_s st) loc
               (fun k => match k with HGHT => hght | DRCT => drct | SPED => sped | _ => missing end) in
    Ok (mk_zw s (zw_more st) hght (zw_znxt st) (S (zw_ilev st)) (S (zw_size st))).
(** 1916-1977; [above] tells PPDD from PPBB *)
Fixpoint zw_loop (ps : parts_t) (nsgw nasw : nat) (fuel : nat) (above : bool) (i iend : nat) (st : zw_state) : res zw_state :=
  match fuel with
  | O => Err OutOfFuel
  | S f =>
      if zw_more st && (i <? iend)%nat then
        let name := if above then "PPDD" else "PPBB" in
        hght <- val ps name HGHT i ;;
        drct <- val ps name DRCT i ;;
        sped <- val ps name SPED i ;;
        '(skip, st1) <- zw_skip hght drct sped st ;;
        st2 <- (if zw_more st1 && negb skip then zw_place hght drct sped st1 else Ok st1) ;;
        if negb above && (S i =? nsgw)%nat then zw_loop ps nsgw nasw f true 0 nasw st2
        else zw_loop ps nsgw nasw f above (S i) iend st2
      else Ok st
  end.
Definition height_winds (ps : parts_t) (bb_z dd_z : bool) (num_sigw num_above_sigw : nat) (s : snd_) : res (snd_ * nat) :=
  let nsgw := if bb_z then num_sigw else 0%nat in
  let nasw := if dd_z then num_above_sigw else 0%nat in
  istart <- (match nsgw with
             | O => Ok 0%nat
             | S _ => h <- val ps "PPBB" HGHT 0 ;;
                      if h == l_ 0 then Ok 1%nat
                      else h0 <- at_ (s_hght s) 0 ;; Ok (if h == h0 then 1%nat else 0%nat)
             end) ;;
  let size := length (s_hght s) in
  psfc <- at_ (s_pres s) 0 ;;
  zsfc <- at_ (s_hght s) 0 ;;
  '(zold, znxt, ilev) <-
    (if (2 <=? size)%nat && ne psfc && ne zsfc then
       z0 <- at_ (s_hght s) 0 ;; z1 <- at_ (s_hght s) 1 ;; Ok (z0, z1, 1%nat)
     else if (3 <=? size)%nat then
       z1 <- at_ (s_hght s) 1 ;; z2 <- at_ (s_hght s) 2 ;; Ok (z1, z2, 2%nat)
     else Ok (missing, missing, 0%nat)) ;;
  let more := ne zold && ne znxt in
  let '(above, iend) := if (istart <=? nsgw)%nat then (false, nsgw) else (true, nasw) in
  st <- zw_loop ps nsgw nasw (S (S (nsgw + nasw))) above (if above then 0%nat else istart) iend (mk_zw s more zold znxt ilev size) ;;
  Ok (zw_s st, zw_size st).

(** 1985-1997: mandatory levels below ground *)
Definition below_step (ps : parts_t) (st : snd_ * option nat) (i : nat) : res (snd_ * option nat) :=
  let '(s, size) := st in
  pres <- val ps "TTAA" PRES i ;;
  p0 <- at_ (s_pres s) 0 ;;
  if n_lt A p0 pres then
    n <- bound size ;;
    let loc := Z.of_nat n - Z.of_nat (bisect_left (n_lt A) (rev (skipn 1 (s_pres s))) pres) in
    t <- val ps "TTAA" TEMP i ;; d <- val ps "TTAA" DWPT i ;; r <- val ps "TTAA" DRCT i ;;
    v <- val ps "TTAA" SPED i ;; h <- val ps "TTAA" HGHT i ;;
    let f k := match k with PRES => pres | TEMP => t | DWPT => d | DRCT => r | SPED => v | HGHT => h end in
    Ok (insert_level s loc f, Some (S n))
  else Ok st.
Definition below_ground (ps : parts_t) (bgl num_man : nat) (size : option nat) (s : snd_) : res snd_ :=
  p0 <- at_ (s_pres s) 0 ;;
  if ne p0 && (0 <? bgl)%nat then
    '(s, _) <- foldM (below_step ps) (range 1 num_man) (s, size) ;; Ok s
  else Ok s.

(** 1369-2009; [fuel] bounds the loop of interp_logp_height; None when there are no data *)
Definition merge_sounding (fuel : nat) (ps : parts_t) (selv : N) : res (option snd_) :=
  n_man <- levels ps "TTAA" PRES ;;
  n_man_wind <- levels ps "PPAA" PRES ;;
  n_trop <- levels ps "TRPA" PRES ;;
  n_max_wind <- levels ps "MXWA" PRES ;;
  n_sigt <- levels ps "TTBB" PRES ;;
  n_sigw <- levels ps "PPBB" SPED ;;
  n_above_man <- levels ps "TTCC" PRES ;;
  n_above_trop <- levels ps "TRPC" PRES ;;
  n_above_max_wind <- levels ps "MXWC" SPED ;;
  n_above_sigt <- levels ps "TTDD" PRES ;;
  n_above_sigw <- levels ps "PPDD" SPED ;;
  n_above_man_wind <- levels ps "PPCC" SPED ;;
  if (n_man + n_man_wind + n_trop + n_max_wind + n_sigt + n_sigw + n_above_man + n_above_trop +
      n_above_max_wind + n_above_sigt + n_above_sigw + n_above_man_wind =? 0)%nat
  then Ok None
  else
    '(bb_z, ps) <- wind_coord ps "PPBB" n_sigw ;;
    '(dd_z, ps) <- wind_coord ps "PPDD" n_above_sigw ;;
    s <- surface ps selv n_man ;;
    s <- surface_sigt ps n_sigt s ;;
    s <- surface_sigw ps n_sigw bb_z s ;;
    '(s, bgl) <- mandatory ps n_man n_above_man s ;;
    s <- man_wind ps "PPAA" n_man_wind n_man s ;;
    s <- man_wind ps "PPCC" n_above_man_wind n_man s ;;
    st <- (if (1 <=? n_trop + n_above_trop)%nat then
             pbot <- start_pbot ps "TRPA" s ;;
             st <- trop_part ps "TRPA" n_trop (mk_ins s pbot None) ;;
             trop_part ps "TRPC" n_above_trop st
           else Ok (mk_ins s missing None)) ;;
    st <- (if (1 <=? n_sigt + n_above_sigt)%nat then
             pbot <- start_pbot ps "TTBB" (in_s st) ;;
             st <- sigt_part ps "TTBB" n_sigt (mk_ins (in_s st) pbot (in_size st)) ;;
             sigt_part ps "TTDD" n_above_sigt st
           else Ok st) ;;
    s <- interp_moist_height A (in_s st) missing ;;
    let st := mk_ins s (in_pbot st) (in_size st) in
    st <- (if (negb bb_z || negb dd_z) && (1 <=? n_sigw + n_above_sigw)%nat then
             pbot <- start_wind (in_s st) ;;
             st <- wind_part ps "PPBB" (if bb_z then 0%nat else n_sigw) (mk_ins (in_s st) pbot (in_size st)) ;;
             wind_part ps "PPDD" (if dd_z then 0%nat else n_above_sigw) st
           else Ok st) ;;
    st <- (if (1 <=? n_max_wind + n_above_max_wind)%nat then
             pbot <- start_wind (in_s st) ;;
             st <- wind_part ps "MXWA" n_max_wind (mk_ins (in_s st) pbot (in_size st)) ;;
             wind_part ps "MXWC" n_above_max_wind st
           else Ok st) ;;
    s <- interp_logp_height A fuel (in_s st) missing ;;
    '(s, size) <-
      (if bb_z || dd_z then
         '(s, size) <- height_winds ps bb_z dd_z n_sigw n_above_sigw s ;;
         s <- interp_logp_pressure A s missing ;;
         Ok (s, Some size)
       else Ok (s, in_size st)) ;;
    s <- interp_missing_data A s missing ;;
    s <- below_ground ps bgl n_man size s ;;
    Ok (Some s).

End WithMissing.
End Merge.
