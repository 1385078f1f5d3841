(** What the three writers do to the files on disk. *)
From Coq Require Import ZArith String.
From Verif Require Import Base Words Station Grid Vgf.
From Coq Require Import List.
Import ListNotations.
Open Scope string_scope.
Open Scope list_scope.
Open Scope Z_scope.

(** The contents of the files, by path *)
Definition disk := string -> option bytes.
(** What a call asks of the operating system: [open(path, 'wb')] and [out.write(b)].  Simplification:
    errors of [write] and [close] are not modelled; that of [open] is. *)
Inductive op := Opened (path : string) | Written (path : string) (b : bytes).
Definition step (d : disk) (x : op) : disk := fun q =>
  match x with
  | Opened p => if String.eqb q p then Some [] else d q
  | Written p b => if String.eqb q p then Some (match d q with Some c => c ++ b | None => b end) else d q
  end.
Definition after (d : disk) (l : list op) : disk := fold_left step l d.
Inductive outcome := Returned | Raised (x : exn) | CannotOpen.

Section Calls.
Variable can_open : string -> bool.     (* whether open(path, 'wb') works *)

(** encode/gempak.py:485-526 [to_gempak]: the file is opened (525) after everything was put into the
    stream in memory (487-523), and written at once (526) *)
Definition gempak_ops (path : string) (r : res bytes) : list op * outcome :=
  match r with
  | Err x => ([], Raised x)
  | Ok b => if can_open path then ([Opened path; Written path b], Returned) else ([], CannotOpen)
  end.
(** encode/vgf.py:1700-1702 [to_vgf]: the file is opened first, then each element is encoded and written *)
Fixpoint element_ops (path : string) (l : list obj) : list op * outcome :=
  match l with
  | [] => ([], Returned)
  | o :: r =>
      match encode o with
      | Err x => ([], Raised x)
      | Ok b => let '(ops, x) := element_ops path r in (Written path b :: ops, x)
      end
  end.
Definition vgf_ops (path : string) (l : list obj) : list op * outcome :=
  if can_open path then let '(ops, x) := element_ops path (vgfile l) in (Opened path :: ops, x) else ([], CannotOpen).

(** A call that writes a file: to_gempak of sounding and surface files (encode/gempak.py:477-526), of
    grid files (same), to_vgf (encode/vgf.py:1693-1702) *)
Inductive wcall :=
| WStation (e : endian) (path : string) (o : sfile)
| WGrid (e : endian) (path : string) (o : gridfile)
| WVgf (path : string) (l : list obj).
Definition ops_of (c : wcall) : list op * outcome :=
  match c with
  | WStation e path o => gempak_ops path (snd (save e o))
  | WGrid e path o => gempak_ops path (snd (save_grid e o))
  | WVgf path l => vgf_ops path l
  end.
(** A program that makes these calls one after the other, whatever they raise *)
Definition run (d : disk) (calls : list wcall) : disk := fold_left (fun d c => after d (fst (ops_of c))) calls d.
End Calls.
