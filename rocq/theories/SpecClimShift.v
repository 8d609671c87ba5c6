(** Moving a record by whole cycles of the calendar, for the statements of C144.  Not code of /repo. *)
From Coq Require Import List ZArith.
From Verif Require Import PyBase Num Calendar Climat.
Import ListNotations.
Local Open Scope Z_scope.

(** the number of years after which leap years repeat *)
Definition cycle (c : cal) : Z := match c with Greg => 400 | Julian => 4 | _ => 1 end.
(** n years are whole cycles *)
Definition repeats (c : cal) (n : Z) : Prop := (cycle c | n).
(** the same date n years later *)
Definition later (n : Z) (t : time) : time := mkTime (yr t + n) (mo t) (dy t) (sec t).
(** the same values n years later *)
Definition moved {A : Type} (n : Z) (l : list (time * A)) : list (time * A) := map (fun s => (later n (fst s), snd s)) l.
Definition moved_input {T} (n : Z) (x : input T) : input T :=
  mkIn (mkSer (width (inp x)) (moved n (samples (inp x)))) (lookup x) (cf_time x).
(** a result labelled by time moved by n years; seasons have no year *)
Definition moved_out {T} (n : Z) (o : cout T) : cout T := match o with Times l => Times (moved n l) | Seasons l => Seasons l end.
(** four-digit years *)
Definition four_digits {A : Type} (l : list (time * A)) : Prop := forall s, In s l -> 1000 <= yr (fst s).
