(** Terms for the statements of C140 (averaging in two steps).  Not code of /repo. *)
From Coq Require Import List String Arith.
From Verif Require Import PyBase Num Calendar SpecClim.
Local Open Scope string_scope.

(** the frequency [freq'] averages over unions of the periods f: days of hours; months, seasons and years of hours or days *)
Definition coarser (f : per) (freq' : string) : Prop :=
  (freq' = "day" /\ f = Hour) \/ ((freq' = "month" \/ freq' = "season" \/ freq' = "year") /\ (f = Hour \/ f = Day)).
(** every period of f that has dates of the record has m values of each element *)
Definition even (f : per) (w m : nat) (xs : list (time * (nat -> fl))) : Prop :=
  (0 < m)%nat /\ forall s k, In s xs -> (k < w)%nat -> List.length (vals (in_period f (fst s) k xs)) = m.
