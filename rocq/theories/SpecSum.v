(** Finite sums of real numbers, used by several specifications. *)
From Coq Require Import Reals Arith.
Local Open Scope R_scope.

(** f 0 + ... + f (n-1) *)
Fixpoint bigsum (n : nat) (f : nat -> R) : R :=
  match n with O => 0 | S k => bigsum k f + f k end.
(** sum over an a-by-b grid *)
Definition gridsum (a b : nat) (f : nat -> nat -> R) : R := bigsum a (fun i => bigsum b (f i)).
