(** Terms for the statements of C146 (two ways to seasonal means).  Not code of /repo. *)
From Coq Require Import Reals List Arith ZArith.
From Verif Require Import PyBase Num Calendar SpecClim.
Import ListNotations.

(** every element has a number at every date *)
Definition no_gaps (w : nat) (xs : list (time * (nat -> fl))) : Prop := Forall (fun s => forall k, (k < w)%nat -> exists r, snd s k = Fin r) xs.
(** the samples of the three months around the month of l *)
Definition season_of (l : time) (xs : list (time * (nat -> fl))) : list (time * (nat -> fl)) := filter (fun e => around l (fst e)) xs.
(** their values of element k, and the same with the lengths of the months *)
Definition plain_values (k : nat) (s : list (time * (nat -> fl))) : list R := map (fun e => value (snd e k)) s.
Definition day_values (c : cal) (k : nat) (s : list (time * (nat -> fl))) : list (R * R) := map (fun e => (IZR (days c (fst e)), value (snd e k))) s.
