(** A record with its data replaced, for the statements of C138.  Not code of /repo. *)
From Coq Require Import List.
From Verif Require Import PyBase Num Calendar Climat.

(** the argument x with the dates and data of [out] *)
Definition with_data (x : input fl) (out : list (time * (nat -> fl))) : input fl := mkIn (mkSer (width (inp x)) out) (lookup x) (cf_time x).
