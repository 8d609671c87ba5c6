(** Order of dates, for the statements of C141.  Not code of /repo. *)
From Coq Require Import List ZArith Sorted Permutation.
From Verif Require Import PyBase Num Calendar Climat SpecClimB64.
Import ListNotations.

(** no date is followed by an earlier one *)
Definition increasing (c : cal) (ts : list time) : Prop := StronglySorted (fun t u => (instant c t <= instant c u)%Z) ts.
(** the same dates and data in another order *)
Definition reordered (x y : input fl) : Prop :=
  width (inp y) = width (inp x) /\ lookup y = lookup x /\ cf_time y = cf_time x /\ Permutation (samples (inp x)) (samples (inp y)).
(** the same labels with equal values, in some order *)
Definition same_rows (w : nat) (l l' : list (time * (nat -> fl))) : Prop := exists m, Permutation l m /\ rows w eq m l'.
