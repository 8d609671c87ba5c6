(** What changing the unit of the data of a climatology means, for the statements of C122.  Not code of /repo. *)
From Coq Require Import Reals List String.
From Verif Require Import PyBase Num Calendar Climat SpecAffine.
Import ListNotations.

(** samples, and the argument that holds them, in the other unit *)
Definition samples_convert (a b : R) (xs : list (time * (nat -> fl))) : list (time * (nat -> fl)) := map (fun s => (fst s, fun k => convert a b (snd s k))) xs.
Definition input_convert (a b : R) (x : input fl) : input fl := mkIn (mkSer (width (inp x)) (samples_convert a b (samples (inp x)))) (lookup x) (cf_time x).
(** the same labels, and each of the w values converted *)
Definition converted {L : Type} (a b : R) (w : nat) (l l' : list (L * (nat -> fl))) : Prop :=
  Forall2 (fun e e' => fst e' = fst e /\ forall k, (k < w)%nat -> snd e' k = convert a b (snd e k)) l l'.
(** the same for the result of climatology_average *)
Definition clim_converted (a b : R) (w : nat) (o o' : cout fl) : Prop :=
  match o, o' with Times l, Times l' => converted a b w l l' | Seasons l, Seasons l' => converted a b w l l' | _, _ => False end.
