(** Relations between records with the same dates, for the statements of C137.  Not code of /repo. *)
From Coq Require Import Reals List String.
From Verif Require Import PyBase Num Calendar Climat.
Import ListNotations.

(** two lists of labelled frames: the same labels, and element number k of each frame related by Q k *)
Definition each2 {L : Type} (w : nat) (Q : nat -> fl -> fl -> Prop) (l l' : list (L * (nat -> fl))) : Prop :=
  Forall2 (fun e e' => fst e' = fst e /\ forall k, (k < w)%nat -> Q k (snd e k) (snd e' k)) l l'.
(** the same for three lists *)
Inductive each3 {L : Type} (w : nat) (Q : fl -> fl -> fl -> Prop) : list (L * (nat -> fl)) -> list (L * (nat -> fl)) -> list (L * (nat -> fl)) -> Prop :=
| each3_nil : each3 w Q [] [] []
| each3_cons t a b c l l' l'' : (forall k, (k < w)%nat -> Q (a k) (b k) (c k)) -> each3 w Q l l' l'' ->
    each3 w Q ((t, a) :: l) ((t, b) :: l') ((t, c) :: l'').
(** arguments with the same dates, names and number of elements, and related data *)
Definition inputs2 (Q : nat -> fl -> fl -> Prop) (x y : input fl) : Prop :=
  width (inp y) = width (inp x) /\ lookup y = lookup x /\ cf_time y = cf_time x /\ each2 (width (inp x)) Q (samples (inp x)) (samples (inp y)).
Definition inputs3 (Q : fl -> fl -> fl -> Prop) (x y z : input fl) : Prop :=
  width (inp y) = width (inp x) /\ lookup y = lookup x /\ cf_time y = cf_time x /\
  width (inp z) = width (inp x) /\ lookup z = lookup x /\ cf_time z = cf_time x /\ each3 (width (inp x)) Q (samples (inp x)) (samples (inp y)) (samples (inp z)).
(** results of climatology_average *)
Definition clim2 (w : nat) (Q : nat -> fl -> fl -> Prop) (o o' : cout fl) : Prop :=
  match o, o' with Times l, Times l' => each2 w Q l l' | Seasons l, Seasons l' => each2 w Q l l' | _, _ => False end.
Definition clim3 (w : nat) (Q : fl -> fl -> fl -> Prop) (o o' o'' : cout fl) : Prop :=
  match o, o', o'' with Times l, Times l', Times l'' => each3 w Q l l' l'' | Seasons l, Seasons l', Seasons l'' => each3 w Q l l' l'' | _, _, _ => False end.
(** the same exception three times, or three related results *)
Definition outcomes3 {A} (Q : A -> A -> A -> Prop) (x y z : res A) : Prop :=
  match x, y, z with Ok a, Ok b, Ok c => Q a b c | Err e, Err e', Err e'' => e = e' /\ e = e'' | _, _, _ => False end.
(** both missing, or both present and, in element k0, equal *)
Definition agree_at (k0 k : nat) (a b : fl) : Prop := (a = NaN /\ b = NaN) \/ exists r s, a = Fin r /\ b = Fin s /\ (k = k0 -> r = s).
