(** Relations between records of binary64 numbers and of real numbers, for the statements of C139.  Not code of /repo. *)
From Coq Require Import Reals List ZArith.
From Flocq Require Import Core BinarySingleNaN.
From Verif Require Import PyBase Num NumB64 SpecB64 Calendar Climat.
Import ListNotations.
Local Open Scope R_scope.

(** two lists of labelled frames: the same labels, values related by Q *)
Definition rows {L A B : Type} (w : nat) (Q : A -> B -> Prop) (l : list (L * (nat -> A))) (l' : list (L * (nat -> B))) : Prop :=
  Forall2 (fun e e' => fst e' = fst e /\ forall k, (k < w)%nat -> Q (snd e k) (snd e' k)) l l'.
(** arguments with the same dates, names and number of elements, values related by Q *)
Definition records {A B : Type} (Q : A -> B -> Prop) (x : input A) (y : input B) : Prop :=
  width (inp y) = width (inp x) /\ lookup y = lookup x /\ cf_time y = cf_time x /\ rows (width (inp x)) Q (samples (inp x)) (samples (inp y)).
(** results of climatology_average *)
Definition crows {A B : Type} (w : nat) (Q : A -> B -> Prop) (o : cout A) (o' : cout B) : Prop :=
  match o, o' with Times l, Times l' => rows w Q l l' | Seasons l, Seasons l' => rows w Q l l' | _, _ => False end.

(** a binary64 number and a real number (or gap): the same number, of size at most M; or both missing *)
Definition sized (M : R) (a : b64) (v : fl) : Prop :=
  (is_nan a = true /\ v = NaN) \/ exists r, is a r /\ v = Fin r /\ Rabs r <= M.
(** a binary64 number within e of a real number of size at most M; or both missing *)
Definition off (e M : R) (a : b64) (v : fl) : Prop :=
  (is_nan a = true /\ v = NaN) \/ exists r s, is a r /\ v = Fin s /\ Rabs (r - s) <= e /\ Rabs s <= M.
(** two binary64 numbers of size at most M, the first not above the second; or both missing *)
Definition under (M : R) (a b : b64) : Prop :=
  (is_nan a = true /\ is_nan b = true) \/ exists r s, is a r /\ is b s /\ r <= s /\ Rabs r <= M /\ Rabs s <= M.
(** error of the mean of at most n numbers of size at most M *)
Definition mean_error (n : nat) (M : R) : R := 2 * (INR n + 1) * ulp1 * M + tiny.
(** error of the mean over months, weighted by their lengths, of monthly means of n such numbers *)
Definition season_error (n : nat) (M : R) : R := mean_error n M + 4 * (INR n + 1) * ulp1 * (M + mean_error n M) + 2 * INR n * tiny.
(** lengths and sizes for which no sum overflows and all day counts are exact *)
Definition moderate (n : nat) (M : R) : Prop := 0 <= M /\ 31 * (INR n + 1) * ulp1 <= 1 / 2 /\ 64 * (INR n + 1) * (M + 1) <= bpow radix2 1023.
