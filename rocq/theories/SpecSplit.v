(** Specification of a record cut in two at a calendar boundary, independent of the model. *)
From Coq Require Import ZArith List Bool String.
From Verif Require Import PyBase Num Calendar SpecClim Climat.
Import ListNotations.

Section Split.
  Context {T : Type}.
  (** every date of xs comes before every date of ys, in another period *)
  Definition cut_at (c : cal) (f : per) (xs ys : list (time * frame T)) : Prop :=
    forall s u, In s xs -> In u ys -> (instant c (fst s) < instant c (fst u))%Z /\ same_period f (fst s) (fst u) = false.
  (** x is x1 followed by x2 *)
  Definition joined (x1 x2 x : input T) : Prop :=
    width (inp x1) = width (inp x) /\ width (inp x2) = width (inp x) /\ samples (inp x) = samples (inp x1) ++ samples (inp x2).
  (** existing dates; the time dimension is found; the spacing check passes *)
  Definition usable (c : cal) (infer_freq : list time -> bool) (x : input T) (td : option string) : Prop :=
    Forall (fun s => valid c (fst s)) (samples (inp x)) /\ (exists n, time_info x td = Ok n) /\ check_uniform c infer_freq (map fst (samples (inp x))) = Ok tt.
End Split.
