(** Reference definitions for C132: what is assumed of the mathematical library's logarithm. *)
From Coq Require Import Reals.
From Verif Require Import NumB64 SpecB64.
Local Open Scope R_scope.

(** not in /repo: the logarithm of a positive double is finite and within 8 * 2^-53 (about four units in the last place, numpy's own
    tolerance) of the exact logarithm, relatively; in particular the logarithm of 1 is 0 *)
Definition ln_close (M : libm) : Prop :=
  forall x r, is x r -> 0 < r -> exists v, is (m_ln M x) v /\ Rabs (v - ln r) <= 8 * ulp1 * Rabs (ln r).
(** not in /repo: and it does not decrease *)
Definition ln_mono (M : libm) : Prop :=
  forall x y r s u v, is x r -> is y s -> 0 < r <= s -> is (m_ln M x) u -> is (m_ln M y) v -> u <= v.
