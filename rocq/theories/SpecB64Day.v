(** Terms for the statements of C149 (length of the day in double precision).  Not code of /repo. *)
From Coq Require Import Reals ZArith.
From Flocq Require Import Core BinarySingleNaN.
From Verif Require Import NumB64 SpecB64.
Local Open Scope R_scope.

(** the double nearest pi, and its half *)
Definition pi64 : b64 := binary_normalize 53 1024 _ _ mode_NE 884279719003555 (-48) false.
Definition half_pi64 : b64 := Bdiv mode_NE pi64 (b64_ofZ 2).

(** what is asked of the functions of the maths library *)
Record acos_ok (M : libm) : Prop := {
  acos_in : forall x r, is x r -> -1 <= r <= 1 -> exists v, is (m_acos M x) v /\ 0 <= v <= B2R pi64;
  acos_out : forall x, (forall r, is x r -> ~ -1 <= r <= 1) -> is_nan (m_acos M x) = true;
  acos_falls : forall x y r s u v, is x r -> is y s -> r <= s -> is (m_acos M x) u -> is (m_acos M y) v -> v <= u;
  acos_zero : forall x, is x 0 -> m_acos M x = half_pi64 }.
Record tan_ok (M : libm) : Prop := {
  tan_in : forall x r, is x r -> Rabs r <= 1.2 -> exists v, is (m_tan M x) v /\ Rabs v <= 4;
  tan_small : forall x r v, is x r -> is (m_tan M x) v -> (Rabs r <= 0.41 -> Rabs v <= 0.436) /\ (Rabs r <= 1.156 -> Rabs v <= 2.28);
  tan_rises : forall x y r s u v, is x r -> is y s -> Rabs r <= 1.2 -> Rabs s <= 1.2 -> r <= s -> is (m_tan M x) u -> is (m_tan M y) v -> u <= v;
  tan_zero : forall x, is x 0 -> is (m_tan M x) 0 }.
Definition sin_ok (M : libm) : Prop := forall x r, is x r -> exists v, is (m_sin M x) v /\ -1 <= v <= 1.
