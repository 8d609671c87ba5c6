(** The numbers of the model as IEEE 754 binary64 (numpy float64), rounding to nearest even, from Flocq.

    Not in /repo: the arithmetic numpy uses.  The elementary functions of the C library are not specified by IEEE 754 and are
    parameters.  Simplification: a decimal literal m * 10^-k is the rounded quotient of m and 10^k, which is the correctly rounded
    literal when both are exact (m below 2^53, k at most 22), as they are in the functions the binary64 theorems are about. *)
From Coq Require Import ZArith Bool.
From Flocq Require Import Core BinarySingleNaN.
From Verif Require Import Num.

(** binary64; its single NaN stands for all NaNs *)
Definition b64 := binary_float 53 1024.
Global Instance prec53 : Prec_gt_0 53.
Proof. reflexivity. Defined.
Global Instance prec53_1024 : Prec_lt_emax 53 1024.
Proof. reflexivity. Defined.

(** numpy's exp, log, sin, cos, tan, arccos: any functions *)
Record libm := mkLibm { m_exp : b64 -> b64; m_ln : b64 -> b64; m_sin : b64 -> b64; m_cos : b64 -> b64;
                        m_tan : b64 -> b64; m_acos : b64 -> b64 }.

(** Not in /repo: conversion of an integer, rounded *)
Definition b64_ofZ (z : Z) : b64 := binary_normalize 53 1024 _ _ mode_NE z 0 false.
(** Not in /repo: a decimal literal, see above *)
Definition b64_dec (m : Z) (k : nat) : b64 := Bdiv mode_NE (b64_ofZ m) (b64_ofZ (10 ^ Z.of_nat k)).
(** Not in /repo: rounding to an integer, None for NaN and infinities *)
Definition b64_toZ (m : mode) (x : b64) : option Z :=
  if is_finite x then Some (Btrunc (Bnearbyint m x)) else None.

Global Instance NumB (L : libm) : Num b64 := {
  ofZ := b64_ofZ;
  dec := b64_dec;
  nadd := Bplus mode_NE;
  nsub := Bminus mode_NE;
  nmul := Bmult mode_NE;
  ndiv := Bdiv mode_NE;
  nneg := @Bopp 53 1024;
  nabs := @Babs 53 1024;
  nlt := @Bltb 53 1024;
  nle := @Bleb 53 1024;
  neqb := @Beqb 53 1024;
  nnan := B754_nan;
  isnan := @is_nan 53 1024;
  nexp := m_exp L;
  nln := m_ln L;
  nsin := m_sin L;
  ncos := m_cos L;
  ntan := m_tan L;
  nacos := m_acos L;
  nsqrt := Bsqrt mode_NE;
  npi := binary_normalize 53 1024 _ _ mode_NE 884279719003555 (-48) false;
  nfloor := b64_toZ mode_DN;
  nceil := b64_toZ mode_UP;
  ntrunc := b64_toZ mode_ZR }.
