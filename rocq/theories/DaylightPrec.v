(** max_daylight with the precision numpy computes in (meteorology.py:786-878).

    meteorology.py:833-837 converts everything that is not an ndarray to float32; a DataArray is not a duck array for
    xr.core.utils.is_duck_array, so it is converted too.  float32 arrays stay float32 under arithmetic with Python floats. *)
From Coq Require Import List Bool Arith ZArith String.
From Flocq Require Import Core BinarySingleNaN.
From Verif Require Import PyBase Num NumB64 Arr Meteo.
Import ListNotations.

Section Daylight.
  Context {T : Type}.
  Variables (N64 N32 : Num T).     (* float64 arithmetic, float32 arithmetic *)
  Variable single : T -> T.        (* conversion to float32 *)

  (** arithmetic of an array: [s] says that it is a float32 array *)
  Definition arith (s : bool) : Num T := if s then N32 else N64.
  (** a Python float taking part in it: rounded to float32 beside a float32 array *)
  Definition weak (s : bool) (c : T) : T := if s then single c else c.
  (** meteorology.py:834-837: whether an argument becomes a float32 array.  Simplification: ndarrays are float64 (or integer) arrays. *)
  Definition converted (v : inp T) : bool := match v with INd _ => false | _ => true end.
  (** the array the argument becomes, meteorology.py:834-837 *)
  Definition duck (v : inp T) : arr T := if converted v then amap single (as_arr v) else as_arr v.

  (** the Python constants, meteorology.py:855-859 *)
  Definition rad : T := @ndiv _ N64 (@npi _ N64) (@ofZ _ N64 180).
  (** 2 * pi / 365, meteorology.py:857 *)
  Definition pi2yr : T := @ndiv _ N64 (@nmul _ N64 (@ofZ _ N64 2) (@npi _ N64)) (@ofZ _ N64 365).
  (** 24 / pi, meteorology.py:859 *)
  Definition con : T := @ndiv _ N64 (@ofZ _ N64 24) (@npi _ N64).
  (** -np.tan(lat * rad), meteorology.py:858, 865 *)
  Definition minus_tan_lat (s : bool) (lat : T) : T :=
    @nneg _ (arith s) (@ntan _ (arith s) (@nmul _ (arith s) lat (weak s rad))).
  (** np.tan(sdec), meteorology.py:862, 865 *)
  Definition tan_sdec (s : bool) (jday : T) : T :=
    @ntan _ (arith s) (@nmul _ (arith s) (weak s (@dec _ N64 409 3))
      (@nsin _ (arith s) (@nsub _ (arith s) (@nmul _ (arith s) (weak s pi2yr) jday) (weak s (@dec _ N64 139 2))))).
  (** one cell, meteorology.py:865-868; float32 only if both factors are.  Simplification: for scalars numpy before version 2
      computes in float64 after the conversion. *)
  Definition cell (sl sj : bool) (jday lat : T) : T :=
    let s := sl && sj in
    @nmul _ (arith s) (weak s con) (@nacos _ (arith s) (@nmul _ (arith s) (minus_tan_lat sl lat) (tan_sdec sj jday))).

  (** max_daylight, meteorology.py:786-878; np.outer ravels its arguments *)
  Definition max_daylight_prec (jday lat : inp T) : res (option daylight_warning * inp T) :=
    let ja := duck jday in
    let la := duck lat in
    guard Nat.ltb 1 (ndim la) || Nat.ltb 1 (ndim ja) raise ValueError ;;                (* 840 *)
    let ls := ravel la in
    let js := ravel ja in
    let nan := @nnan _ N64 in
    let sl := converted lat in
    let gt (z : Z) v := @nlt _ (arith sl) (weak sl (@ofZ _ N64 z)) (@nabs _ (arith sl) v) in
    let le (z : Z) v := @nle _ (arith sl) (@nabs _ (arith sl) v) (weak sl (@ofZ _ N64 z)) in
    let warn :=
      if forallb (gt 55%Z) ls && forallb (le 66%Z) ls then Some WLimited
      else if forallb (gt 66%Z) ls then Some WImpossible else None in                   (* 846-852 *)
    let out := mkArr [List.length js; List.length ls]
                 (fun i => cell sl (converted jday) (nth (nth 0 i 0%nat) js nan) (nth (nth 1 i 0%nat) ls nan)) in
    match jday with
    | IDa _ =>
        guard Nat.eqb (ndim ja) 0 || Nat.eqb (ndim la) 0 raise ValueError ;;            (* 872 *)
        Ok (warn, IDa (mkDa ["doy"; "lat"]%string out
              [("doy"%string, mkCoord ["doy"%string] (vec nan js)); ("lat"%string, mkCoord ["lat"%string] (vec nan ls))]
              [("long_name", "maximum daylight: FAO_56"); ("units", "hours/day");
               ("url", "http://www.fao.org/docrep/X0490E/x0490e07.htm"); ("info", "FAO 56; EQN 34; max_daylight")]%string None))
    | _ => Ok (warn, INd out)
    end.
End Daylight.

(** ** float32 *)
(** Not in /repo: IEEE 754 binary32 *)
Definition b32 := binary_float 24 128.
Global Instance prec24 : Prec_gt_0 24.
Proof. reflexivity. Defined.
Global Instance prec24_128 : Prec_lt_emax 24 128.
Proof. reflexivity. Defined.
(** Not in /repo: conversion between binary formats, rounding to nearest even *)
Definition convert {p e p' e' : Z} {P : Prec_gt_0 p'} {Q : Prec_lt_emax p' e'} (x : binary_float p e) : binary_float p' e' :=
  match x with
  | B754_zero s => B754_zero s
  | B754_infinity s => B754_infinity s
  | B754_nan => B754_nan
  | B754_finite s m k _ => binary_normalize p' e' _ _ mode_NE (SpecFloat.cond_Zopp s (Zpos m)) k s
  end.
(** Not in /repo: np.float32(x) *)
Definition down (x : b64) : b32 := convert x.
(** Not in /repo: np.float64 of a float32 *)
Definition up (x : b32) : b64 := convert x.
(** np.asarray(x, dtype='float32'), as the number it holds, meteorology.py:835, 837 *)
Definition to_single (x : b64) : b64 := up (down x).
(** Not in /repo: float32 arithmetic on numbers held in binary64; [L] are the single precision elementary functions *)
Definition NumS (L : libm) : Num b64 := {|
  ofZ := fun z => to_single (b64_ofZ z);
  dec := fun m k => to_single (b64_dec m k);
  nadd := fun x y => up (Bplus mode_NE (down x) (down y));
  nsub := fun x y => up (Bminus mode_NE (down x) (down y));
  nmul := fun x y => up (Bmult mode_NE (down x) (down y));
  ndiv := fun x y => up (Bdiv mode_NE (down x) (down y));
  nneg := @Bopp 53 1024;
  nabs := @Babs 53 1024;
  nlt := @Bltb 53 1024;
  nle := @Bleb 53 1024;
  neqb := @Beqb 53 1024;
  nnan := B754_nan;
  isnan := @is_nan 53 1024;
  nexp := fun x => to_single (m_exp L x);
  nln := fun x => to_single (m_ln L x);
  nsin := fun x => to_single (m_sin L x);
  ncos := fun x => to_single (m_cos L x);
  ntan := fun x => to_single (m_tan L x);
  nacos := fun x => to_single (m_acos L x);
  nsqrt := fun x => up (Bsqrt mode_NE (down x));
  npi := to_single (binary_normalize 53 1024 _ _ mode_NE 884279719003555 (-48) false);
  nfloor := b64_toZ mode_DN;
  nceil := b64_toZ mode_UP;
  ntrunc := b64_toZ mode_ZR |}.
(** max_daylight on float64 numbers, meteorology.py:786-878; [L] are the double and [L'] the single precision functions of numpy *)
Definition max_daylight_np (L L' : libm) : inp b64 -> inp b64 -> res (option daylight_warning * inp b64) :=
  max_daylight_prec (NumB L) (NumS L') to_single.
