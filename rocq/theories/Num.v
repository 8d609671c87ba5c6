(** Floating point numbers as the model sees them.

    The Python code computes with numpy float64 arrays.  Every model function is written once over
    the class [Num] below.  Theorems use the instance [fl] (real numbers plus the IEEE special
    values). *)
From Coq Require Import Reals ZArith List Bool Lra Lia.
Import ListNotations.

(** Operations used by the modelled code.  [dec m k] is the decimal literal m * 10^-k of the source
    text.  Not in /repo: interface to Python/numpy arithmetic. *)
Class Num (T : Type) := {
  ofZ : Z -> T;
  dec : Z -> nat -> T;
  nadd : T -> T -> T;
  nsub : T -> T -> T;
  nmul : T -> T -> T;
  ndiv : T -> T -> T;
  nneg : T -> T;
  nabs : T -> T;
  nlt : T -> T -> bool;
  nle : T -> T -> bool;
  neqb : T -> T -> bool;
  nnan : T;
  isnan : T -> bool;
  nexp : T -> T;
  nln : T -> T;
  nsin : T -> T;
  ncos : T -> T;
  ntan : T -> T;
  nacos : T -> T;
  nsqrt : T -> T;
  npi : T;
  nfloor : T -> option Z;
  nceil : T -> option Z;
  ntrunc : T -> option Z
}.

Declare Scope num_scope.
Delimit Scope num_scope with num.
Infix "+" := nadd : num_scope.
Infix "-" := nsub : num_scope.
Infix "*" := nmul : num_scope.
Infix "/" := ndiv : num_scope.
Notation "- x" := (nneg x) : num_scope.
Infix "<?" := nlt : num_scope.
Infix "<=?" := nle : num_scope.
Infix "=?" := neqb : num_scope.

Section Derived.
  Context {T : Type} {N : Num T}.
  Local Open Scope num_scope.

  (** numpy [>], [>=], [!=] *)
  Definition ngt (x y : T) : bool := y <? x.
  (** Not in /repo: numpy [>=]. *)
  Definition nge (x y : T) : bool := y <=? x.
  (** Not in /repo: numpy [!=]. *)
  Definition nneqb (x y : T) : bool := negb (x =? y).
  (** [x**2], [x**3] for float arrays *)
  Definition sqr (x : T) : T := x * x.
  (** Not in /repo: [x**3]. *)
  Definition cube (x : T) : T := x * x * x.
  (** Not in /repo: [x**k] for a literal k. *)
  Fixpoint npow (x : T) (k : nat) : T :=
    match k with O => ofZ 1 | S k' => x * npow x k' end.
  (** np.minimum / np.maximum: NaN in either argument gives NaN *)
  Definition nmin (x y : T) : T :=
    if isnan x then x else if isnan y then y else if x <=? y then x else y.
  (** Not in /repo: np.maximum. *)
  Definition nmax (x y : T) : T :=
    if isnan x then x else if isnan y then y else if y <=? x then x else y.
  (** np.clip(x, lo, hi) = minimum(maximum(x, lo), hi); NaN stays NaN *)
  Definition nclip (lo hi x : T) : T := nmin (nmax x lo) hi.
  (** Not in /repo: np.clip(x, lo, None). *)
  Definition nclip_lo (lo x : T) : T := nmax x lo.
  (** np.where / xr.where with a scalar condition *)
  Definition nwhere (c : bool) (a b : T) : T := if c then a else b.
  (** np.sum of a list, left to right *)
  Definition nsum (l : list T) : T := fold_left nadd l (ofZ 0).
  (** np.nansum and xarray's sum(skipna=True): NaN terms count as 0 *)
  Definition nansum (l : list T) : T := nsum (map (fun x => if isnan x then ofZ 0 else x) l).
  (** xarray's mean(skipna=True): mean of the non-NaN entries, NaN if there are none *)
  Definition nanmean (l : list T) : T :=
    let v := filter (fun x => negb (isnan x)) l in
    match v with
    | [] => nnan
    | _ => nsum v / ofZ (Z.of_nat (length v))
    end.
  (** ndarray.min()/max(): NaN propagates; empty list is handled by callers *)
  Definition nminl (x : T) (l : list T) : T := fold_left nmin l x.
  (** Not in /repo: ndarray.max(). *)
  Definition nmaxl (x : T) (l : list T) : T := fold_left nmax l x.
End Derived.

(** * The instance used in theorems *)
Inductive fl := Fin (r : R) | PInf | NInf | NaN.

Local Open Scope R_scope.

(** Not in /repo: decides a < b on the reals. *)
Definition rltb (a b : R) : bool := if Rlt_dec a b then true else false.
(** Not in /repo: decides a <= b on the reals. *)
Definition rleb (a b : R) : bool := if Rle_dec a b then true else false.
(** Not in /repo: decides a = b on the reals. *)
Definition reqb (a b : R) : bool := if Req_EM_T a b then true else false.

(** Not in /repo: IEEE negation. *)
Definition fl_neg (x : fl) : fl :=
  match x with Fin a => Fin (- a) | PInf => NInf | NInf => PInf | NaN => NaN end.
(** Not in /repo: IEEE addition without rounding. *)
Definition fl_add (x y : fl) : fl :=
  match x, y with
  | NaN, _ | _, NaN => NaN
  | Fin a, Fin b => Fin (a + b)
  | PInf, NInf | NInf, PInf => NaN
  | PInf, _ | _, PInf => PInf
  | NInf, _ | _, NInf => NInf
  end.
(** Not in /repo: IEEE subtraction without rounding. *)
Definition fl_sub (x y : fl) : fl :=
  match x, y with Fin a, Fin b => Fin (a - b) | _, _ => fl_add x (fl_neg y) end.
(** sign of an infinite product with a finite factor; 0 * inf = NaN *)
Definition fl_infsgn (s : bool) (a : R) : fl :=
  if Req_EM_T a 0 then NaN
  else if Rlt_dec 0 a then (if s then PInf else NInf) else (if s then NInf else PInf).
(** Not in /repo: IEEE multiplication without rounding. *)
Definition fl_mul (x y : fl) : fl :=
  match x, y with
  | NaN, _ | _, NaN => NaN
  | Fin a, Fin b => Fin (a * b)
  | PInf, Fin a | Fin a, PInf => fl_infsgn true a
  | NInf, Fin a | Fin a, NInf => fl_infsgn false a
  | PInf, PInf | NInf, NInf => PInf
  | PInf, NInf | NInf, PInf => NInf
  end.
(** Simplification: zeros carry no sign, so x/0 takes the sign of x and inf/0 keeps its sign. *)
Definition fl_div (x y : fl) : fl :=
  match x, y with
  | NaN, _ | _, NaN => NaN
  | Fin a, Fin b =>
      if Req_EM_T b 0
      then (if Req_EM_T a 0 then NaN else if Rlt_dec 0 a then PInf else NInf)
      else Fin (a / b)
  | Fin a, _ => Fin 0
  | PInf, Fin b => if Rlt_dec b 0 then NInf else PInf
  | NInf, Fin b => if Rlt_dec b 0 then PInf else NInf
  | _, _ => NaN
  end.
(** Not in /repo: np.abs. *)
Definition fl_abs (x : fl) : fl :=
  match x with Fin a => Fin (Rabs a) | PInf | NInf => PInf | NaN => NaN end.
(** Not in /repo: IEEE <, false with NaN. *)
Definition fl_lt (x y : fl) : bool :=
  match x, y with
  | NaN, _ | _, NaN => false
  | Fin a, Fin b => rltb a b
  | NInf, NInf => false
  | NInf, _ => true
  | _, NInf => false
  | PInf, _ => false
  | _, PInf => true
  end.
(** Not in /repo: IEEE ==, false with NaN. *)
Definition fl_eq (x y : fl) : bool :=
  match x, y with
  | Fin a, Fin b => reqb a b
  | PInf, PInf | NInf, NInf => true
  | _, _ => false
  end.
(** Not in /repo: IEEE <=, false with NaN. *)
Definition fl_le (x y : fl) : bool :=
  match x, y with
  | NaN, _ | _, NaN => false
  | Fin a, Fin b => rleb a b
  | NInf, _ => true
  | _, PInf => true
  | PInf, _ => false
  | _, NInf => false
  end.
(** Not in /repo: np.isnan. *)
Definition fl_isnan (x : fl) : bool := match x with NaN => true | _ => false end.
(** Not in /repo: np.exp. *)
Definition fl_exp (x : fl) : fl :=
  match x with Fin a => Fin (exp a) | PInf => PInf | NInf => Fin 0 | NaN => NaN end.
(** Not in /repo: np.log; -inf at 0, NaN below. *)
Definition fl_ln (x : fl) : fl :=
  match x with
  | Fin a => if Rlt_dec 0 a then Fin (ln a) else if Req_EM_T a 0 then NInf else NaN
  | PInf => PInf
  | _ => NaN
  end.
(** Not in /repo: np.sin, np.cos; NaN at infinities. *)
Definition fl_fin1 (f : R -> R) (x : fl) : fl := match x with Fin a => Fin (f a) | _ => NaN end.
(** Simplification: at a pole of tan the result is +inf (floats never hit it exactly). *)
Definition fl_tan (x : fl) : fl :=
  match x with Fin a => if Req_EM_T (cos a) 0 then PInf else Fin (tan a) | _ => NaN end.
(** Not in /repo: np.arccos; NaN outside [-1, 1]. *)
Definition fl_acos (x : fl) : fl :=
  match x with
  | Fin a => if Rle_dec (-1) a then (if Rle_dec a 1 then Fin (acos a) else NaN) else NaN
  | _ => NaN
  end.
(** Not in /repo: np.sqrt; NaN below 0. *)
Definition fl_sqrt (x : fl) : fl :=
  match x with
  | Fin a => if Rle_dec 0 a then Fin (sqrt a) else NaN
  | PInf => PInf
  | _ => NaN
  end.
(** Not in /repo: math.floor of a finite number. *)
Definition Rfloor (r : R) : Z := Int_part r.
(** Not in /repo: math.ceil of a finite number. *)
Definition Rceil (r : R) : Z := Z.opp (Int_part (- r)).
(** Not in /repo: astype(int) of a finite number: rounds towards 0. *)
Definition Rtruncz (r : R) : Z := if Rlt_dec r 0 then Rceil r else Rfloor r.
(** Not in /repo: conversion to an integer; fails on NaN and infinities. *)
Definition fl_toZ (f : R -> Z) (x : fl) : option Z := match x with Fin a => Some (f a) | _ => None end.

(** Not in /repo: the instance over [fl]. *)
Global Instance NumFl : Num fl := {
  ofZ := fun z => Fin (IZR z);
  dec := fun m k => Fin (IZR m / IZR (10 ^ Z.of_nat k));
  nadd := fl_add; nsub := fl_sub; nmul := fl_mul; ndiv := fl_div;
  nneg := fl_neg; nabs := fl_abs;
  nlt := fl_lt; nle := fl_le; neqb := fl_eq;
  nnan := NaN; isnan := fl_isnan;
  nexp := fl_exp; nln := fl_ln; nsin := fl_fin1 sin; ncos := fl_fin1 cos;
  ntan := fl_tan; nacos := fl_acos; nsqrt := fl_sqrt;
  npi := Fin PI;
  nfloor := fl_toZ Rfloor; nceil := fl_toZ Rceil; ntrunc := fl_toZ Rtruncz
}.
