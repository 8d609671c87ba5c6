(** Model of the column interpolation used by the vertical interpolation functions
    (geocat/comp/interpolation.py:40-67, 163-170): metpy.interpolate.interpolate_1d and
    log_interpolate_1d, which those lines select and call.  metpy's source is not in /repo; its
    algorithm (argsort, searchsorted, bracket, fill) is transcribed here and is part of the
    trusted base. *)
From Coq Require Import List Bool Arith ZArith String.
From Verif Require Import PyBase Num Arr.
Import ListNotations.

Section Interp1d.
  Context {T : Type} {N : Num T}.
  Local Open Scope num_scope.

  (** numpy's sort order: NaN sorts last *)
  Definition key_lt (a b : T) : bool := if isnan a then false else isnan b || (a <? b).

  (** np.argsort along the column, applied to (key, payload) pairs.  Simplification: equal keys keep
      their order (numpy's default sort leaves it unspecified). *)
  Fixpoint insert {A} (p : T * A) (l : list (T * A)) : list (T * A) :=
    match l with
    | [] => [p]
    | q :: t => if key_lt (fst q) (fst p) then q :: insert p t else p :: l
    end.
  (** Not in /repo: a column sorted by its keys. *)
  Definition isort {A} (l : list (T * A)) : list (T * A) := fold_right insert [] l.

  (** np.searchsorted(sorted, x), side left: the number of leading entries below x *)
  Fixpoint searchsorted (l : list T) (x : T) : nat :=
    match l with
    | [] => 0
    | y :: t => if key_lt y x then S (searchsorted t x) else 0
    end.

  (** one output value from the sorted column [s] of (level, value) pairs.  Index errors arise for
      columns with fewer than two levels. *)
  Definition interp_at (s : list (T * T)) (x : T) : res T :=
    let n := List.length s in
    let minv := searchsorted (map fst s) x in
    let minv2 := if Nat.eqb minv 0 then 1%Z else if Nat.eqb minv n then (Z.of_nat n - 1)%Z else Z.of_nat minv in
    do above <- pyget s minv2 ;;
    do below <- pyget s (minv2 - 1)%Z ;;
    let v := snd below + (snd above - snd below) * ((x - fst below) / (fst above - fst below)) in
    Ok (if Nat.eqb minv n then nnan else if x <? fst below then nnan else v).

  (** interpolate_1d(x, xp, var) on one column *)
  Definition interp_col (x xp var : list T) : res (list T) :=
    match x with
    | [] => Err ValueError                                  (* np.max of an empty array *)
    | x0 :: _ =>
        let s := isort (combine xp var) in
        let xs := map fst (isort (combine x x)) in
        do r <- mapM (interp_at s) xs ;;
        Ok (if last x x0 <? x0 then rev r else r)
    end.

  (** log_interpolate_1d *)
  Definition log_interp_col (x xp var : list T) : res (list T) :=
    interp_col (map nln x) (map nln xp) var.

  (** the two functions interpolation.py:40-53 selects between *)
  Inductive imethod := MLinear | MLog.
  (** _func_interpolate(method), interpolation.py:40-53 *)
  Definition func_interpolate (method : string) : res imethod :=
    if String.eqb method "linear" then Ok MLinear
    else if String.eqb method "log" then Ok MLog
    else Err ValueError.
  (** the selected function on one column, interpolation.py:40-53 *)
  Definition interp_with (m : imethod) (x xp var : list T) : res (list T) :=
    match m with MLinear => interp_col x xp var | MLog => log_interp_col x xp var end.

  (** the column of [a] along axis [ax] through position [idx] *)
  Definition col_at (a : arr T) (ax : nat) (idx : list nat) (n : nat) : list T :=
    map (fun k => get a (upd idx ax k)) (seq 0 n).

  (** func_interpolate(x, xp, var, axis=ax) on n-d arrays: xp decides the output positions (var is
      read at xp's indices).  IndexError if var is smaller than xp somewhere; ValueError if some
      other axis is empty (np.apply_along_axis). *)
  Definition interp_nd (m : imethod) (x : list T) (xp var : arr T) (ax : nat) : res (arr T) :=
    let s := shp xp in
    let n := nth ax s 0 in
    guard negb (forallb (fun p => Nat.leb (fst p) (snd p)) (combine s (shp var))) raise IndexError ;;
    guard existsb (Nat.eqb 0) (upd s ax 1) raise ValueError ;;
    let column idx := interp_with m x (col_at xp ax idx n) (col_at var ax idx n) in
    do _ <- mapM column (all_idx (upd s ax 1)) ;;
    Ok (mkArr (upd s ax (List.length x))
          (fun i => match column i with Ok r => nth (nth ax i 0) r nnan | Err _ => nnan end)).
End Interp1d.
