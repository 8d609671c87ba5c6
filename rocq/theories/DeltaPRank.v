(** delta_pressure with a level array of any rank (geocat/comp/meteorology.py:1182-1369). *)
From Coq Require Import List Bool Arith ZArith String.
From Verif Require Import PyBase Num Arr DeltaP.
Import ListNotations.

Section Rank.
  Context {T : Type} {N : Num T}.
  Local Open Scope num_scope.

  (** pressure_lev as an array of any rank, and whether it is a DataArray (with its attributes); numbers and lists have become
      arrays through np.asarray (meteorology.py:1307-1310) *)
  Record levels_nd := mkLevelsNd { ln_da : bool; ln_arr : arr T; ln_attrs : list (string * string) }.
  (** the view of it that DeltaP.v takes: its values in C order (meteorology.py:1327, 1329) *)
  Definition ln_flat (l : levels_nd) : levels T := mkLevels (ln_da l) (ravel (ln_arr l)) (ln_attrs l).

  (** _delta_pressure1D on a level array of any rank, meteorology.py:1182-1258.  Rank 1 is DeltaP.v.  Rank 0: pressure_lev[1] is
      an IndexError (line 1223).  Higher rank: pressure_lev[1] is an IndexError with fewer than two rows; otherwise line 1224 asks for the truth
      value of an array, a ValueError unless it has exactly one element, and then line 1233 unpacks one array from as many as there are
      axes, again a ValueError.  Simplification: an empty comparison (whose truth value is False) cannot occur, line 1327 has raised before. *)
  Definition delta_pressure1D_nd (lev : arr T) (surface_pressure pressure_top : T) : res (list T) :=
    match shp lev with
    | [_] => delta_pressure1D (ravel lev) surface_pressure pressure_top
    | s =>
        guard (pressure_top <? ofZ 0) raise ValueError ;;             (* 1212-1215 *)
        guard (ngt pressure_top surface_pressure) raise ValueError ;; (* 1217-1220 *)
        guard (Nat.ltb (hd 0 s) 2) raise IndexError ;;                (* 1223; rank 0 too *)
        guard (negb (Nat.eqb (size (tl s)) 1)) raise ValueError ;;    (* 1224, truth value of an array *)
        Err ValueError                                                (* 1233, too many values to unpack *)
    end.

  (** delta_pressure on a level array of any rank, meteorology.py:1261-1369: len() of a rank-0 array is a TypeError (line 1338); with no
      surface cell nothing is computed and the result is empty (lines 1344-1349), but a level array of rank 2 or more cannot
      become the coordinate 'lev' (ValueError, lines 1354-1367) *)
  Definition delta_pressure_any (lev : levels_nd) (surface_pressure : surf T) (pressure_top : option T) : res (dpout T) :=
    do lmin <- lev_min (ln_flat lev) ;;
    do top <- match pressure_top with                             (* 1326-1330 *)
              | None => Ok lmin
              | Some t => if ngt t lmin then Err ValueError else Ok t
              end ;;
    let s := shp (ln_arr lev) in
    let nd (a : arr T) :=
      guard (Nat.eqb (List.length s) 0) raise TypeError ;;        (* 1338 *)
      do rows <- mapM (fun e => delta_pressure1D_nd (ln_arr lev) e top) (ravel a) ;;
      Ok (of_flat nnan (shp a ++ [hd 0 s]) (List.concat rows)) in
    match surface_pressure with
    | SScalar x => do r <- delta_pressure1D_nd (ln_arr lev) x top ;; Ok (ONd (vec nnan r))  (* 1333-1334 *)
    | SList => Err AttributeError                                 (* 1336 *)
    | SNd a => do r <- nd a ;; Ok (ONd r)
    | SDa d =>
        do r <- nd (dat d) ;;
        guard (negb (Nat.eqb (List.length s) 1)) raise ValueError ;;  (* 1354-1367, xarray: no dimension names for the coordinate *)
        let base := if ln_da lev then ln_attrs lev else attrs d in
        Ok (ODa (mkDa (dims d ++ ["lev"%string]) r
                   (sset "lev"%string (mkCoord ["lev"%string] (vec nnan (ravel (ln_arr lev)))) (coords d))
                   (sset "long name"%string "pressure layer thickness"%string base)
                   (Some "delta pressure"%string)))
    end.
End Rank.
Arguments levels_nd : clear implicits.
