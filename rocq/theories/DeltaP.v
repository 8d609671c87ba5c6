(** Model of delta_pressure, _delta_pressure1D and dpres_plev
    (geocat/comp/meteorology.py:1182-1369, 1567-1568). *)
From Coq Require Import List Bool Arith ZArith String.
From Verif Require Import PyBase Num Arr.
Import ListNotations.

Section DeltaP.
  Context {T : Type} {N : Num T}.
  Local Open Scope num_scope.

  (** np.roll(l, shift=1): the last element comes first (meteorology.py:1231) *)
  Definition roll1 (l : list T) : list T :=
    match rev l with [] => [] | x :: _ => x :: removelast l end.

  (** [indices] = np.nonzero(mask) of a 1-D boolean array (meteorology.py:1233) *)
  Definition nonzero (mask : list bool) : list nat :=
    map fst (filter snd (combine (seq 0 (List.length mask)) mask)).

  (** midpoints array with its first entry set to 0.0 (meteorology.py:1231-1232) *)
  Definition midpoints (plev : list T) : list T :=
    upd (map (fun ab => (fst ab + snd ab) / ofZ 2) (combine plev (roll1 plev))) 0 (ofZ 0).

  (** _delta_pressure1D(pressure_lev, surface_pressure, pressure_top), meteorology.py:1182-1258.
      [pressure_lev] is the 1-D level array.  IndexError of [pressure_lev[1]] (line 1223) and
      ValueError of min() on an empty sequence (line 1235) are explicit. *)
  Definition delta_pressure1D (pressure_lev : list T) (surface_pressure pressure_top : T)
    : res (list T) :=
    guard (pressure_top <? ofZ 0) raise ValueError ;;            (* 1212-1215 *)
    guard (ngt pressure_top surface_pressure) raise ValueError ;; (* 1217-1220 *)
    do p1 <- pyget pressure_lev 1 ;;                              (* 1223 *)
    do p0 <- pyget pressure_lev 0 ;;
    let is_decreasing := p1 <? p0 in
    let plev := if is_decreasing then rev pressure_lev else pressure_lev in (* 1224-1225 *)
    let delta := repeat nnan (List.length plev) in                (* 1228 *)
    let indices := nonzero (map (fun m => m <? surface_pressure) (midpoints plev)) in (* 1231-1233 *)
    match indices with
    | [] => Err ValueError                                        (* min([]) / max([]), 1235-1236 *)
    | i0 :: rest =>
        let start_level := Z.of_nat (fold_left Nat.min rest i0) in
        let end_level := Z.of_nat (fold_left Nat.max rest i0) in
        (* top level, 1238-1240 *)
        do a <- pyget plev start_level ;;
        do b <- pyget plev (start_level + 1) ;;
        do delta <- pyset delta start_level ((a + b) / ofZ 2 - pressure_top) ;;
        (* interior levels, 1242-1248 *)
        let ups := pyslice plev (Some (start_level + 2)%Z) (Some (end_level + 1)%Z) in
        let los := pyslice plev (Some start_level) (Some end_level) in
        do delta <- pysetslice delta (Some (start_level + 1)%Z) (Some end_level)
                      (map (fun ab => (fst ab - snd ab) / ofZ 2) (combine ups los)) ;;
        (* bottom level, 1250-1252; [end_level - 1] may be the negative index -1 *)
        do c <- pyget plev end_level ;;
        do d <- pyget plev (end_level - 1) ;;
        do delta <- pyset delta end_level (surface_pressure - (c + d) / ofZ 2) ;;
        (* 1255-1256 *)
        Ok (if is_decreasing then rev delta else delta)
    end.

  (** What delta_pressure receives as pressure_lev: any container, already read as a 1-D list of
      values, plus whether it is a DataArray (with its attributes).  Level arrays of
      other ranks: DeltaPRank.v. *)
  Record levels := mkLevels { lev_da : bool; lev_vals : list T; lev_attrs : list (string * string) }.

  (** surface_pressure: a scalar, an ndarray, a DataArray, or a list (which has no .shape). *)
  Inductive surf :=
  | SScalar (x : T)
  | SNd (a : arr T)
  | SDa (d : da T)
  | SList.

  (** Result container: ndarray or DataArray. *)
  Inductive dpout := ONd (a : arr T) | ODa (d : da T).

  (** pressure_lev.min(): numpy propagates NaN, xarray skips NaN (NaN if nothing is left); both raise
      ValueError on an empty array (meteorology.py:1327, 1329). *)
  Definition lev_min (l : levels) : res T :=
    let vs := if lev_da l then filter (fun x => negb (isnan x)) (lev_vals l) else lev_vals l in
    match vs with
    | [] => match lev_vals l with [] => Err ValueError | _ => Ok nnan end
    | x :: t => Ok (nminl x t)
    end.

  (** multi-dimensional case, meteorology.py:1336-1349 *)
  Definition delta_pressure_nd (pressure_lev : list T) (a : arr T) (top : T) : res (arr T) :=
    do rows <- mapM (fun e => delta_pressure1D pressure_lev e top) (ravel a) ;;
    Ok (of_flat nnan (shp a ++ [List.length pressure_lev]) (List.concat rows)).

  (** delta_pressure(pressure_lev, surface_pressure, pressure_top=None), meteorology.py:1261-1369 *)
  Definition delta_pressure (pressure_lev : levels) (surface_pressure : surf) (pressure_top : option T)
    : res dpout :=
    do lmin <- lev_min pressure_lev ;;
    do top <- match pressure_top with                             (* 1326-1330 *)
              | None => Ok lmin
              | Some t => if ngt t lmin then Err ValueError else Ok t
              end ;;
    let lv := lev_vals pressure_lev in
    match surface_pressure with
    | SScalar x =>                                                (* 1333-1334 *)
        do r <- delta_pressure1D lv x top ;; Ok (ONd (vec nnan r))
    | SList => Err AttributeError                                 (* 1336: list has no .shape *)
    | SNd a => do r <- delta_pressure_nd lv a top ;; Ok (ONd r)
    | SDa d =>                                                    (* 1353-1367 *)
        do r <- delta_pressure_nd lv (dat d) top ;;
        let base := if lev_da pressure_lev then lev_attrs pressure_lev else attrs d in
        Ok (ODa (mkDa (dims d ++ ["lev"%string]) r
                   (sset "lev"%string (mkCoord ["lev"%string] (vec nnan lv)) (coords d))
                   (sset "long name"%string "pressure layer thickness"%string base)
                   (Some "delta pressure"%string)))
    end.

  (** dpres_plev, meteorology.py:1567-1568 *)
  Definition dpres_plev (pressure_lev : levels) (surface_pressure : surf) (pressure_top : option T) :=
    delta_pressure pressure_lev surface_pressure pressure_top.

  (** Views used in theorem statements only: the array inside a surface-pressure argument (a scalar
      is an array of rank 0) and inside a result.  Not code of /repo. *)
  Definition surf_arr (s : surf) : option (arr T) :=
    match s with SScalar x => Some (scalar x) | SNd a => Some a | SDa d => Some (dat d) | SList => None end.
  (** The array inside a result; used in theorem statements only.  Not code of /repo. *)
  Definition out_arr (o : dpout) : arr T := match o with ONd a => a | ODa d => dat d end.
End DeltaP.
Arguments levels T : clear implicits.
Arguments surf T : clear implicits.
Arguments dpout T : clear implicits.
