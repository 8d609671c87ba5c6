(** Model of zonal_meridional_psi and zonal_mpsi (geocat/comp/meteorology.py:1372-1589). *)
From Coq Require Import List Bool Arith ZArith String.
From Verif Require Import PyBase Num Arr Hybrid DeltaP Interp1d InterpHyb GcUtil.
Import ListNotations.

Section Psi.
  Context {T : Type} {N : Num T}.
  Local Open Scope num_scope.

  (** a UxDataset: variables in order, each with a flag "data variable" *)
  Definition uxds := list (string * (bool * da T)).
  (** the dataset as the lookup of gc_util.py:33 sees it *)
  Definition ds_names (u : uxds) : dset := map (fun v => mkVar (fst v) (fst (snd v)) (attrs (snd (snd v)))) u.
  (** uxds[name] *)
  Definition ds_get (u : uxds) (n : string) : res (da T) := rmap snd (oget KeyError (slookup n u)).

  (** arr.cumsum(dim=d): NaN terms count as 0 *)
  Definition xr_cumsum (d : string) (a : da T) : res (da T) :=
    do j <- oget ValueError (sindex d (dims a)) ;;
    Ok (mkDa (dims a)
          (mkArr (shp (dat a)) (fun i => nansum (map (fun k => get (dat a) (upd i j k)) (seq 0 (S (nth j i 0%nat))))))
          (coords a) [] (daname a)).
  (** arr.isel({d: slice(None, None, -1)}) *)
  Definition xr_flip (d : string) (a : da T) : res (da T) :=
    do n <- oget ValueError (dsize a d) ;; Ok (xr_take d (rev (seq 0 n)) a).

  (** __pres_lev_mandatory__, interpolation.py:12-37 *)
  Definition mandatory_levels : list T :=
    map (fun z => ofZ z * dec 1000 1)
        [1000; 925; 850; 700; 500; 400; 300; 250; 200; 150; 100; 70; 50; 30; 20; 10; 7; 5; 3; 2; 1]%Z.

  (** arr[name] for a dimension: its coordinate, or 0, 1, ... *)
  Definition dim_coord (a : da T) (d : string) : coordv T :=
    match slookup d (coords a) with
    | Some c => c
    | None => mkCoord [d] (vec nnan (map (fun k => ofZ (Z.of_nat k)) (seq 0 (match dsize a d with Some n => n | None => 0%nat end))))
    end.

  (** meteorology.py:1513-1563, after the wind is on pressure levels.  [zmean] is
      uxarray's zonal_mean(lat=lat) (external).  Simplification: the level coordinate must be 1-D.
      xr.DataArray(values, dims, coords) needs rank 3 values and coordinates on those dimensions. *)
  Definition psi_integrate (zmean : da T -> da T) (wind : da T) (plev_name : string) (ps : da T) : res (da T) :=
    let v0 := zmean wind in
    let pc := dim_coord wind plev_name in
    guard negb (forallb (fun ds => match dsize v0 (fst ds) with Some n => Nat.eqb n (snd ds) | None => false end)
                  (combine (cdims pc) (shp (cdat pc)))) raise ValueError ;;                         (* 1515: coords must fit *)
    let v := mkDa (dims v0) (dat v0) (sset "plev"%string pc (coords v0)) (attrs v0) (daname v0) in   (* 1515 *)
    let zps := zmean ps in                                                                          (* 1516 *)
    guard existsb isnan (ravel (dat zps)) raise ValueError ;;                                       (* 1523 *)
    guard existsb (fun x => x <=? ofZ 0) (ravel (dat ps)) raise ValueError ;;                       (* 1528 *)
    do dp <- delta_pressure (mkLevels true (ravel (cdat pc)) []) (SDa zps) None ;;                  (* 1532 *)
    guard negb (smem "latitudes"%string (map fst (coords zps) ++ dims zps)) raise AttributeError ;;  (* 1534 *)
    let lats := dim_coord zps "latitudes"%string in
    guard negb (Nat.eqb (ndim (out_arr dp)) 3) raise ValueError ;;                                  (* 1535 *)
    guard negb (dims_eqb (cdims pc) ["plev"%string]) raise ValueError ;;
    guard negb (dims_eqb (cdims lats) ["latitudes"%string]
                && shape_eqb (shp (cdat lats)) [nth 1 (shp (out_arr dp)) 0%nat]) raise ValueError ;;
    let dpz := mkDa ["time"; "latitudes"; "plev"]%string (out_arr dp)
                 [("plev"%string, pc); ("latitudes"%string, lats)] [] (Some "delta_pressure"%string) in
    let lv := ravel (cdat pc) in
    do integrand <- xr_map2 nmul v dpz ;;
    do mpsi <- (if nth 0 lv nnan <? last lv nnan                                                    (* 1543 *)
                then xr_cumsum "plev"%string integrand
                else do r <- xr_flip "plev"%string integrand ;;
                     do c <- xr_cumsum "plev"%string r ;;
                     xr_flip "plev"%string c) ;;
    let scaling := mkDa ["latitudes"%string]
                     (amap (fun x => ofZ 2 * npi * ofZ 6378137 * ncos x / dec 980665 5) (cdat lats))
                     [("latitudes"%string, lats)] [] None in                                        (* 1551 *)
    do r <- xr_map2 nmul mpsi scaling ;;
    Ok (mkDa (dims r) (dat r) (coords r)
          [("long_name", "zonal mean meridional streamfunction"); ("units", "kg/s");
           ("info", "zonal_meridional_psi: integrated meridional streamfunction")]%string (daname r)).

  (** names passed by the caller; None or "" leave the choice to the lookup *)
  Definition given (n : option string) : option string :=
    match n with Some s => if String.eqb s "" then None else Some s | None => None end.
  (** the name arguments of zonal_meridional_psi, meteorology.py:1372 *)
  Record psi_names := mkNames { n_wind : option string; n_ps : option string; n_plev : option string;
                                n_hyam : option string; n_hybm : option string }.
  (** an explicit name, else the lookup's answer, meteorology.py:1455-1494 *)
  Definition resolve (n : option string) (look : res string) : res string :=
    match given n with Some s => Ok s | None => look end.
  (** the same where the lookup may find nothing *)
  Definition resolve_opt (n : option string) (look : res (option string)) : res (option string) :=
    match given n with Some s => Ok (Some s) | None => look end.

  (** zonal_meridional_psi, meteorology.py:1372-1563.  [installed]: uxarray can be imported; [order]:
      set iteration order; [cf]: what cf_xarray answers for the wind's vertical dimension.  Simplification:
      the variables are in memory (not dask arrays). *)
  Definition zonal_meridional_psi (installed : bool) (order : list string -> list string) (zmean : da T -> da T)
      (cf : da T -> option string) (u : uxds) (nm : psi_names) : res (da T) :=
    guard negb installed raise ImportError ;;                                                       (* 1442-1448 *)
    let ds := ds_names u in
    do wind <- resolve (n_wind nm) (find_var order ds "northward_wind"%string "Meridional wind"%string ["V"; "vs"; "meridional_wind"]%string) ;;
    do ps <- resolve (n_ps nm) (find_var order ds "surface_air_pressure"%string "Surface pressure"%string
               ["ps"; "p_surface"; "surface_pressure"; "pressure_surface"]%string) ;;
    do hyam <- resolve_opt (n_hyam nm) (find_optional_var order ds ""%string "hybrid A coefficient at layer midpoints"%string
                 ["hyam"; "hya"; "hybrid_A_midpoints"]%string) ;;
    do hybm <- resolve_opt (n_hybm nm) (find_optional_var order ds ""%string "hybrid B coefficient at layer midpoints"%string
                 ["hybm"; "hyb"; "hybrid_B_midpoints"]%string) ;;
    do plev <- resolve_opt (n_plev nm) (find_optional_var order ds "air_pressure"%string ""%string
                 ["plev"; "pressure_lev"; "pressure_levels"]%string) ;;
    do on_plev <- match plev with                                                                   (* 1497 *)
                  | Some l => do w <- ds_get u wind ;; Ok (if smem l (dims w) then Some l else None)
                  | None => Ok None
                  end ;;
    match on_plev, hyam, hybm with
    | Some l, _, _ =>
        do w <- ds_get u wind ;;
        do p <- ds_get u ps ;;
        psi_integrate zmean w l p
    | None, Some ya, Some yb =>                                                                     (* 1499 *)
        do w <- ds_get u wind ;;
        do p <- ds_get u ps ;;
        do a <- ds_get u ya ;;
        do b <- ds_get u yb ;;
        do ip <- interp_hybrid_to_pressure (VSubDa w) (VSubDa p) (VSubDa a) (VSubDa b) mandatory_levels (ofZ 100000)
                   (mkIhp "linear"%string None false None None None (cf w) None false false) ;;
        psi_integrate zmean ip "plev"%string p
    | _, _, _ => Err AttributeError                                                                 (* 1509 *)
    end.
  (** zonal_mpsi, meteorology.py:1571-1589 *)
  Definition zonal_mpsi := zonal_meridional_psi.
End Psi.
Arguments uxds T : clear implicits.
