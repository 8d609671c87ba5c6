(** Model of pressure_at_hybrid_levels and delta_pressure_hybrid
    (geocat/comp/interpolation.py:353-517). *)
From Coq Require Import List Bool Arith ZArith String.
From Verif Require Import PyBase Num Arr.
Import ListNotations.

Section Hybrid.
  Context {T : Type} {N : Num T}.
  Local Open Scope num_scope.

  (** An argument as the isinstance/type checks see it: ndarray, DataArray, an instance of a proper
      subclass of DataArray (uxarray), or anything else (interpolation.py:385, 462). *)
  Inductive val := VNd (a : arr T) | VDa (d : da T) | VSubDa (d : da T) | VOther.

  (** isinstance(v, np.ndarray), interpolation.py:389, 466 *)
  Definition is_nd (v : val) : bool := match v with VNd _ => true | _ => false end.
  (** isinstance(v, xr.DataArray), interpolation.py:389 *)
  Definition is_xr (v : val) : bool := match v with VDa _ | VSubDa _ => true | _ => false end.
  (** v.shape, interpolation.py:398, 472 *)
  Definition vshape (v : val) : list nat :=
    match v with VNd a => shp a | VDa d | VSubDa d => shp (dat d) | VOther => [] end.
  (** equality of shapes, interpolation.py:398, 472 *)
  Definition shape_eqb (s1 s2 : list nat) : bool :=
    if list_eq_dec Nat.eq_dec s1 s2 then true else false.
  (** equality of dimension tuples, interpolation.py:406, 499 *)
  Definition dims_eqb (d1 d2 : list string) : bool :=
    if list_eq_dec string_dec d1 d2 then true else false.

  (** numpy branch, interpolation.py:414-421.  np.expand_dims of a rank-0 array with axis (1, 2)
      raises AxisError, a subclass of ValueError. *)
  Definition pressure_np (psfc hya hyb : arr T) (p0 : T) : res (arr T) :=
    guard (Nat.eqb (ndim hya) 0) raise ValueError ;;
    let hya := expand12 hya in
    let hyb := expand12 hyb in
    do t <- np_map2 nmul hyb psfc ;;
    np_map2 nadd (amap (fun x => x * p0) hya) t.

  (** xarray branch, interpolation.py:406-412 and 421; the boolean is the rename warning. *)
  Definition pressure_xr (psfc hya hyb : da T) (p0 : T) : res (bool * da T) :=
    let differ := negb (dims_eqb (dims hya) (dims hyb)) in
    let hyb := if differ then xr_rename (combine (dims hyb) (dims hya)) hyb else hyb in
    do t <- xr_map2 nmul hyb psfc ;;
    do r <- xr_map2 nadd (xr_map (fun x => x * p0) hya) t ;;
    Ok (differ, r).

  (** pressure_at_hybrid_levels(psfc, hya, hyb, p0), interpolation.py:353-421.
      Returns the rename warning flag and the value. *)
  Definition pressure_at_hybrid_levels (psfc hya hyb : val) (p0 : T) : res (bool * val) :=
    guard negb (forallb (fun v => is_xr v || is_nd v) [psfc; hya; hyb]) raise TypeError ;; (* 385 *)
    guard negb (forallb is_nd [psfc; hya; hyb] || forallb is_xr [psfc; hya; hyb]) raise TypeError ;; (* 389 *)
    guard negb (shape_eqb (vshape hya) (vshape hyb)) raise ValueError ;; (* 398 *)
    match psfc, hya, hyb with
    | VNd p, VNd a, VNd b =>
        guard (Nat.ltb 1 (ndim a)) raise ValueError ;;            (* 401 *)
        do r <- pressure_np p a b p0 ;; Ok (false, VNd r)
    | (VDa p | VSubDa p), (VDa a | VSubDa a), (VDa b | VSubDa b) =>
        do r <- pressure_xr p a b p0 ;; Ok (fst r, VDa (snd r))
    | _, _, _ => Err TypeError                                    (* excluded by the checks above *)
    end.

  (** Python [x[:-1]] and [x[1:]] along axis 0 *)
  Definition np_init (a : arr T) : arr T := slice0 0 (slice_bound (hd 0 (shp a)) (-1)) a.
  (** Not in /repo: [x[1:]] along axis 0. *)
  Definition np_tail (a : arr T) : arr T := slice0 (slice_bound (hd 0 (shp a)) 1) (hd 0 (shp a)) a.
  (** Not in /repo: [x[lo:hi]] of a DataArray along its first dimension. *)
  Definition xr_slice (lo hi : nat) (a : da T) : da T :=
    match dims a with [] => a | d :: _ => xr_take d (seq lo (hi - lo)) a end.
  (** Not in /repo: [x[:-1]] of a DataArray. *)
  Definition xr_init (a : da T) : da T := xr_slice 0 (slice_bound (hd 0 (shp (dat a))) (-1)) a.
  (** Not in /repo: [x[1:]] of a DataArray. *)
  Definition xr_tail (a : da T) : da T :=
    xr_slice (slice_bound (hd 0 (shp (dat a))) 1) (hd 0 (shp (dat a))) a.

  (** hya.drop(list(hya.coords)[0]) if it has coordinates, interpolation.py:494-497 *)
  Definition drop_first_coord (a : da T) : da T :=
    mkDa (dims a) (dat a) (tl (coords a)) (attrs a) (daname a).
  (** xr.DataArray(ndarray): default dimension names, interpolation.py:485-486 (1-D here) *)
  Definition da_of_nd (a : arr T) : da T := mkDa (map (fun _ => "dim_0"%string) (shp a)) a [] [] None.

  (** delta_pressure_hybrid with a numpy surface pressure, interpolation.py:489-491 and 502-505 *)
  Definition dph_np (ps hya hyb : arr T) (p0 : T) : res (arr T) :=
    guard (Nat.eqb (ndim hya) 0) raise ValueError ;;              (* AxisError, 490 *)
    let hya := expand12 hya in
    let hyb := expand12 hyb in
    do ta <- np_map2 nmul (np_init hyb) ps ;;
    do pa <- np_map2 nadd (amap (fun x => p0 * x) (np_init hya)) ta ;;
    do tb <- np_map2 nmul (np_tail hyb) ps ;;
    do pb <- np_map2 nadd (amap (fun x => p0 * x) (np_tail hya)) tb ;;
    do d <- np_map2 nsub pa pb ;;
    Ok (amap nabs d).

  (** delta_pressure_hybrid with a DataArray surface pressure, interpolation.py:492-517 *)
  Definition dph_xr (ps hya hyb : da T) (p0 : T) : res (da T) :=
    let hya := drop_first_coord hya in
    let hyb := drop_first_coord hyb in
    (* 499-500; both are at most 1-D here, so comparing the lists compares the sets *)
    let hyb := match dims hyb, dims hya with
               | b :: _, a :: _ => if dims_eqb (dims hya) (dims hyb) then hyb else xr_rename [(b, a)] hyb
               | _, _ => hyb end in
    guard (Nat.eqb (ndim (dat hya)) 0) raise IndexError ;;        (* hya[:-1] of a rank-0 array *)
    do ta <- xr_map2 nmul (xr_init hyb) ps ;;
    do pa <- xr_map2 nadd (xr_map (fun x => p0 * x) (xr_init hya)) ta ;;
    do tb <- xr_map2 nmul (xr_tail hyb) ps ;;
    do pb <- xr_map2 nadd (xr_map (fun x => p0 * x) (xr_tail hya)) tb ;;
    do d <- xr_map2 nsub pa pb ;;
    Ok (mkDa (dims d) (amap nabs (dat d)) (coords d)
          [("long_name", "pressure layer thickness"); ("units", "Pa")]%string (Some "dph"%string)).

  (** type(v) in {np.ndarray, xr.DataArray}: subclasses do not count, interpolation.py:462 *)
  Definition exact_type (v : val) : bool := match v with VNd _ | VDa _ => true | _ => false end.
  (** v.values, or v if it is an ndarray, interpolation.py:479-483 *)
  Definition vvalues (v : val) : arr T :=
    match v with VNd a => a | VDa d | VSubDa d => dat d | VOther => scalar nnan end.
  (** xr.DataArray(v) if v is an ndarray, interpolation.py:484-486 *)
  Definition vda (v : val) : da T :=
    match v with VNd a => da_of_nd a | VDa d | VSubDa d => d | VOther => da_of_nd (scalar nnan) end.

  (** delta_pressure_hybrid(ps, hya, hyb, p0), interpolation.py:424-517.  [p0_ok] is
      [type(p0) in {float, int}]. *)
  Definition delta_pressure_hybrid (ps hya hyb : val) (p0_ok : bool) (p0 : T) : res val :=
    guard negb (forallb exact_type [ps; hya; hyb]) raise TypeError ;;      (* 462 *)
    guard negb p0_ok raise TypeError ;;                                     (* 464 *)
    guard negb (Bool.eqb (is_nd hya) (is_nd hyb)) raise TypeError ;;        (* 466 *)
    guard negb (shape_eqb (vshape hya) (vshape hyb)) raise ValueError ;;    (* 472 *)
    guard (Nat.ltb 1 (List.length (vshape hya))) raise ValueError ;;        (* 475 *)
    match ps with
    | VNd p => do r <- dph_np p (vvalues hya) (vvalues hyb) p0 ;; Ok (VNd r)  (* 479-483, 489-491 *)
    | VDa p => do r <- dph_xr p (vda hya) (vda hyb) p0 ;; Ok (VDa r)          (* 484-486, 492-500 *)
    | _ => Err TypeError                                                    (* excluded by 462 *)
    end.
End Hybrid.
Arguments val T : clear implicits.
