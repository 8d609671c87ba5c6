(** Model of interp_multidim (geocat/comp/interpolation.py:70-151, 865-987). *)
From Coq Require Import List Bool Arith ZArith String.
From Verif Require Import PyBase Num Arr Hybrid Interp1d.
Import ListNotations.

Section InterpMulti.
  Context {T : Type} {N : Num T}.
  Local Open Scope num_scope.

  (** scipy's interp1d(kind='linear', bounds_error=False), which DataArray.interp applies along one
      dimension; [p] is the sorted list of (coordinate, value).  [fill] is the value outside the
      range, None for 'extrapolate'.  Not in /repo (trusted base). *)
  Definition interp1d (fill : option T) (p : list (T * T)) (x : T) : T :=
    let n := List.length p in
    let hi := Nat.min (Nat.max (searchsorted (map fst p) x) 1) (n - 1) in
    let lo := if Nat.eqb hi 0 then (n - 1)%nat else (hi - 1)%nat in
    let ph := nth hi p (nnan, nnan) in
    let pl := nth lo p (nnan, nnan) in
    let v := (snd ph - snd pl) / (fst ph - fst pl) * (x - fst pl) + snd pl in
    match fill with
    | Some f => if (x <? fst (nth 0 p (nnan, nnan))) || (fst (nth (n - 1) p (nnan, nnan)) <? x) then f else v
    | None => v
    end.
  (** scipy's interp1d(kind='nearest', bounds_error=False): the half-way points are searched from the
      left, so a tie goes to the lower coordinate.  Not in /repo (trusted base). *)
  Definition interp1d_nearest (fill : option T) (p : list (T * T)) (x : T) : T :=
    let n := List.length p in
    let xs := map fst p in
    let bds := map (fun q => snd q / ofZ 2 + fst q / ofZ 2) (combine xs (tl xs)) in
    let v := snd (nth (Nat.min (searchsorted bds x) (n - 1)) p (nnan, nnan)) in
    match fill with
    | Some f => if (x <? fst (nth 0 p (nnan, nnan))) || (fst (nth (n - 1) p (nnan, nnan)) <? x) then f else v
    | None => v
    end.

  (** the two methods interp_multidim documents for its [method] argument, interpolation.py:912-914 *)
  Inductive mdmethod := MdLinear | MdNearest.
  (** obj.interp along a dimension with coordinate [xs]: the object is sorted by it first *)
  Definition interp_dim (md : mdmethod) (fill : option T) (xs ys : list T) (x : T) : T :=
    match md with MdLinear => interp1d | MdNearest => interp1d_nearest end fill (isort (combine xs ys)) x.

  (** coordinate values of a dimension; 0, 1, ... without one *)
  Definition dim_values (d : da T) (x : string) (n : nat) : list T :=
    match index_labels d x with
    | Some l => l
    | None => map (fun k => ofZ (Z.of_nat k)) (seq 0 n)
    end.

  (** _pre_interp_multidim, first half (interpolation.py:100-105) *)
  Definition mask_missing (missing : option T) (d : da T) : da T :=
    match missing with
    | Some m => mkDa (dims d) (amap (fun v => nwhere (v =? m) nnan v) (dat d)) (coords d) [] None
    | None => d
    end.
  (** np.pad(l, (1, 1), mode='wrap') *)
  Definition pad_wrap {A} (d : A) (l : list A) : list A := last l d :: l ++ [hd d l].
  (** source column of padded column k of n *)
  Definition pad_src (n k : nat) : nat :=
    (if Nat.eqb k 0 then n - 1 else if Nat.eqb k (S n) then 0 else k - 1)%nat.
  (** _pre_interp_multidim, second half (interpolation.py:108-123).  np.pad with two pad widths needs
      a two-dimensional array. *)
  Definition add_cyclic (d : da T) : res (da T) :=
    match dims d, shp (dat d) with
    | [dy; dx], [ny; nx] =>
        guard Nat.eqb nx 0 raise ValueError ;;
        let xs := dim_values d dx nx in                  (* data_in.coords[dims[-1]], 111 *)
        let ys := dim_values d dy ny in                  (* data_in.coords[dims[-2]], 119 *)
        let p := pad_wrap nnan xs in
        let p := upd p 0 (nth 0 p nnan - ofZ 360) in
        let p := upd p (S nx) (nth (S nx) p nnan + ofZ 360) in
        Ok (mkDa [dy; dx]
              (mkArr [ny; nx + 2]%nat (fun i => get (dat d) [nth 0 i 0%nat; pad_src nx (nth 1 i 0%nat)]))
              [(dy, mkCoord [dy] (vec nnan ys)); (dx, mkCoord [dx] (vec nnan p))] [] None)
    | _, _ => Err ValueError
    end.

  (** Not in /repo (trusted base): interpolation of an array along its axis [j] with coordinate [xs] onto [out]. *)
  Definition interp_axis (md : mdmethod) (fill : option T) (xs out : list T) (j : nat) (a : arr T) : arr T :=
    mkArr (upd (shp a) j (List.length out))
      (fun i => interp_dim md fill xs (map (fun k => get a (upd i j k)) (seq 0 (nth j (shp a) 0%nat))) (nth (nth j i 0%nat) out nnan)).
  (** Not in /repo (trusted base): what .interp does to another coordinate of the object: a coordinate along an
      interpolated dimension is interpolated like the data, any other one is kept.  The coordinates of the model hold
      numbers; .interp reindexes or drops coordinates that hold no numbers. *)
  Definition interp_aux (md : mdmethod) (fill : option T) (dy dx : string) (ys xs yo xo : list T) (c : coordv T) : coordv T :=
    let a := match sindex dx (cdims c) with Some j => interp_axis md fill xs xo j (cdat c) | None => cdat c end in
    let b := match sindex dy (cdims c) with Some j => interp_axis md fill ys yo j a | None => a end in
    mkCoord (cdims c) b.
  (** data.interp({lon: xs, lat: ys}, method=md, kwargs={'fill_value': fill}): along the last
      dimension, then along the one before it.  Simplification: the undocumented interpolation methods
      are not modelled. *)
  Definition interp_last2 (md : mdmethod) (fill : option T) (d : da T) (lat_out lon_out : list T) : res (da T) :=
    let r := List.length (dims d) in
    let dy := nth (r - 2) (dims d) ""%string in
    let dx := nth (r - 1) (dims d) ""%string in
    let ny := nth (r - 2) (shp (dat d)) 0%nat in
    let nx := nth (r - 1) (shp (dat d)) 0%nat in
    guard Nat.eqb ny 0 || Nat.eqb nx 0 raise ValueError ;;
    let ys := dim_values d dy ny in
    let xs := dim_values d dx nx in
    Ok (mkDa (dims d)
          (mkArr (firstn (r - 2) (shp (dat d)) ++ [List.length lat_out; List.length lon_out])
             (fun i =>
                let q := firstn (r - 2) i in
                let y := nth (nth (r - 2) i 0%nat) lat_out nnan in
                let x := nth (nth (r - 1) i 0%nat) lon_out nnan in
                let row a := interp_dim md fill xs (map (fun c => get (dat d) (q ++ [a; c])) (seq 0 nx)) x in
                interp_dim md fill ys (map row (seq 0 ny)) y))
          ((dy, mkCoord [dy] (vec nnan lat_out)) :: (dx, mkCoord [dx] (vec nnan lon_out))
             :: map (fun p => (fst p, interp_aux md fill dy dx ys xs lat_out lon_out (snd p)))
                    (filter (fun p => negb (String.eqb (fst p) dy || String.eqb (fst p) dx)) (coords d)))
          (attrs d) (daname d)).

  (** _post_interp_multidim, interpolation.py:144-149 *)
  Definition fill_missing (missing : option T) (d : da T) : da T :=
    match missing with
    | Some m => mkDa (dims d) (amap (fun v => nwhere (isnan v) m v) (dat d)) (coords d) [] None
    | None => d
    end.

  (** interp_multidim, interpolation.py:865-987, for method='linear' and 'nearest' *)
  Definition interp_multidim (md : mdmethod) (data_in : val T) (lat_out lon_out : list T) (lat_in lon_in : option (list T))
      (cyclic : bool) (missing : option T) (fill : option T) : res (da T) :=
    do d <- match data_in with
            | VDa d | VSubDa d => Ok d
            | VNd a =>                                                                  (* 967-974 *)
                match lat_in, lon_in with
                | Some la, Some lo =>
                    guard negb (shape_eqb (shp a) [List.length la; List.length lo]) raise ValueError ;;
                    Ok (mkDa ["lat"; "lon"]%string a
                          [("lat"%string, mkCoord ["lat"%string] (vec nnan la));
                           ("lon"%string, mkCoord ["lon"%string] (vec nnan lo))] [] None)
                | _, _ => Err ValueError
                end
            | VOther => Err ValueError
            end ;;
    guard Nat.ltb (List.length (dims d)) 2 raise IndexError ;;                          (* dims[-2], 978 *)
    let d := mask_missing missing d in
    do d <- (if cyclic then add_cyclic d else Ok d) ;;                                  (* 981 *)
    do out <- interp_last2 md fill d lat_out lon_out ;;                                    (* 982 *)
    Ok (fill_missing missing out).                                                      (* 985 *)
End InterpMulti.
