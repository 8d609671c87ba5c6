(** Model of geocat/comp/spherical.py (decomposition, recomposition, scale_voronoi).

    Complex numbers are pairs (real part, imaginary part).  The scipy calls are oracles: [Y n m p a] is
    scipy.special.sph_harm_y(n, m, p, a) with [p] the polar angle and [a] the azimuth
    (spherical.py:12-20; for scipy before 1.15 the wrapper at 15-16 gives the same argument order), and
    [areas] is SphericalVoronoi(points, radius=1.0, center=0).calculate_areas() (spherical.py:239-243). *)
From Coq Require Import List Bool Arith ZArith String.
From Verif Require Import PyBase Num Arr Hybrid.
Import ListNotations.

Section Spherical.
  Context {T : Type} {N : Num T}.
  Local Open Scope num_scope.
  Notation cpx := (T * T)%type.

  (** numpy complex arithmetic.  Simplification: the textbook formulas, which numpy's scaled division
      equals up to rounding. *)
  Definition creal (x : T) : cpx := (x, ofZ 0).
  (** Not in /repo: complex multiplication. *)
  Definition cmul (u v : cpx) : cpx :=
    (fst u * fst v - snd u * snd v, fst u * snd v + snd u * fst v).
  (** Not in /repo: complex division. *)
  Definition cdiv (u v : cpx) : cpx :=
    let q := fst v * fst v + snd v * snd v in
    ((fst u * fst v + snd u * snd v) / q, (snd u * fst v - fst u * snd v) / q).
  (** np.sum of a complex array *)
  Definition csum (l : list cpx) : cpx := (nsum (map fst l), nsum (map snd l)).
  (** xarray's sum (skipna defaults to True for complex data): entries with a NaN part count as 0 *)
  Definition cisnan (u : cpx) : bool := isnan (fst u) || isnan (snd u).
  (** Not in /repo: DataArray.sum of complex data. *)
  Definition cnansum (l : list cpx) : cpx := csum (map (fun u => if cisnan u then creal (ofZ 0) else u) l).

  (** the argument and result kinds: ndarray or DataArray of complex numbers *)
  Inductive zval := ZNd (a : arr cpx) | ZDa (d : da cpx).

  (** mlist/nlist, spherical.py:72-85 and 168-173.  Simplification: max_harm is a natural number (a
      negative one makes the lists empty). *)
  Definition harmonic_pairs (max_harm : nat) : list (nat * nat) :=
    flat_map (fun n => map (fun m => (n, m)) (seq 0 (n + 1))) (seq 0 (max_harm + 1)).
  (** scale_mul, spherical.py:77-85 *)
  Definition scale_mul (max_harm : nat) : list Z :=
    map (fun nm => if Nat.eqb (snd nm) 0 then 1%Z else 2%Z) (harmonic_pairs max_harm).

  (** np.expand_dims(a, axis=0), spherical.py:100-107, 184-185 *)
  Definition expand0 {A} (a : arr A) : arr A := mkArr (1%nat :: shp a) (fun i => get a (tl i)).

  Variable Y : nat -> nat -> T -> T -> cpx.
  Variable areas : list (T * T * T) -> res (list T).

  (** sph_harm_y(n, m, polar, azimuth) with n, m of shape (H, 1, 1), spherical.py:86-87, 115, 175-176,
      190: numpy broadcasting of all four arguments *)
  Definition harmonics (max_harm : nat) (polar azimuth : arr T) : res (arr cpx) :=
    do pa <- np_map2 pair polar azimuth ;;
    np_map2 (fun nm p => Y (fst nm) (snd nm) (fst p) (snd p))
            (expand12 (vec (0%nat, 0%nat) (harmonic_pairs max_harm))) pa.

  (** scale_val, spherical.py:68-70: 1 / (total * sph_harm_y(0, 0, 0, 0)**2) *)
  Definition scale_val (total : T) : cpx :=
    let y00 := Y 0 0 (ofZ 0) (ofZ 0) in
    cdiv (creal (ofZ 1)) (cmul (creal total) (cmul y00 y00)).
  (** scale_res = scale_mul * scale_val, spherical.py:88-89 *)
  Definition scale_res (max_harm : nat) (total : T) : arr cpx :=
    vec (creal (ofZ 0)) (map (fun z => cmul (creal (ofZ z)) (scale_val total)) (scale_mul max_harm)).

  (** np.sum(_, axis=(1, 2)), spherical.py:110 and 123, of an array of at least three axes *)
  Definition sum12 (x : arr cpx) : arr cpx :=
    let s := tl (shp x) in
    mkArr (hd 0%nat (shp x) :: skipn 2 s)
      (fun i => csum (map (fun jk => get x (hd 0%nat i :: jk ++ tl i)) (all_idx (firstn 2 s)))).

  (** Not in /repo: the number of axes of an argument. *)
  Definition rank (v : val T) : nat := List.length (vshape v).

  (** decomposition for ndarray data, spherical.py:63-91, 105-115, 123-125.  theta and phi may be
      DataArrays: np.expand_dims turns them into ndarrays.  A DataArray scale makes scale_dat a 2-D
      DataArray, which xarray refuses to multiply with the ndarray of harmonics, which has at least
      three axes. *)
  Definition decomposition_np (data : arr T) (scale theta phi : val T) (max_harm : nat) : res (arr cpx) :=
    match scale with
    | VNd w =>
        do sd <- np_map2 nmul data w ;;
        do h <- harmonics max_harm (expand0 (vvalues phi)) (expand0 (vvalues theta)) ;;
        do p <- np_map2 cmul (amap creal sd) h ;;
        let total := nsum (ravel w) in
        np_map2 cmul (sum12 p) (scale_res max_harm total)
    | _ => Err ValueError
    end.

  (** xr.DataArray(x, dims=dims), spherical.py:96-98: the rank must fit; coordinates of a DataArray x
      are kept, so they must fit the new dimension names and sizes *)
  Definition relabel_ok (x : val T) (ds : list string) : bool :=
    Nat.eqb (List.length (vshape x)) (List.length ds) &&
    match x with
    | VDa d | VSubDa d =>
        forallb (fun c => forallb (fun p : string * nat =>
                    match sindex (fst p) ds with
                    | Some j => Nat.eqb (nth j (vshape x) 0%nat) (snd p)
                    | None => false end) (combine (cdims (snd c)) (shp (cdat (snd c))))) (coords d)
    | _ => true
    end.

  (** np.multiply(data, scale) for a DataArray data, spherical.py:90.  An ndarray scale is broadcast by
      position and may not change the shape. *)
  Definition scaled_xr (data : da T) (scale : val T) : res (da T) :=
    match scale with
    | VNd w =>
        do p <- np_map2 nmul (dat data) w ;;
        guard negb (shape_eqb (shp p) (shp (dat data))) raise ValueError ;;
        Ok (mkDa (dims data) p (coords data) [] (daname data))
    | VDa s | VSubDa s => xr_map2 nmul data s
    | VOther => Err TypeError
    end.

  (** decomposition for DataArray data, spherical.py:63-104, 113-125.  [old] is old_scipy.
      Simplifications: the dimension names of data are distinct and not 'harmonic'; scalar coordinates
      of the result are not tracked; data of more than two dimensions of equal sizes that gets to the sum at 123, and for
      old scipy weights with a dimension that data lacks, are outside the model (answered by BareException). *)
  Definition decomposition_xr (old : bool) (data : da T) (scale theta phi : val T) (max_harm : nat)
    : res (da cpx) :=
    let total := match scale with VNd w => nsum (ravel w) | v => nansum (ravel (vvalues v)) end in
    do sd <- scaled_xr data scale ;;                                                          (* 90 *)
    guard negb (Nat.eqb (ndim (dat sd)) (ndim (dat data))) raise (if old then BareException else ValueError) ;;  (* 97 *)
    guard (negb old && negb (relabel_ok theta (dims data) && relabel_ok phi (dims data))) raise ValueError ;;    (* 98-99 *)
    do h <- (if old then harmonics max_harm (expand0 (vvalues phi)) (expand0 (vvalues theta))
             else harmonics max_harm (vvalues phi) (vvalues theta)) ;;                        (* 115 *)
    guard Nat.ltb (List.length (dims data)) 2 raise IndexError ;;                             (* data.dims[1], 120 *)
    guard negb (shape_eqb (tl (shp h)) (firstn 2 (shp (dat sd)))) raise ValueError ;;  (* number of axes, 119; sizes of shared dimensions, 123 *)
    guard Nat.ltb 2 (ndim (dat data)) raise BareException ;;
    (* product has dimensions (lat, lon, harmonic); summed over the first two, skipping NaN *)
    let sums := mkArr [hd 0%nat (shp h)]
                  (fun i => cnansum (map (fun jk => cmul (creal (get (dat sd) jk)) (get h (hd 0%nat i :: jk)))
                                         (all_idx (tl (shp h))))) in
    do r <- np_map2 cmul sums (scale_res max_harm total) ;;
    Ok (mkDa ["harmonic"%string] r [] [] None).

  (** decomposition(data, scale, theta, phi, max_harm), spherical.py:26-125.  np.sum(scale, axis=(0, 1))
      (69) raises numpy.AxisError, a ValueError, for weights of fewer than two axes; weights of more than
      two axes are outside the model (answered by BareException). *)
  Definition decomposition (old : bool) (data scale theta phi : val T) (max_harm : nat) : res zval :=
    guard Nat.ltb (rank scale) 2 raise ValueError ;;
    guard Nat.ltb 2 (rank scale) raise BareException ;;
    match data with
    | VNd d => do r <- decomposition_np d scale theta phi max_harm ;; Ok (ZNd r)
    | VDa d => do r <- decomposition_xr old d scale theta phi max_harm ;; Ok (ZDa r)
    | _ => Err TypeError                     (* neither kind: not supported *)
    end.

  (** np.sum(_, axis=0) of an array of shape (H, a, b), plain or skipping NaN *)
  Definition sum0 (sum : list T -> T) (x : arr T) : arr T :=
    mkArr (tl (shp x)) (fun i => sum (map (fun h => get x (h :: i)) (seq 0 (hd 0%nat (shp x))))).

  (** the last lines of recomposition, spherical.py:198-202; [mult] is np.multiply on the kinds at hand *)
  Definition recompose (sum : list T -> T) (h c : arr cpx) : res (arr T) :=
    do re <- np_map2 nmul (amap fst h) (amap fst c) ;;
    do im <- np_map2 nmul (amap snd h) (amap snd c) ;;
    np_map2 nadd (sum0 sum re) (sum0 sum im).

  (** recomposition(data, theta, phi, max_harm), spherical.py:128-202.  np.expand_dims(data, axis=(1, 2))
      (183) raises numpy.AxisError, a ValueError, for a 0-D data.  A DataArray data of two or more
      dimensions is outside the model (answered by BareException). *)
  Definition recomposition (old : bool) (data : zval) (theta phi : val T) (max_harm : nat) : res (val T) :=
    match data with
    | ZNd a =>
        guard Nat.eqb (ndim a) 0 raise ValueError ;;
        do h <- harmonics max_harm (expand0 (vvalues phi)) (expand0 (vvalues theta)) ;;
        do r <- recompose nsum h (expand12 a) ;;
        Ok (VNd r)
    | ZDa d =>
        guard Nat.eqb (ndim (dat d)) 0 raise IndexError ;;                  (* data.dims[0], 165 *)
        guard Nat.ltb 1 (ndim (dat d)) raise BareException ;;
        match theta with
        | VDa th | VSubDa th =>
            guard (negb old && smem "harmonic" (dims th)) raise ValueError ;;   (* 180 *)
            guard (negb old && negb (is_xr phi)) raise AttributeError ;;        (* phi.expand_dims, 181 *)
            guard (negb old && match phi with VDa p | VSubDa p => smem "harmonic" (dims p) | _ => false end) raise ValueError ;;
            do h <- harmonics max_harm (expand0 (vvalues phi)) (expand0 (vvalues theta)) ;;   (* 190 *)
            guard Nat.ltb (List.length (dims th)) 2 raise IndexError ;;         (* theta_dims[1], 195 *)
            guard negb (Nat.eqb (ndim h) 3) raise ValueError ;;                 (* 194 *)
            guard smem "harmonic" (firstn 2 (dims th)) raise ValueError ;;      (* duplicate names, 194 *)
            (* new scipy: multiplication by name needs equal lengths (198); old scipy: data is an
               ndarray of shape (L, 1, 1), which may not change the shape of the harmonics *)
            guard negb (Nat.eqb (hd 0%nat (shp h)) (hd 0%nat (shp (dat d)))
                        || old && Nat.eqb (hd 0%nat (shp (dat d))) 1) raise ValueError ;;
            do r <- recompose nansum h (expand12 (dat d)) ;;
            Ok (VDa (mkDa (firstn 2 (dims th)) r [] [] None))
        | _ => Err AttributeError                                           (* theta.dims, 166 *)
        end
    end.

  (** theta.reshape((theta.shape[0] * theta.shape[1],)), spherical.py:230-231 *)
  Definition flatten2 (a : arr T) : res (arr T) :=
    guard Nat.ltb (ndim a) 2 raise IndexError ;;
    guard negb (Nat.eqb (size (shp a)) (nth 0 (shp a) 0 * nth 1 (shp a) 0)) raise ValueError ;;
    Ok (vec nnan (ravel a)).

  (** scale_voronoi(theta, phi), spherical.py:205-249.  The kind check at 246 comes after theta was
      replaced by an ndarray at 227, so the result is always an ndarray. *)
  Definition scale_voronoi (theta phi : val T) : res (val T) :=
    do tp <- match theta, phi with
             | VDa t, (VDa p | VSubDa p) => do x <- flatten2 (dat t) ;; do y <- flatten2 (dat p) ;; Ok (dat t, x, y)   (* 226-231 *)
             | VDa t, _ => Err AttributeError                             (* phi.to_numpy *)
             | VNd t, VNd p => do x <- flatten2 t ;; do y <- flatten2 p ;; Ok (t, x, y)
             | VNd t, _ => do x <- flatten2 t ;; Err AttributeError       (* phi.reshape, 231 *)
             | _, _ => Err AttributeError                                 (* theta.reshape, 230 *)
             end ;;
    let '(t, t1, p1) := tp in
    do x <- np_map2 nmul (amap nsin p1) (amap nsin t1) ;;                 (* 234 *)
    do y <- np_map2 nmul (amap nsin p1) (amap ncos t1) ;;
    guard negb (shape_eqb (shp x) (shp p1)) raise ValueError ;;           (* assignment into (len, 3) *)
    do a <- areas (combine (combine (ravel x) (ravel y)) (ravel (amap ncos p1))) ;;
    guard negb (Nat.eqb (List.length a) (size (shp t))) raise ValueError ;; (* reshape, 244 *)
    Ok (VNd (of_flat nnan (shp t) a)).
End Spherical.
Arguments zval T : clear implicits.
