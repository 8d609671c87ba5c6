(** Model of geocat/comp/stats.py: nmse (11-151).

    cf_xarray's recognition of latitude and longitude is an oracle.  xarray's weighted means are modelled after their
    source.  Labelled arithmetic is written pointwise on assignments of positions to dimension names ([env]).
    Simplifications: coordinates, attributes other than the description, and the name of the result are not modelled. *)
From Coq Require Import List Bool Arith ZArith String.
From Verif Require Import PyBase Num Arr Hybrid.
Import ListNotations.

Section Nmse.
  Context {T : Type} {N : Num T}.
  Local Open Scope num_scope.

  (** a Dataset: its coordinates and variables (each variable with the coordinates it carries) *)
  Record nds := mkNds { ds_coords : list (string * coordv T); ds_vars : list (string * da T) }.
  (** an argument: exactly a DataArray, exactly a Dataset, or anything else *)
  Inductive nin := NDa (d : da T) | NDs (s : nds) | NOther.
  (** result; for a Dataset each variable gets an extra dimension "variable" whose positions are listed *)
  Inductive nout := ODa (d : da T) | ODs (vs : list (string * da T)) (along : list string).

  (** x.coords, stats.py:66-69 *)
  Definition ncoords (x : nin) : list (string * coordv T) :=
    match x with NDa d => coords d | NDs s => ds_coords s | NOther => [] end.

  Variables (cf_lat cf_lon : nin -> list string).    (* names recognised by cf_xarray after guess_coord_axis *)

  (** observed.cf["latitude"]: KeyError unless exactly one name is recognised *)
  Definition cf_get (names : list string) (x : nin) : res (coordv T) :=
    match names with
    | [n] => oget KeyError (slookup n (ncoords x))
    | _ => Err KeyError
    end.

  (** np.diff(a, axis): AxisError is a ValueError *)
  Definition np_diff (ax : nat) (a : arr T) : res (arr T) :=
    if Nat.ltb ax (ndim a)
    then Ok (mkArr (upd (shp a) ax (nth ax (shp a) 0 - 1)%nat) (fun i => get a (upd i ax (S (nth ax i 0%nat))) - get a i))
    else Err ValueError.
  (** stats.py:83-94: differences along the first axis, or along the second if those are all zero *)
  Definition spacing_diff (a : arr T) : res (arr T) :=
    do d0 <- np_diff 0%nat a ;;
    if forallb (fun x => neqb x (ofZ 0)) (ravel d0) then np_diff 1%nat a else Ok d0.
  (** np.isclose(x, y) with the default tolerances *)
  Definition isclose (x y : T) : bool :=
    neqb x y || (negb (isnan (y - y)) && nle (nabs (x - y)) (dec 1 8 + dec 1 5 * nabs y)).
  (** np.allclose(d, d[0]) *)
  Definition allclose0 (d : arr T) : res bool :=
    guard (Nat.eqb (hd 0%nat (shp d)) 0) raise IndexError ;;
    Ok (forallb (fun i => isclose (get d i) (get d (0%nat :: tl i))) (all_idx (shp d))).

  (** np.deg2rad *)
  Definition deg2rad (x : T) : T := x * (npi / ofZ 180).
  (** Not in /repo: a coordinate's entry at an assignment of positions. *)
  Definition getc (c : coordv T) (e : env) : T := get (cdat c) (map e (cdims c)).

  (** weights before and after masking, stats.py:119-122 *)
  Definition wraw (lat : coordv T) (e : env) : T := ncos (deg2rad (getc lat e)).
  (** weights masked where either field is missing, stats.py:120-122 *)
  Definition wgt (lat : coordv T) (o m : da T) (e : env) : T :=
    if isnan (getn o e) || isnan (getn m e) then ofZ 0 else wraw lat e.
  (** x.where(weights != 0, 0), stats.py:123-124 *)
  Definition zeroed (w : env -> T) (x : env -> T) (e : env) : T := if neqb (w e) (ofZ 0) then ofZ 0 else x e.

  (** e with the spatial dimensions set to idx *)
  Definition over (sd : list string) (idx : list nat) (e : env) : env :=
    fun d => match sindex d sd with Some j => nth j idx 0%nat | None => e d end.
  Section Core.
    Variables (sd : list string) (ssz : list nat).
    (** Not in /repo: sum over the spatial dimensions. *)
    Definition sums (f : env -> T) (e : env) : T := nsum (map (fun idx => f (over sd idx e)) (all_idx ssz)).
    (** x.weighted(w).mean(dim=sd): sum of fillna(x, 0) * w over the sum of w where x is present; NaN for a zero sum *)
    Definition xmean (w : env -> T) (x : env -> T) (e : env) : T :=
      let s := sums (fun e => (if isnan (x e) then ofZ 0 else ofZ 1) * w e) e in
      sums (fun e => (if isnan (x e) then ofZ 0 else x e) * w e) e / (if neqb s (ofZ 0) then nnan else s).
    (** stats.py:123-143; wz masks the fields, ww weights the averages *)
    Definition metric (wz ww : env -> T) (o m : da T) (e : env) : T :=
      let O := zeroed wz (getn o) in
      let M := zeroed wz (getn m) in
      let ow := xmean ww O in
      xmean ww (fun e => sqr (M e - O e)) e / xmean ww (fun e => sqr (O e - ow e)) e.
  End Core.

  (** Not in /repo: dimensions left after reducing over sd. *)
  Definition keep_dims (sd ds : list string) : list string := filter (fun d => negb (smem d sd)) ds.
  (** Not in /repo: size of a dimension among several arrays. *)
  Definition sizeof (vs : list (da T)) (d : string) : nat :=
    match flat_map (fun v => match dsize v d with Some n => [n] | None => [] end) vs with n :: _ => n | [] => 0%nat end.
  (** Not in /repo: size of a dimension among several coordinates. *)
  Definition csize (cs : list (coordv T)) (d : string) : nat :=
    match flat_map (fun c => match sindex d (cdims c) with Some j => [nth j (shp (cdat c)) 0%nat] | None => [] end) cs with n :: _ => n | [] => 0%nat end.
  (** dimensions of the weights, stats.py:119-122 *)
  Definition wdims (lat : coordv T) (o m : da T) : list string := join_dims (cdims lat) (join_dims (dims o) (dims m)).
  (** xarray refuses weights with missing values *)
  Definition nan_weights (lat : coordv T) (o m : da T) : bool :=
    let ds := wdims lat o m in
    existsb (fun i => isnan (wgt lat o m (env_of ds i))) (all_idx (map (sizeof [o; m]) ds)).
  (** exact joins of .where: any disagreement of labels or sizes is a ValueError *)
  Definition compatible (o m : da T) : bool := labels_agree o m && sizes_agree o m.

  (** stats.py:146-149 *)
  Definition description : list (string * string) :=
    [("description", "Normalized Mean Squared Error (NMSE) between modeled and observed fields")]%string.
  (** stats.py:119-151 on DataArrays *)
  Definition nmse_da (lat : coordv T) (sd : list string) (ssz : list nat) (o m : da T) : res (da T) :=
    guard negb (compatible o m) raise ValueError ;;
    guard nan_weights lat o m raise ValueError ;;
    let ds := keep_dims sd (join_dims (dims m) (wdims lat o m)) in
    let w := wgt lat o m in
    Ok (mkDa ds (mkArr (map (sizeof [m; o]) ds) (fun i => metric sd ssz w w o m (env_of ds i))) [] description None).
  (** the same on Datasets: weights.to_dataarray() stacks the masked weights of all variables along "variable", and the
      averages of every variable are taken with each of them *)
  Definition nmse_ds (lat : coordv T) (sd : list string) (ssz : list nat) (os ms : list (string * da T)) : res (list (string * da T)) :=
    guard negb (same_names (map fst os) (map fst ms)) raise ValueError ;;
    do pairs <- mapM (fun p => do o <- oget ValueError (slookup (fst p) os) ;; Ok (fst p, (o, snd p))) ms ;;
    guard negb (forallb (fun p => compatible (fst (snd p)) (snd (snd p))) pairs) raise ValueError ;;
    guard existsb (fun p => nan_weights lat (fst (snd p)) (snd (snd p))) pairs raise ValueError ;;
    let W j := match slookup (nth j (map fst os) ""%string) pairs with
               | Some (o, m) => wgt lat o m | None => fun _ => nnan end in
    let alld := fold_left join_dims (map (fun p => wdims lat (fst (snd p)) (snd (snd p))) pairs) [] in
    let allv := map snd ms ++ map snd os in
    Ok (map (fun p => let '(o, m) := snd p in
          let own := keep_dims sd (join_dims (dims m) (wdims lat o m)) in
          let ds := own ++ "variable"%string :: filter (fun d => negb (smem d own)) (keep_dims sd alld) in
          (fst p, mkDa ds (mkArr (map (fun d => if String.eqb d "variable" then List.length os else sizeof allv d) ds)
                             (fun i => let e := env_of ds i in
                                       metric sd ssz (wgt lat o m) (W (e "variable"%string)) o m e)) [] description None)) pairs).

  (** nmse, stats.py:11-151 *)
  Definition nmse (o m : nin) : res nout :=
    match o, m with
    | NOther, _ | _, NOther => Err TypeError                                                      (* 56-57 *)
    | NDa _, NDs _ | NDs _, NDa _ => Err TypeError                                                (* 60-63 *)
    | _, _ =>
        let names x := map fst (ncoords x) in
        guard negb (forallb (fun n => smem n (names m)) (names o) && forallb (fun n => smem n (names o)) (names m)) raise KeyError ;; (* 66-69 *)
        guard match cf_lat o, cf_lon o, cf_lat m, cf_lon m with
              | _ :: _, _ :: _, _ :: _, _ :: _ => false | _, _, _, _ => true end raise ValueError ;;   (* 75-80 *)
        do lat <- cf_get (cf_lat o) o ;;                                                          (* 83 *)
        do dlat <- spacing_diff (cdat lat) ;;                                                     (* 83-88 *)
        do lon <- cf_get (cf_lon o) o ;;
        do dlon <- spacing_diff (cdat lon) ;;                                                     (* 89-94 *)
        do c1 <- allclose0 dlat ;;
        guard negb c1 raise ValueError ;;                                                         (* 95-98 *)
        do c2 <- allclose0 dlon ;;
        guard negb c2 raise ValueError ;;
        guard (Nat.ltb 1 (List.length (cf_lat o)) || Nat.ltb 1 (List.length (cf_lon o))) raise ValueError ;; (* 105-108, never reached *)
        let sd := join_dims (cdims lat) (cdims lon) in                                            (* 114-116 *)
        let ssz := map (csize [lat; lon]) sd in
        match o, m with
        | NDa o, NDa m => rmap ODa (nmse_da lat sd ssz o m)
        | NDs o, NDs m => rmap (fun l => ODs l (map fst (ds_vars o))) (nmse_ds lat sd ssz (ds_vars o) (ds_vars m))
        | _, _ => Err TypeError
        end
    end.
End Nmse.
Arguments nin T : clear implicits.
Arguments nout T : clear implicits.
Arguments nds T : clear implicits.
