(** Model of geocat/comp/stats.py: _generate_eofs_solver (210-238), eofunc_eofs (241-402), eofunc_pcs (405-523),
    eofunc (529-545), eofunc_ts (548-564).

    The solver class eofs.xarray.Eof is a dependency and an oracle: its constructor and methods are parameters. *)
From Coq Require Import List Bool Arith ZArith String DecimalString.
From Verif Require Import PyBase Num Arr Hybrid.
Import ListNotations.
Local Open Scope string_scope.

Section Eof.
  Context {T : Type} {N : Num T}.

  (** an attribute value: whatever the input carried, or an array computed by the solver *)
  Inductive av := AStr (s : string) | AArr (a : arr T).
  (** an attribute dictionary, stats.py:385-393 *)
  Definition attrl := list (string * av).
  (** a returned DataArray *)
  Record eout := mkEout { odims : list string; odat : arr T; ocoords : list (string * coordv T); oattrs : attrl }.

  (** xr.DataArray(data, dims=..., coords=..., attrs=...): the number of names must match the rank, and each
      coordinate must live on the given dimensions with matching sizes, else ValueError (the names may repeat) *)
  Definition coord_fits (ds : list string) (sh : list nat) (c : coordv T) : bool :=
    forallb (fun p => match sindex (fst p) ds with Some j => match nth_error sh j with Some n => Nat.eqb n (snd p) | None => false end | None => false end)
            (combine (cdims c) (shp (cdat c))).
  (** Not in /repo: the xr.DataArray constructor as called in stats.py:402 and 523. *)
  Definition mk_dataarray (d : arr T) (ds : list string) (cs : list (string * coordv T)) (ats : attrl) : res eout :=
    guard negb (Nat.eqb (List.length ds) (ndim d)) raise ValueError ;;
    guard negb (forallb (fun p => coord_fits ds (shp d) (snd p)) cs) raise ValueError ;;
    Ok (mkEout ds d cs ats).

  (** data.coords[name]: a dimension without coordinate yields its positions; any other missing name is a KeyError *)
  Definition get_coord (d : da T) (name : string) : res (coordv T) :=
    match slookup name (coords d) with
    | Some c => Ok c
    | None => match dsize d name with
              | Some n => Ok (mkCoord [name] (mkArr [n] (fun i => ofZ (Z.of_nat (hd 0 i)))))
              | None => Err KeyError
              end
    end.

  (** f"dim_{i}" *)
  Definition dimname (i : nat) : string := "dim_" ++ NilEmpty.string_of_uint (Nat.to_uint i).

  Variables (S W : Type)
    (Eof : da T -> option W -> bool -> Z -> res S)            (* Eof(data, weights, center, ddof) *)
    (s_eofs : S -> Z -> Z -> res (arr T))                     (* solver.eofs(neofs, eofscaling), shape (neofs, rest of data) *)
    (s_pcs : S -> Z -> Z -> res (arr T))                      (* solver.pcs(npcs, pcscaling), shape (time, npcs) *)
    (s_eig : S -> Z -> arr T) (s_north : S -> Z -> bool -> arr T) (s_total : S -> arr T) (s_frac : S -> Z -> arr T).

  (** data: an array or nested list (both go through np.asarray), or a DataArray *)
  Inductive ein := ENd (a : arr T) | EDa (d : da T).

  (** list.pop(index(k)); insert(0, k) on [0 .. n-1]; index raises ValueError when k is not in the list, as for k < 0 *)
  Definition front_axes (n : nat) (k : Z) : res (list nat) :=
    if ((0 <=? k) && (k <? Z.of_nat n))%Z
    then Ok (Z.to_nat k :: filter (fun i => negb (Nat.eqb i (Z.to_nat k))) (seq 0 n))
    else Err ValueError.

  (** _generate_eofs_solver, stats.py:210-238 *)
  Definition generate (data : ein) (time_dim : Z) (weights : option W) (center : bool) (ddof : Z) : res (da T * S) :=
    do data <- match data with
      | EDa d => Ok d
      | ENd a =>
          guard ((Z.of_nat (ndim a) <=? time_dim) || (time_dim <? - Z.of_nat (ndim a)))%Z raise ValueError ;;   (* 218-219 *)
          do axes <- front_axes (ndim a) time_dim ;;                                                            (* 222-225 *)
          let a' := transpose axes a in                                                                         (* 226 *)
          Ok (mkDa ("time" :: map dimname (seq 1 (ndim a' - 1))) a' [] [] None)                                 (* 228-234 *)
      end ;;
    do solver <- Eof data weights center ddof ;;                                                                (* 236 *)
    Ok (data, solver).

  (** eofunc_eofs, stats.py:372-402.  Second component: the attributes of the DataArray passed by the caller after the
      call -- with meta the attribute dictionary of the input is the one that is filled (387-393). *)
  Definition in_attrs (data : ein) : attrl :=
    match data with EDa d => map (fun p => (fst p, AStr (snd p))) (attrs d) | ENd _ => [] end.
  (** eofunc_eofs, stats.py:241-402 *)
  Definition eofunc_eofs (data : ein) (neofs time_dim eofscaling : Z) (weights : option W) (center : bool) (ddof : Z)
      (vfscaled meta : bool) : res eout * attrl :=
    match generate data time_dim weights center ddof with
    | Err e => (Err e, in_attrs data)
    | Ok (d, solver) =>
        if (neofs <=? 0)%Z then (Err ValueError, in_attrs data)                                                 (* 377-380 *)
        else match s_eofs solver neofs eofscaling with                                                          (* 382 *)
             | Err e => (Err e, in_attrs data)
             | Ok eofs =>
                 let base := if meta then in_attrs data else [] in                                              (* 385-388 *)
                 let ats := sset "varianceFraction" (AArr (s_frac solver neofs))
                            (sset "totalAnomalyVariance" (AArr (s_total solver))
                            (sset "northTest" (AArr (s_north solver neofs vfscaled))
                            (sset "eigenvalues" (AArr (s_eig solver neofs)) base))) in                          (* 390-393 *)
                 let keep i := negb (Z.eqb (Z.of_nat i) time_dim) in
                 let n := ndim (dat d) in
                 let r :=
                   if meta then
                     let ds := "eof" :: map (fun i => nth i (dims d) "") (filter keep (seq 0 n)) in             (* 396 *)
                     do cs <- match coords d with
                              | [] => Ok []
                              | _ => do td <- pyget (dims d) time_dim ;; Ok (sdel td (coords d))                (* 397 *)
                              end ;;
                     mk_dataarray eofs ds cs ats
                   else mk_dataarray eofs ("eof" :: map dimname (filter keep (seq 0 n))) [] ats in              (* 399-400 *)
                 (r, match data with EDa _ => if meta then ats else in_attrs data | ENd _ => [] end)
             end
    end.

  (** eofunc_pcs, stats.py:496-523; the solver is built a second time (506) *)
  Definition eofunc_pcs (data : ein) (npcs time_dim pcscaling : Z) (weights : option W) (center : bool) (ddof : Z)
      (meta : bool) : res eout :=
    do p <- generate data time_dim weights center ddof ;;
    let '(d, _) := p in
    guard (npcs <=? 0)%Z raise ValueError ;;                                                                    (* 501-504 *)
    do solver <- Eof d weights center ddof ;;                                                                   (* 506 *)
    do pcs <- s_pcs solver npcs pcscaling ;;                                                                    (* 508 *)
    let pcs := transpose (rev (seq 0 (ndim pcs))) pcs in                                                        (* 509 *)
    let ats := if meta then in_attrs data else [] in                                                            (* 512-515 *)
    do cs <- (if meta then do td <- pyget (dims d) time_dim ;; do c <- get_coord d td ;; Ok [("time", c)] else Ok []) ;; (* 517-521 *)
    mk_dataarray pcs ["pc"; "time"] cs ats.

  (** np.asarray(data) *)
  Definition asarr (data : ein) : arr T := match data with ENd a => a | EDa d => dat d end.
  (** eofunc, stats.py:529-545.  The condition (539) is true for every input, so the labels are always dropped. *)
  Definition eofunc (data : ein) (neval : Z) (time_dim : option Z) (meta : bool) : res eout :=
    let a := asarr data in
    let td := match time_dim with Some t => t | None => (Z.of_nat (ndim a) - 1)%Z end in
    fst (eofunc_eofs (ENd a) neval td 0 None true 1 false meta).
  (** eofunc_ts, stats.py:548-564; [evec0] is evec.shape[0] *)
  Definition eofunc_ts (data : ein) (evec0 : Z) (time_dim : option Z) (meta : bool) : res eout :=
    let a := asarr data in
    let td := match time_dim with Some t => t | None => (Z.of_nat (ndim a) - 1)%Z end in
    eofunc_pcs (ENd a) evec0 td 0 None true 1 meta.
End Eof.
Arguments ein T : clear implicits.
Arguments av T : clear implicits.
Arguments eout T : clear implicits.
Arguments attrl T : clear implicits.
