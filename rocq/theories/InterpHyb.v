(** Model of interp_hybrid_to_pressure and its helpers (geocat/comp/interpolation.py:163-350,
    520-763). *)
From Coq Require Import List Bool Arith ZArith String.
From Verif Require Import PyBase Num Arr Hybrid Interp1d.
Import ListNotations.

Section InterpHyb.
  Context {T : Type} {N : Num T}.
  Local Open Scope num_scope.

  Definition R_d : T := dec 28704 2.                                  (* 204-206, 262-264 *)
  (** interpolation.py:205, 263 *)
  Definition g_inv : T := ofZ 1 / dec 980616 5.
  (** interpolation.py:206, 264 *)
  Definition lapse_alpha : T := dec 65 4 * R_d * g_inv.

  (** _temp_extrapolate at one point, interpolation.py:204-227 *)
  Definition temp_extrapolate (t_bot lev p_sfc ps phi_sfc : T) : T :=
    let tstar := t_bot * (ofZ 1 + lapse_alpha * (ps / p_sfc - ofZ 1)) in
    let hgt := phi_sfc * g_inv in
    let t0 := tstar + dec 65 4 * hgt in
    let tplat := nmin (ofZ 298) t0 in
    let tprime0 := nwhere ((ofZ 2000 <=? hgt) && (hgt <=? ofZ 2500))
                     (dec 2 3 * ((ofZ 2500 - hgt) * t0 + (hgt - ofZ 2000) * tplat)) nnan in
    let tprime0 := nwhere (ofZ 2500 <? hgt) tplat tprime0 in
    let alnp := nwhere (hgt <? ofZ 2000) (lapse_alpha * nln (lev / ps))
                  (R_d * (tprime0 - tstar) / phi_sfc * nln (lev / ps)) in
    let alnp := nwhere (tprime0 <? tstar) (ofZ 0) alnp in
    tstar * (ofZ 1 + alnp + dec 5 1 * sqr alnp + ofZ 1 / ofZ 6 * cube alnp).

  (** _geo_height_extrapolate at one point, interpolation.py:262-282 *)
  Definition geo_height_extrapolate (t_bot lev p_sfc ps phi_sfc : T) : T :=
    let tstar := t_bot * (ofZ 1 + lapse_alpha * (ps / p_sfc - ofZ 1)) in
    let hgt := phi_sfc * g_inv in
    let t0 := tstar + dec 65 4 * hgt in
    let c := dec 2905 1 in
    let alph := nwhere ((tstar <=? c) && (c <? t0)) (R_d / phi_sfc * (c - tstar)) lapse_alpha in
    let alph := nwhere ((c <? tstar) && (c <? t0)) (ofZ 0) alph in
    let tstar := nwhere ((c <? tstar) && (c <? t0)) (dec 5 1 * (c + tstar)) tstar in
    let tstar := nwhere (tstar <? ofZ 255) (dec 5 1 * (tstar + ofZ 255)) tstar in
    let alnp := alph * nln (lev / ps) in
    hgt - R_d * tstar * g_inv * nln (lev / ps) * (ofZ 1 + dec 5 1 * alnp + ofZ 1 / ofZ 6 * sqr alnp).

  (** ** dask.array.map_blocks with drop_axis = new_axis = [ax] and concatenate=True: each block of
      the horizontal chunk grid is passed with its level chunks joined (interpolation.py:701-722) *)
  (** start and size of the chunk that contains position i *)
  Fixpoint chunk_of (cs : list nat) (start i : nat) : nat * nat :=
    match cs with
    | [] => (start, 0%nat)
    | c :: t => if Nat.ltb i (start + c)%nat then (start, c) else chunk_of t (start + c)%nat i
    end.
  (** Not in /repo: start and size of every chunk. *)
  Fixpoint chunk_starts (cs : list nat) (start : nat) : list (nat * nat) :=
    match cs with [] => [] | c :: t => (start, c) :: chunk_starts t (start + c)%nat end.
  (** the sub-array at offsets [b] (one (start, size) per axis) *)
  Definition block (b : list (nat * nat)) (a : arr T) : arr T :=
    mkArr (map snd b) (fun i => get a (map (fun p => (fst (fst p) + snd p)%nat) (combine b i))).
  (** Not in /repo: itertools.product. *)
  Fixpoint product {A} (l : list (list A)) : list (list A) :=
    match l with [] => [[]] | x :: t => flat_map (fun a => map (cons a) (product t)) x end.
  (** chunk grid with the level axis joined *)
  Definition join_axis (ax : nat) (cs : list (list nat)) : list (list nat) :=
    upd cs ax [fold_right Nat.add 0%nat (nth ax cs [])].
  (** Not in /repo: dask.array.map_blocks as called in interpolation.py:701-722. *)
  Definition map_blocks (f : arr T -> arr T -> res (arr T)) (cs : list (list nat)) (ax m : nat)
      (xp var : arr T) : res (arr T) :=
    let g := join_axis ax cs in
    let at_block b := f (block b xp) (block b var) in
    do _ <- mapM at_block (product (map (fun c => chunk_starts c 0) g)) ;;
    Ok (mkArr (upd (shp var) ax m)
          (fun i => let i0 := upd i ax 0%nat in
                    let b := map (fun p => chunk_of (fst p) 0%nat (snd p)) (combine g i0) in
                    let off := upd (map (fun p => (snd p - fst (fst p))%nat) (combine b i0)) ax (nth ax i 0%nat) in
                    match at_block b with Ok r => get r off | Err _ => nnan end)).

  (** np.argmax over a level coordinate, NaN skipped (xarray's argmax) *)
  Fixpoint argmax_from (k best : nat) (bv : T) (l : list T) : nat :=
    match l with
    | [] => best
    | x :: t => if bv <? x then argmax_from (S k) k x t else argmax_from (S k) best bv t
    end.
  (** Not in /repo: argmax skipping NaN; none if all are NaN. *)
  Fixpoint nanargmax_from (k : nat) (l : list T) : option nat :=
    match l with
    | [] => None
    | x :: t => if isnan x then nanargmax_from (S k) t else Some (argmax_from (S k) k x t)
    end.
  (** pressure[lev_dim].argmax(): the coordinate if there is one, else 0..n-1 (interpolation.py:330) *)
  Definition sfc_index (pressure : da T) (lev : string) : res nat :=
    match index_labels pressure lev with
    | Some l => oget ValueError (nanargmax_from 0 l)
    | None => match dsize pressure lev with
              | Some (S n) => Ok n
              | _ => Err ValueError
              end
    end.

  (** operand [d] broadcasts against [out] without changing its dimensions or labels *)
  Definition fits (d out : da T) : bool :=
    forallb (fun x => smem x (dims out)) (dims d) && sizes_agree d out && labels_agree d out.

  (** Not in /repo: an assignment changed at one name. *)
  Definition set_env (e : env) (x : string) (k : nat) : env := fun d => if String.eqb d x then k else e d.

  (** _vertical_remap_extrap, interpolation.py:285-350.  Simplification: a surface field that does
      not broadcast onto the output (extra dimension, different labels) is a ValueError; xarray
      would add the dimension, or use the common labels if those are the output's. *)
  Definition vertical_remap_extrap (lev : string) (data output pressure ps : da T)
      (variable : option string) (t_bot phi_sfc : option (da T)) : res (da T) :=
    do k <- sfc_index pressure lev ;;
    do plev <- oget AttributeError (slookup "plev"%string (coords output)) ;;   (* output.plev *)
    let fields := ps :: (match variable with
                         | Some v => if String.eqb v "other" then [] else
                             match t_bot, phi_sfc with Some t, Some p => [t; p] | _, _ => [] end
                         | None => [] end) in
    guard negb (forallb (fun d => fits d output) fields) raise ValueError ;;
    let value (e : env) : T :=
      let p_sfc := getn pressure (set_env e lev k) in
      let l := get (cdat plev) [e "plev"%string] in
      let keep := l <=? p_sfc in
      let old := getn output e in
      match variable, t_bot, phi_sfc with
      | Some v, Some t, Some phi =>
          if String.eqb v "temperature"
          then nwhere keep old (temp_extrapolate (getn t e) l p_sfc (getn ps e) (getn phi e))
          else if String.eqb v "geopotential"
          then nwhere keep old (geo_height_extrapolate (getn t e) l p_sfc (getn ps e) (getn phi e))
          else nwhere keep old (getn data (set_env e lev k))
      | _, _, _ => nwhere keep old (getn data (set_env e lev k))
      end in
    Ok (mkDa (dims output) (mkArr (shp (dat output)) (fun i => value (env_of (dims output) i)))
          (coords output) (attrs output) (daname output)).

  (** arguments of interp_hybrid_to_pressure that are not arrays.  [cf_name] is the outcome of
      data.cf.guess_coord_axis().cf["vertical"].name (None: it raised); [chunks] the dask chunks of
      data; [other_dask] whether ps, hyam, hybm or new_levels is a dask array; [mb_ok] whether
      xr.map_blocks returns without raising. *)
  Record ihp_args := mkIhp {
    a_method : string; a_lev_dim : option string; a_extrapolate : bool; a_variable : option string;
    a_t_bot : option (da T); a_phi_sfc : option (da T);
    cf_name : option string; chunks : option (list (list nat)); other_dask : bool; mb_ok : bool }.

  (** all four of one exact type, interpolation.py:629 *)
  Definition one_type (a b c d : val T) : bool :=
    forallb (fun v => match v with VDa _ => true | _ => false end) [a; b; c; d]
    || forallb (fun v => match v with VSubDa _ => true | _ => false end) [a; b; c; d].

  (** out-of-table variable names, interpolation.py:645 *)
  Definition var_known (v : option string) : bool :=
    match v with
    | None => true
    | Some v => existsb (String.eqb v) ["geopotential"; "temperature"; "other"]%string
    end.
  (** interpolation.py:638 *)
  Definition var_needs_fields (v : option string) : bool :=
    match v with
    | None => false
    | Some v => existsb (String.eqb v) ["geopotential"; "temperature"]%string
    end.
  (** Not in /repo: [x is None]. *)
  Definition is_none {A} (o : option A) : bool := match o with None => true | Some _ => false end.

  (** the checks made before anything is computed, interpolation.py:629-665; returns the level
      dimension's name and the method *)
  Definition ihp_checks (data ps hyam hybm : val T) (a : ihp_args) : res (string * imethod) :=
    guard negb (one_type data ps hyam hybm) raise TypeError ;;                              (* 629 *)
    guard a_extrapolate a && is_none (a_variable a) raise ValueError ;;                     (* 635 *)
    guard var_needs_fields (a_variable a) && (is_none (a_t_bot a) || is_none (a_phi_sfc a)) raise ValueError ;; (* 638 *)
    guard negb (var_known (a_variable a)) raise ValueError ;;                               (* 645 *)
    do lev <- match a_lev_dim a with Some l => Ok l | None => oget ValueError (cf_name a) end ;; (* 653 *)
    do m <- func_interpolate (a_method a) ;;                                                (* 663 *)
    Ok (lev, m).

  (** interp_hybrid_to_pressure's output coordinates, interpolation.py:744-751 *)
  Definition plev_coord (levels : list T) : coordv T := mkCoord ["plev"%string] (vec nnan levels).
  (** interpolation.py:744-751 *)
  Definition out_coords (lev : string) (levels : list T) (cs : list (string * coordv T)) : list (string * coordv T) :=
    fold_left (fun acc p => if String.eqb (fst p) lev then sset "plev"%string (plev_coord levels) acc
                            else sset (fst p) (snd p) acc) cs [].
  (** a coordinate can be assigned to an array with dimensions [ds] and sizes [s] *)
  Definition coord_ok (ds : list string) (s : list nat) (c : coordv T) : bool :=
    forallb (fun p => match sindex (fst p) ds with
                      | Some j => Nat.eqb (nth j s 0%nat) (snd p)
                      | None => false end) (combine (cdims c) (shp (cdat c))).

  (** interp_hybrid_to_pressure, interpolation.py:520-763, on DataArrays that passed the checks.
      pint handling (732-735, 758-761) is not modelled. *)
  Definition ihp_compute (lev : string) (m : imethod) (data ps hyam hybm : da T) (levels : list T) (p0 : T)
      (a : ihp_args) : res (da T) :=
    do ax <- oget ValueError (sindex lev (dims data)) ;;                                    (* 667 *)
    do pr <- pressure_at_hybrid_levels (VDa ps) (VDa hyam) (VDa hybm) p0 ;;                 (* 670 *)
    match snd pr with
    | VDa pr0 =>
        do pressure <- xr_transpose (dims data) pr0 ;;                                      (* 673 *)
        let mb_done := match chunks a with
                       | Some cs => Nat.eqb (List.length (nth ax cs [])) 1 && mb_ok a
                       | None => false end in
        let in_dask := negb (is_none (chunks a)) || other_dask a in
        do out <- (if in_dask && negb mb_done then
                     match chunks a with
                     | None => Err TypeError                                (* list(None), 708 *)
                     | Some cs =>
                         guard negb (shape_eqb (shp (dat pressure)) (shp (dat data))) raise ValueError ;; (* 705 *)
                         map_blocks (fun xp v => interp_nd m levels xp v ax) cs ax (List.length levels)
                           (dat pressure) (dat data)
                     end
                   else interp_nd m levels (dat pressure) (dat data) ax) ;;
        let ds := upd (dims data) ax "plev"%string in
        guard negb (if in_dec string_dec "plev"%string (dims data) then String.eqb lev "plev" else true)
          raise ValueError ;;                                                               (* 742 *)
        let cs := out_coords lev levels (coords data) in
        guard negb (forallb (fun p => coord_ok ds (shp out) (snd p)) cs) raise ValueError ;; (* 751 *)
        let output := mkDa ds out cs (attrs data) (daname data) in
        if a_extrapolate a
        then vertical_remap_extrap lev data output pressure ps (a_variable a) (a_t_bot a) (a_phi_sfc a)
        else Ok output
    | _ => Err TypeError                                                    (* not reached: inputs are DataArrays *)
    end.
  (** interp_hybrid_to_pressure, interpolation.py:520-763 *)
  Definition interp_hybrid_to_pressure (data ps hyam hybm : val T) (levels : list T) (p0 : T) (a : ihp_args)
      : res (da T) :=
    do lm <- ihp_checks data ps hyam hybm a ;;
    match data, ps, hyam, hybm with
    | (VDa d | VSubDa d), (VDa p | VSubDa p), (VDa ya | VSubDa ya), (VDa yb | VSubDa yb) =>
        ihp_compute (fst lm) (snd lm) d p ya yb levels p0 a
    | _, _, _, _ => Err TypeError                                           (* excluded by the checks *)
    end.
End InterpHyb.
Arguments ihp_args T : clear implicits.
