(** Model of interp_sigma_to_hybrid (geocat/comp/interpolation.py:154-160, 766-862). *)
From Coq Require Import List Bool Arith ZArith String.
From Verif Require Import PyBase Num Arr Hybrid Interp1d InterpHyb.
Import ListNotations.

(** Not in /repo: a list without entry j. *)
Definition remove_at {A} (j : nat) (l : list A) : list A := firstn j l ++ skipn (S j) l.
(** sizes of the named dimensions *)
Definition sizes_of {T} (a : da T) (ds : list string) : list nat :=
  map (fun d => match dsize a d with Some n => n | None => 0%nat end) ds.

Section InterpSigma.
  Context {T : Type} {N : Num T}.
  Local Open Scope num_scope.

  (** _sigma_from_hybrid, interpolation.py:154-160: hya * p0 / psfc + hyb *)
  Definition sigma_from_hybrid (psfc hya hyb : da T) (p0 : T) : res (da T) :=
    do t <- xr_map2 ndiv (xr_map (fun v => v * p0) hya) psfc ;;
    xr_map2 nadd t hyb.

  (** column [q] (position in dimensions [ds]) of [a] along dimension [l] of size [n] *)
  Definition col_by_name (a : da T) (ds : list string) (q : list nat) (l : string) (n : nat) : list T :=
    map (fun k => getn a (set_env (env_of ds q) l k)) (seq 0 n).

  (** interp_sigma_to_hybrid, interpolation.py:766-862.  [sig] is sig_coords.data (one-dimensional);
      [cf_name] the outcome of data.cf["vertical"].name.  The one-dimensional branch (849-856) is the
      same computation with a single column, so both are one here.  stack/unstack keep the order of
      the positions, so columns are numbered in C order of data's other dimensions; zip stops at the
      shorter operand and the columns it does not reach keep the data they were copied from.
      Simplifications: a sigma array without exactly one dimension beside data's other ones is a
      ValueError.  This is the interpolated values with the coordinate hlev; the other coordinates and
      the conversion on assignment into the copy (842, 853) are in InterpSigmaFull.v. *)
  Definition interp_sigma_to_hybrid (data : da T) (sig : list T) (ps hyam hybm : da T) (p0 : T)
      (lev_dim cf_name : option string) (method : string) : res (da T) :=
    do lev <- match lev_dim with Some l => Ok l | None => oget ValueError cf_name end ;;    (* 815 *)
    do m <- func_interpolate method ;;                                                      (* 824 *)
    do sigma <- sigma_from_hybrid ps hyam hybm p0 ;;                                        (* 829 *)
    do ax <- oget ValueError (sindex lev (dims data)) ;;                                    (* 833 *)
    let nd := remove_at ax (dims data) in
    guard negb (forallb (fun d => smem d (dims sigma)) nd) raise ValueError ;;              (* 835 *)
    do h <- match filter (fun d => negb (smem d nd)) (dims sigma) with
            | [h] => Ok h | _ => Err ValueError end ;;
    do nh <- oget TypeError (hd_error (shp (dat hyam))) ;;                                  (* len(hyam) *)
    let n := nth ax (shp (dat data)) 0%nat in
    let hs := hd 0%nat (sizes_of sigma [h]) in
    let cols := all_idx (sizes_of data nd) in
    let scols := all_idx (sizes_of sigma nd) in
    do first <- oget IndexError (hd_error scols) ;;                                         (* 837 *)
    let h_coords := col_by_name sigma nd first h hs in
    let no := Nat.min n nh in                                                               (* 839 *)
    do results <- mapM (fun c =>                                                            (* 841-845 *)
        do r <- interp_nd m (col_by_name sigma nd (snd c) h hs) (vec nnan sig)
                  (vec nnan (col_by_name data nd (fst c) lev n)) 0%nat ;;
        guard negb (shape_eqb (shp r) [no]) raise ValueError ;;
        Ok r) (combine cols scols) ;;
    guard smem "hlev" (dims data) && negb (String.eqb lev "hlev") raise ValueError ;;       (* 859 *)
    guard negb (Nat.eqb hs no) raise ValueError ;;                                          (* 860 *)
    Ok (mkDa (upd (dims data) ax "hlev"%string)
          (mkArr (upd (shp (dat data)) ax no)
             (fun i => match nth_error results (flat (sizes_of data nd) (remove_at ax i)) with
                       | Some r => get r [nth ax i 0%nat]
                       | None => get (dat data) i end))
          [("hlev"%string, mkCoord ["hlev"%string] (vec nnan h_coords))] (attrs data) (daname data)).
End InterpSigma.
