(** Model of what interp_sigma_to_hybrid returns: stored numbers and coordinates (geocat/comp/interpolation.py:831-862). *)
From Coq Require Import List Bool Arith ZArith String.
From Verif Require Import PyBase Num Arr Hybrid Interp1d InterpHyb InterpSigma.
Import ListNotations.

(** Not in /repo: the value of a coordinate at a position given by dimension names. *)
Definition getc {T} (c : coordv T) (e : env) : T := get (cdat c) (map e (cdims c)).

Section Full.
  Context {T : Type} {N : Num T}.

  (** .rename({lev_dim: 'hlev'}) on one name, interpolation.py:859 *)
  Definition to_hlev (lev d : string) : string := if String.eqb d lev then "hlev"%string else d.
  (** Not in /repo: the dimension coordinate of [k]. *)
  Definition is_index (k : string) (c : coordv T) : bool := match cdims c with [d] => String.eqb d k | _ => false end.
  (** one coordinate of data after stack, [:len(hyam)], unstack and transpose, interpolation.py:834-848, and rename, 859; [nd] are
      data's dimensions other than [lev], [no] the number of levels kept.  Stacking spreads a coordinate that depends on one of
      [nd] over all of them, except the dimension coordinates themselves; with one-dimensional data [nd] is empty. *)
  Definition sigma_coord (data : da T) (lev : string) (nd : list string) (no : nat) (kc : string * coordv T) : string * coordv T :=
    let '(k, c) := kc in
    if smem k nd && is_index k c then (k, c)
    else
      let spread := existsb (fun d => smem d (cdims c)) nd in
      let ds := filter (fun d => smem d (cdims c) || spread && smem d nd) (dims data) in
      (k, mkCoord (map (to_hlev lev) ds)
            (mkArr (map (fun d => if String.eqb d lev then no else hd 0%nat (sizes_of data [d])) ds)
               (fun i => getc c (env_of ds i)))).
  (** stack gives a dimension without labels the labels 0, 1, ..., interpolation.py:834 *)
  Definition default_labels (data : da T) (nd : list string) : list (string * coordv T) :=
    map (fun d => (d, mkCoord [d] (vec nnan (map (fun j => ofZ (Z.of_nat j)) (seq 0 (hd 0%nat (sizes_of data [d])))))))
      (filter (fun d => negb (smem d (map fst (coords data)))) nd).
  (** interp_sigma_to_hybrid with the numbers as stored and all coordinates, interpolation.py:766-862.  The interpolated numbers are
      assigned into a copy of the data (842, 853), so [store] is numpy's conversion to the type of the data; it does not change
      numbers that are of that type already.  rename (859) fails when data has coordinates called [lev] and hlev.
      Simplification: index labels are assumed free of duplicates (unstack rejects them). *)
  Definition interp_sigma_stored (store : T -> T) (data : da T) (sig : list T) (ps hyam hybm : da T) (p0 : T)
      (lev_dim cf_name : option string) (method : string) : res (da T) :=
    do lev <- match lev_dim with Some l => Ok l | None => oget ValueError cf_name end ;;
    do out <- interp_sigma_to_hybrid data sig ps hyam hybm p0 lev_dim cf_name method ;;
    do ax <- oget ValueError (sindex lev (dims data)) ;;
    let nd := remove_at ax (dims data) in
    let no := nth ax (shp (dat out)) 0%nat in
    guard smem lev (map fst (coords data)) && smem "hlev" (map fst (coords data)) && negb (String.eqb lev "hlev") raise ValueError ;;
    Ok (mkDa (dims out) (amap store (dat out))
          (map (sigma_coord data lev nd no) (filter (fun kc => negb (String.eqb (fst kc) lev || String.eqb (fst kc) "hlev")) (coords data))
           ++ default_labels data nd ++ coords out)
          (attrs out) (daname out)).
  (** numpy's conversion to a whole number: towards zero; [junk] is what the platform makes of NaN and infinity *)
  Definition store_int (junk v : T) : T := match ntrunc v with Some z => ofZ z | None => junk end.
End Full.
