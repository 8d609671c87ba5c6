(** Model of geocat/comp/stats.py: pearson_r (154-207).

    The numpy kernel xskillscore.core.np_deterministic._pearson_r is a dependency; it is modelled after its source
    (see the comments).  xskillscore.pearson_r on labelled arrays is an oracle. *)
From Coq Require Import List Bool Arith ZArith String.
From Verif Require Import PyBase Num Arr Hybrid.
Import ListNotations.

Section Pearson.
  Context {T : Type} {N : Num T}.
  Local Open Scope num_scope.

  (** an argument: numpy array, nested list of numbers (no attributes), DataArray, Dataset *)
  Inductive pin := PNd (a : arr T) | PList (a : arr T) | PDa (d : da T) | PDs.
  (** isinstance(p, xr.DataArray), stats.py:186 *)
  Definition is_da (p : pin) : bool := match p with PDa _ => true | _ => false end.
  (** np.ravel(p): a rank-1 array of the values; a Dataset cannot be converted *)
  Definition np_ravel (p : pin) : res (arr T) :=
    match p with
    | PNd a | PList a => Ok (vec nnan (ravel a))
    | PDa d => Ok (vec nnan (ravel (dat d)))
    | PDs => Err TypeError
    end.
  (** p where an ndarray is required: lists and Datasets have no .ndim *)
  Definition nd_only (p : pin) : res (arr T) :=
    match p with PNd a => Ok a | PDa d => Ok (dat d) | PList _ | PDs => Err AttributeError end.

  (** ** numpy parts *)
  Definition ins {A} (ax : nat) (k : A) (r : list A) : list A := firstn ax r ++ k :: skipn ax r.
  (** Not in /repo: a shape without axis ax. *)
  Definition del {A} (ax : nat) (s : list A) : list A := firstn ax s ++ skipn (S ax) s.
  (** np.rollaxis(a, axis): the axis moved to the front; AxisError is a ValueError *)
  Definition rollaxis (a : arr T) (axis : Z) : res (arr T) :=
    do ax <- oget ValueError (pyidx (ndim a) axis) ;;
    Ok (mkArr (nth ax (shp a) 0%nat :: del ax (shp a)) (fun i => get a (ins ax (hd 0%nat i) (tl i)))).
  (** reduction along axis 0 *)
  Definition red0 (f : list T -> T) (a : arr T) : arr T :=
    mkArr (tl (shp a)) (fun i => f (map (fun k => get a (k :: i)) (seq 0 (hd 0%nat (shp a))))).
  (** Not in /repo: np.mean. *)
  Definition nmean (l : list T) : T := nsum l / ofZ (Z.of_nat (List.length l)).

  (** xskillscore _match_nans: a value missing in one of a, b is made missing in both and in the weights.
      Simplification: operands of different shapes are an IndexError (boolean mask of the wrong shape). *)
  Definition any_nan (a : arr T) : bool := existsb isnan (ravel a).
  (** Not in /repo: xskillscore _match_nans. *)
  Definition match_nans (a b : arr T) (w : option (arr T)) : res (arr T * arr T * option (arr T)) :=
    if any_nan a || any_nan b then
      guard negb (shape_eqb (shp a) (shp b)) raise IndexError ;;
      let bad i := isnan (get a i) || isnan (get b i) in
      let put (x : arr T) := mkArr (shp x) (fun i => if bad i then nnan else get x i) in
      match w with
      | None => Ok (put a, put b, None)
      | Some v => guard negb (shape_eqb (shp v) (shp a)) raise IndexError ;; Ok (put a, put b, Some (put v))
      end
    else Ok (a, b, w).
  (** xskillscore _check_weights *)
  Definition check_weights (w : option (arr T)) : option (arr T) :=
    match w with
    | Some v => if forallb isnan (ravel v) then None else Some v
    | None => None
    end.

  (** xskillscore _pearson_r *)
  Definition pearson_kernel (a b : arr T) (w : option (arr T)) (axis : Z) (skipna : bool) : res (arr T) :=
    let sumf := if skipna then nansum else nsum in
    let meanf := if skipna then nanmean else nmean in
    do m <- (if skipna then match_nans a b w else Ok (a, b, w)) ;;
    let '(a, b, w) := m in
    let w := check_weights w in
    do a <- rollaxis a axis ;;
    do b <- rollaxis b axis ;;
    do rn <- match w with
      | Some w =>
          do w <- rollaxis w axis ;;
          do aw <- np_map2 nmul a w ;;
          do ma <- np_map2 ndiv (red0 sumf aw) (red0 sumf w) ;;
          do bw <- np_map2 nmul b w ;;
          do mb <- np_map2 ndiv (red0 sumf bw) (red0 sumf w) ;;
          do am <- np_map2 nsub a ma ;;
          do bm <- np_map2 nsub b mb ;;
          do wa <- np_map2 nmul w am ;;
          do wb <- np_map2 nmul w bm ;;
          do p <- np_map2 nmul wa bm ;;
          do qa <- np_map2 nmul wa am ;;
          do qb <- np_map2 nmul wb bm ;;
          Ok (red0 sumf p, red0 sumf qa, red0 sumf qb)
      | None =>
          do am <- np_map2 nsub a (red0 meanf a) ;;
          do bm <- np_map2 nsub b (red0 meanf b) ;;
          do p <- np_map2 nmul am bm ;;
          do qa <- np_map2 nmul am am ;;
          do qb <- np_map2 nmul bm bm ;;
          Ok (red0 sumf p, red0 sumf qa, red0 sumf qb)
      end ;;
    let '(num, da, db) := rn in
    do q <- np_map2 nmul da db ;;
    do r <- np_map2 ndiv num (amap nsqrt q) ;;
    Ok (amap (nclip (ofZ (-1)) (ofZ 1)) r).

  (** ** pearson_r *)
  Variables (X D : Type) (xs_pearson : pin -> pin -> option D -> option pin -> bool -> bool -> res X).

  (** what pearson_r returns, stats.py:186-207 *)
  Inductive pout := RNp (a : arr T) | RXr (x : X) | RNone.
  (** try ... except ValueError: print(...) -- falls through and returns None, stats.py:197-200, 204-207 *)
  Definition swallow (r : res pout) : res pout :=
    match r with Err ValueError => Ok RNone | _ => r end.

  (** pearson_r, stats.py:154-207.  The first component tells whether a UserWarning is issued. *)
  Definition pearson_r (a b : pin) (dim : option D) (weights : option pin) (skipna keep_attrs : bool) (axis : option Z)
      : bool * res pout :=
    let warned := match dim, axis with Some _, Some _ => true | _, _ => false end in   (* 187-190, 202-203 *)
    (warned,
     if negb (is_da a) && negb (is_da b) then                                        (* 186 *)
       match axis with
       | None =>                                                                     (* 191-196 *)
           do a' <- np_ravel a ;;
           do b' <- np_ravel b ;;
           do w' <- match weights with None => Ok None | Some w => rmap Some (np_ravel w) end ;;
           swallow (rmap RNp (pearson_kernel a' b' w' 0 skipna))
       | Some ax =>
           swallow (do a' <- nd_only a ;;
                    do b' <- nd_only b ;;
                    do w' <- match weights with None => Ok None | Some w => rmap Some (nd_only w) end ;;
                    rmap RNp (pearson_kernel a' b' w' ax skipna))
       end
     else swallow (rmap RXr (xs_pearson a b dim weights skipna keep_attrs))).        (* 204-207 *)
End Pearson.
