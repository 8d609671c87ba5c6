(** Model of relhum for any mixture of argument kinds (geocat/comp/meteorology.py:499-597). *)
From Coq Require Import List Bool Arith ZArith String.
From Verif Require Import PyBase Num Arr Hybrid Meteo.
Import ListNotations.

Section Mix.
  Context {T : Type} {N : Num T}.
  Local Open Scope num_scope.

  (** Not in /repo: x op y between numpy arrays, lists, numbers and DataArrays, of which at least one is an array or a DataArray.
      Two DataArrays are aligned by label.  A DataArray and anything else are combined by position under the DataArray's labels, and
      the result must have its shape.  Simplifications: an array that enlarges a dimension of size one is rejected (xarray rejects it
      when the array is the left operand and returns an inconsistent object when it is the right one); names of results are not
      modelled. *)
  Definition arith2 (f : T -> T -> T) (x y : inp T) : res (inp T) :=
    match x, y with
    | IDa a, IDa b => rmap IDa (xr_map2 f a b)
    | IDa a, _ =>
        do r <- np_map2 f (dat a) (as_arr y) ;;
        guard negb (shape_eqb (shp r) (shp (dat a))) raise ValueError ;;
        Ok (IDa (mkDa (dims a) r (coords a) [] None))
    | _, IDa b =>
        do r <- np_map2 f (as_arr x) (dat b) ;;
        guard negb (shape_eqb (shp r) (shp (dat b))) raise ValueError ;;
        Ok (IDa (mkDa (dims b) r (coords b) [] None))
    | _, _ => rmap INd (np_map2 f (as_arr x) (as_arr y))
    end.
  (** Not in /repo: an operation with a constant *)
  Definition imap (f : T -> T) (x : inp T) : inp T :=
    match x with IDa d => IDa (xr_map f d) | _ => INd (amap f (as_arr x)) end.
  (** es of meteorology.py:568-581; indexing the table with a DataArray gives an ndarray, the product with the weights is labelled again *)
  Definition es_of_input (t : inp T) : res (inp T) :=
    do es <- arr_mapM nnan es_cell (as_arr t) ;;
    Ok (match t with IDa d => IDa (mkDa (dims d) es (coords d) [] None) | _ => INd es end).
  (** relhum, meteorology.py:562-597; the shape test of line 565 never fires *)
  Definition relhum (t w p : inp T) : res (inp T) :=
    do es <- es_of_input t ;;
    do a <- arith2 nsub p (imap (fun e => dec 378 3 * e) es) ;;
    do b <- arith2 nmul w a ;;
    do c <- arith2 ndiv b (imap (fun e => dec 622 3 * e) es) ;;
    Ok (match imap rh_clip c with
        | IDa d => IDa (with_attrs [("long_name", "relative humidity"); ("units", "percentage");
            ("info", "https://journals.ametsoc.org/view/journals/apme/35/4/1520-0450_1996_035_0601_imfaos_2_0_co_2.xml")]%string d)
        | r => r
        end).
End Mix.
