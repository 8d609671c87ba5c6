(** Model of _find_var and _find_optional_var (geocat/comp/gc_util.py:33-172). *)
From Coq Require Import List Bool Ascii String.
From Verif Require Import PyBase Arr StrFn.
Import ListNotations.
Local Open Scope string_scope.

(** gc_util.py:33, argument ds.  A dataset as the lookup sees it: all its variables in order; [is_data]: in ds.data_vars (not a
    coordinate).  Simplification: attribute values are strings. *)
Record dvar := mkVar { vname : string; is_data : bool; vattrs : list (string * string) }.
(** the argument ds, gc_util.py:33 *)
Definition dset := list dvar.
(** name in ds, gc_util.py:133 *)
Definition in_ds (ds : dset) (n : string) : bool := existsb (fun v => String.eqb n (vname v)) ds.
(** the set literals of gc_util.py:75-81, 96-105, 122-130 *)
Definition std_variations (s : string) : list string :=
  [s; lower s; upper s; capitalize s; cap_words "_" s].
(** gc_util.py:96-105 *)
Definition long_variations (s : string) : list string :=
  [s; lower s; upper s; capitalize s; cap_words " " s; cap_words "_" s; replace_c " " "_" s; replace_c "_" " " s].
(** the loops of gc_util.py:83-90 and 107-114 *)
Definition find_attr (key : string) (vars : list string) (ds : dset) : option string :=
  option_map vname
    (find (fun v => smem (vname v) vars
                    || smem (match slookup key (vattrs v) with Some a => a | None => "" end) vars)
          (filter is_data ds)).
(** [order l]: the elements of set(l) in the order the interpreter iterates over them *)
(** _find_var, gc_util.py:33-137; None and "" / [] both mean "not given" *)
Definition find_var (order : list string -> list string) (ds : dset)
    (standard_name long_name : string) (possible_names : list string) : res string :=
  let by_std := if String.eqb standard_name "" then None
                else find_attr "standard_name" (std_variations standard_name) ds in       (* 73-92 *)
  match by_std with
  | Some v => Ok v
  | None =>
      let by_long := if String.eqb long_name "" then None
                     else find_attr "long_name" (long_variations long_name) ds in         (* 94-116 *)
      match by_long with
      | Some v => Ok v
      | None =>
          match find (in_ds ds) (order (flat_map std_variations possible_names)) with     (* 118-134 *)
          | Some v => Ok v
          | None => Err KeyError                                                          (* 137 *)
          end
      end
  end.
(** _find_optional_var, gc_util.py:140-172 *)
Definition find_optional_var (order : list string -> list string) (ds : dset)
    (standard_name long_name : string) (possible_names : list string) : res (option string) :=
  match find_var order ds standard_name long_name possible_names with
  | Ok v => Ok (Some v)
  | Err KeyError => Ok None
  | Err e => Err e
  end.
