(** Model of the attributes returned by the functions of geocat/comp/climatologies.py (the keep_attrs argument).

    Only calls that return are described; the values are those of Climat.v.  An object is its attributes and, for a Dataset,
    the attributes of its data variables (a DataArray has none).  Simplification: attributes of coordinates are not modelled. *)
From Coq Require Import List Bool String.
From Verif Require Import PyBase Arr.
Import ListNotations.

(** Not in /repo: the attributes of one xarray object. *)
Definition adict := list (string * string).
(** Not in /repo: a DataArray (no variables) or a Dataset, seen through its attributes. *)
Record obj := mkObj { top : adict; vars : list (string * adict) }.
(** the values of keep_attrs used in the package: None, a boolean, the string 'default' (climatologies.py:49, 129, 225, 348, 476) *)
Inductive keep := KNone | KBool (b : bool) | KDefault.

(** Not in /repo: dict.update *)
Definition dupdate (d e : adict) : adict := fold_left (fun d p => sset (fst p) (snd p) d) e d.
(** Not in /repo: Dataset.drop_attrs, DataArray.drop_attrs *)
Definition strip (o : obj) : obj := mkObj [] (map (fun v => (fst v, [])) (vars o)).
(** Not in /repo: assign_attrs updates the object's own attributes *)
Definition assign_attrs (o : obj) (a : adict) : obj := mkObj (dupdate (top o) a) (vars o).
(** keep_attrs or keep_attrs is None, climatologies.py:188, 442 *)
Definition wants (k : keep) : bool := match k with KNone => true | KBool b => b | KDefault => true end.
(** keep_attrs in {True, None}, climatologies.py:606 *)
Definition wants_strictly (k : keep) : bool := match k with KNone => true | KBool b => b | KDefault => false end.

Section ClimAttrs.
  (** xarray, by version and options: [global] the option keep_attrs of xr.set_options (None: 'default'); [mul_top] and
      [mul_var] the attributes of a product of an object and a DataArray with other attributes; [sum_default] whether .sum(dim)
      keeps attributes without being told; [warr] the attributes of the weights *)
  Variables (global : option bool) (mul_top mul_var : adict -> adict -> adict) (sum_default : bool) (warr : adict).

  (** Not in /repo: what a reduction does with its keep_attrs argument; [d] its default *)
  Definition keeps (k : keep) (d : bool) : bool :=
    match k with KNone => match global with Some b => b | None => d end | KBool b => b | KDefault => true end.
  (** Not in /repo: a reduction *)
  Definition reduced (k : keep) (d : bool) (o : obj) : obj := if keeps k d then o else strip o.
  (** Not in /repo: object * weights *)
  Definition times (o : obj) : obj := mkObj (mul_top (top o) warr) (map (fun v => (fst v, mul_var (snd v) warr)) (vars o)).

  (** calendar_average, climatologies.py:433-468.  Reductions of resample and groupby objects keep attributes by default. *)
  Definition calendar_average_attrs (freq : string) (k : keep) (o : obj) : obj :=
    let d := reduced k true o in                                                             (* 433-437 *)
    if String.eqb freq "season" || String.eqb freq "year" then
      let attrs := if wants k then top d else [] in                                          (* 441-443 *)
      let d := reduced KNone true (times d) in                                               (* 452-453 *)
      assign_attrs d attrs                                                                   (* 466 *)
    else d.
  (** climatology_average, climatologies.py:605-673; xr.concat takes the attributes of its first argument, all seasons have the same *)
  Definition climatology_average_attrs (freq : string) (k : keep) (o : obj) : obj :=
    let attrs := if wants_strictly k then top o else [] in                                   (* 605-607 *)
    if String.eqb freq "season" then
      let d := reduced k true o in                                                           (* 631-635 *)
      let d := reduced KNone sum_default (times d) in                                        (* 641 *)
      assign_attrs d attrs                                                                   (* 646 *)
    else reduced k true o.                                                                   (* 653-657 *)
  (** climate_anomaly, climatologies.py:187-218: whatever the difference carries is dropped; [d] is the difference *)
  Definition climate_anomaly_attrs (k : keep) (o d : obj) : obj :=
    let attrs := if wants k then top o else [] in                                            (* 187-189 *)
    assign_attrs (strip d) attrs.                                                            (* 212, 218 *)
  (** month_to_season, climatologies.py:308-343 *)
  Definition month_to_season_attrs (k : keep) (o : obj) : obj := reduced k true o.           (* 324 *)
End ClimAttrs.
