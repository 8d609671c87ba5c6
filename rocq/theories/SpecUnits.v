(** What changing the unit of pressure means, for the statements of C120.  Not code of /repo. *)
From Coq Require Import Reals List String.
From Verif Require Import PyBase Num Arr Hybrid DeltaP InterpHyb.
Import ListNotations.
Local Open Scope R_scope.

(** the same quantity in another unit, one old unit being [c] new ones *)
Definition rescale (c : R) (x : fl) : fl := match x with Fin r => Fin (c * r) | _ => x end.
(** a DataArray whose values (not its coordinates) are such a quantity *)
Definition da_units (c : R) (d : da fl) : da fl := mkDa (dims d) (amap (rescale c) (dat d)) (coords d) (attrs d) (daname d).
(** the same for an argument that is an ndarray or a DataArray *)
Definition val_units (c : R) (v : val fl) : val fl :=
  match v with VNd a => VNd (amap (rescale c) a) | VDa d => VDa (da_units c d) | VSubDa d => VSubDa (da_units c d) | VOther => VOther end.
(** the level array of delta_pressure *)
Definition lev_units (c : R) (l : levels fl) : levels fl := mkLevels (lev_da l) (map (rescale c) (lev_vals l)) (lev_attrs l).
(** the surface pressure of delta_pressure *)
Definition surf_units (c : R) (s : surf fl) : surf fl :=
  match s with SScalar x => SScalar (rescale c x) | SNd a => SNd (amap (rescale c) a) | SDa d => SDa (da_units c d) | SList => SList end.
(** coordinates [cs'] are [cs] with the one called [n] in the other unit *)
Definition coords_units (n : string) (c : R) (cs cs' : list (string * coordv fl)) : Prop :=
  map fst cs' = map fst cs /\
  slookup n cs' = option_map (fun k => mkCoord (cdims k) (amap (rescale c) (cdat k))) (slookup n cs) /\
  forall m, m <> n -> slookup m cs' = slookup m cs.
(** a result of delta_pressure in the other unit, with its level coordinate *)
Definition dp_units (c : R) (o o' : dpout fl) : Prop :=
  match o, o' with
  | ONd a, ONd a' => a' = amap (rescale c) a
  | ODa d, ODa d' => dims d' = dims d /\ dat d' = amap (rescale c) (dat d) /\ coords_units "lev" c (coords d) (coords d') /\
                     attrs d' = attrs d /\ daname d' = daname d
  | _, _ => False
  end.
(** a result of interp_hybrid_to_pressure: the same values, the level coordinate in the other unit *)
Definition plev_units (c : R) (o o' : da fl) : Prop :=
  dims o' = dims o /\ dat o' = dat o /\ coords_units "plev" c (coords o) (coords o') /\ attrs o' = attrs o /\ daname o' = daname o.
(** both calls fail alike, or both succeed and the results are related by [P] *)
Definition outcomes {A B} (P : A -> B -> Prop) (x : res A) (y : res B) : Prop :=
  match x, y with Ok a, Ok b => P a b | Err e, Err e' => e = e' | _, _ => False end.
(** the name of the level dimension: the argument, or else what cf_xarray finds *)
Definition level_name (a : ihp_args fl) : option string := match a_lev_dim a with Some l => Some l | None => cf_name a end.
(** the DataArray given as an argument *)
Definition as_da (v : val fl) : option (da fl) := match v with VDa d | VSubDa d => Some d | _ => None end.
