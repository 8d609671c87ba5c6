(** What changing the unit of a field means (from Celsius to Fahrenheit, say), for the statements of C121 and C122.
    Not code of /repo. *)
From Coq Require Import Reals List String.
From Verif Require Import PyBase Num Arr Hybrid.
Import ListNotations.
Local Open Scope R_scope.

(** [x] in the other unit: a x + b; infinities keep or exchange their signs, NaN stays NaN *)
Definition convert (a b : R) (x : fl) : fl := nadd (nmul (Fin a) x) (Fin b).
(** a DataArray whose values (not its coordinates) are converted *)
Definition da_convert (a b : R) (d : da fl) : da fl := mkDa (dims d) (amap (convert a b) (dat d)) (coords d) (attrs d) (daname d).
(** the same for an argument that is an ndarray or a DataArray *)
Definition val_convert (a b : R) (v : val fl) : val fl :=
  match v with VNd x => VNd (amap (convert a b) x) | VDa d => VDa (da_convert a b d) | VSubDa d => VSubDa (da_convert a b d) | VOther => VOther end.
(** [o'] is [o] converted: same dimensions, attributes and name, same coordinate names; the same coordinates if the fill value is one
    that the conversion does not change (NaN, or none) *)
Definition field_convert (a b : R) (fill : option fl) (o o' : da fl) : Prop :=
  dims o' = dims o /\ dat o' = amap (convert a b) (dat o) /\ attrs o' = attrs o /\ daname o' = daname o /\ map fst (coords o') = map fst (coords o) /\
  (fill = option_map (convert a b) fill -> coords o' = coords o).
