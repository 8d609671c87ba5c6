(** Model of geocat/comp/deprecated.py: nine stubs that warn and return None. *)
From Coq Require Import List String Ascii.
Import ListNotations.
Local Open Scope string_scope.

(** what a call does: the warnings issued, in order, and the value returned (None is [None]) *)
Record call (V : Type) := mkCall { warned : list string; value : option V }.
Arguments mkCall {V}. Arguments warned {V}. Arguments value {V}.

Section Deprecated.
  Context {V : Type}.
  (** positional and keyword arguments *)
  Definition args := (list V * list (string * V))%type.
  (** the common body: warnings.warn(msg); return None (deprecated.py:4-136) *)
  Definition stub (msg : string) : call V := mkCall [msg] None.
  (** deprecated.py:4-16 *)
  Definition grid_to_triple (a : args) : call V := stub "To use this function, install the geocat-f2py package and import as ``geocat.f2py.grid_to_triple``.".
  (** deprecated.py:19-31 *)
  Definition linint1 (a : args) : call V := stub "To use this function, install the geocat-f2py package and import as ``geocat.f2py.linint1``.".
  (** deprecated.py:34-46 *)
  Definition linint2 (a : args) : call V := stub "To use this function, install the geocat-f2py package and import as ``geocat.f2py.linint2``.".
  (** deprecated.py:49-61 *)
  Definition linint2pts (a : args) : call V := stub "To use this function, install the geocat-f2py package and import as ``geocat.f2py.linint2pts``.".
  (** deprecated.py:64-76 *)
  Definition moc_globe_atl (a : args) : call V := stub "To use this function, install the geocat-f2py package and import as ``geocat.f2py.moc_globe_atl``.".
  (** deprecated.py:79-91 *)
  Definition rcm2points (a : args) : call V := stub "To use this function, install the geocat-f2py package and import as ``geocat.f2py.rcm2points``.".
  (** deprecated.py:94-106 *)
  Definition rcm2rgrid (a : args) : call V := stub "To use this function, install the geocat-f2py package and import as ``geocat.f2py.rcm2rgrid``.".
  (** deprecated.py:109-121 *)
  Definition rgrid2rcm (a : args) : call V := stub "To use this function, install the geocat-f2py package and import as ``geocat.f2py.rgrid2rcm``.".
  (** deprecated.py:124-136 *)
  Definition triple_to_grid (a : args) : call V := stub "To use this function, install the geocat-f2py package and import as ``geocat.f2py.triple_to_grid``.".
  (** the public names, geocat/comp/__init__.py *)
  Definition deprecated : list (string * (args -> call V)) :=
    [("grid_to_triple", grid_to_triple); ("linint1", linint1); ("linint2", linint2); ("linint2pts", linint2pts); ("moc_globe_atl", moc_globe_atl);
     ("rcm2points", rcm2points); ("rcm2rgrid", rcm2rgrid); ("rgrid2rcm", rgrid2rcm); ("triple_to_grid", triple_to_grid)].
End Deprecated.
Arguments args V : clear implicits.
