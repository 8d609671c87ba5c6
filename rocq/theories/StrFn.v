(** Python string methods on ASCII strings.  Not in /repo; case mapping of non-ASCII characters is
    not modelled (they are left alone). *)
From Coq Require Import List Bool Arith Ascii String.
Import ListNotations.
Local Open Scope string_scope.

Definition lower_c (c : ascii) : ascii :=
  let n := nat_of_ascii c in if Nat.leb 65 n && Nat.leb n 90 then ascii_of_nat (n + 32) else c.
Definition upper_c (c : ascii) : ascii :=
  let n := nat_of_ascii c in if Nat.leb 97 n && Nat.leb n 122 then ascii_of_nat (n - 32) else c.
Fixpoint str_map (f : ascii -> ascii) (s : string) : string :=
  match s with EmptyString => EmptyString | String c r => String (f c) (str_map f r) end.
(** s.lower(), s.upper(), s.capitalize() *)
Definition lower (s : string) : string := str_map lower_c s.
Definition upper (s : string) : string := str_map upper_c s.
Definition capitalize (s : string) : string :=
  match s with EmptyString => EmptyString | String c r => String (upper_c c) (lower r) end.
(** s.split(sep) for a one-character separator *)
Fixpoint split (sep : ascii) (s : string) : list string :=
  match s with
  | EmptyString => [EmptyString]
  | String c r =>
      if Ascii.eqb c sep then EmptyString :: split sep r
      else match split sep r with [] => [String c EmptyString] | w :: ws => String c w :: ws end
  end.
(** sep.join(l) *)
Fixpoint join (sep : string) (l : list string) : string :=
  match l with [] => EmptyString | [w] => w | w :: r => w ++ sep ++ join sep r end.
(** s.replace(a, b) for one-character a and b *)
Definition replace_c (a b : ascii) (s : string) : string := str_map (fun c => if Ascii.eqb c a then b else c) s.
(** every word capitalised *)
Definition cap_words (sep : ascii) (s : string) : string :=
  join (String sep EmptyString) (map capitalize (split sep s)).
