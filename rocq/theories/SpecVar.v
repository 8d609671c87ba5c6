(** Specification of variable lookup: which variables match a search key. *)
From Coq Require Import List Bool Ascii String.
From Verif Require Import StrFn.
Import ListNotations.
Local Open Scope string_scope.

(** x is one of the letter-case spellings of s *)
Definition spelling (s x : string) : Prop :=
  x = s \/ x = lower s \/ x = upper s \/ x = capitalize s \/ x = cap_words "_" s.
(** for descriptive names: also word-wise capitals and blanks exchanged for underscores *)
Definition long_spelling (s x : string) : Prop :=
  spelling s x \/ x = cap_words " " s \/ x = replace_c " " "_" s \/ x = replace_c "_" " " s.
(** n is the name of the first element of l satisfying P *)
Definition first_with {A} (P : A -> Prop) (name : A -> string) (l : list A) (n : string) : Prop :=
  exists pre v post, l = (pre ++ v :: post)%list /\ P v /\ name v = n /\ forall x, In x pre -> ~ P x.
