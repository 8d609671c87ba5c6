(** Specification of letter case, character by character, without the string functions of the model. *)
From Coq Require Import List Ascii String.
From Verif Require Import PyBase Arr GcUtil.
Import ListNotations.

(** the 26 letters in upper and in lower case *)
Definition big_letter (k : nat) : ascii := ascii_of_nat (65 + k).
Definition small_letter (k : nat) : ascii := ascii_of_nat (97 + k).
(** d is c in lower case, in upper case *)
Definition lowered (c d : ascii) : Prop :=
  (exists k, k < 26 /\ c = big_letter k /\ d = small_letter k) \/ ((forall k, k < 26 -> c <> big_letter k) /\ d = c).
Definition raised (c d : ascii) : Prop :=
  (exists k, k < 26 /\ c = small_letter k /\ d = big_letter k) \/ ((forall k, k < 26 -> c <> small_letter k) /\ d = c).
(** d is c, or b if c is a *)
Definition exchanged (a b c d : ascii) : Prop := (c = a /\ d = b) \/ (c <> a /\ d = c).
(** upper case at the start ([up]) and, if [sep] is given, after each separator; lower case elsewhere *)
Fixpoint capped (sep : option ascii) (up : bool) (s x : list ascii) : Prop :=
  match s, x with
  | [], [] => True
  | c :: s', d :: x' =>
      (if up then raised c d else lowered c d) /\
      ((Some c = sep /\ capped sep true s' x') \/ (Some c <> sep /\ capped sep false s' x'))
  | _, _ => False
  end.
(** a string spelled differently *)
Definition respelled (s x : string) : Prop :=
  let l := list_ascii_of_string s in let r := list_ascii_of_string x in
  r = l \/ Forall2 lowered l r \/ Forall2 raised l r \/ capped None true l r \/ capped (Some "_"%char) true l r.
Definition long_respelled (s x : string) : Prop :=
  let l := list_ascii_of_string s in let r := list_ascii_of_string x in
  respelled s x \/ capped (Some " "%char) true l r \/ Forall2 (exchanged " " "_") l r \/ Forall2 (exchanged "_" " ") l r.

(** the same letter, possibly in another case; two strings equal up to case; the same with blanks and underscores
    taken as equal *)
Definition same_letter (c d : ascii) : Prop :=
  c = d \/ exists k, k < 26 /\ ((c = big_letter k /\ d = small_letter k) \/ (c = small_letter k /\ d = big_letter k)).
Definition equal_up_to_case (s x : string) : Prop := Forall2 same_letter (list_ascii_of_string s) (list_ascii_of_string x).
Definition gap (c : ascii) : Prop := c = " "%char \/ c = "_"%char.
Definition equal_loosely (s x : string) : Prop :=
  Forall2 (fun c d => same_letter c d \/ (gap c /\ gap d)) (list_ascii_of_string s) (list_ascii_of_string x).

Local Open Scope string_scope.
(** the variables a search can return *)
Definition wanted (ds : dset) (std long : string) (possible : list string) (v : dvar) : Prop :=
  In v ds /\
  ((std <> "" /\ is_data v = true /\ exists a, (a = vname v \/ slookup "standard_name" (vattrs v) = Some a) /\ respelled std a) \/
   (long <> "" /\ is_data v = true /\ exists a, (a = vname v \/ slookup "long_name" (vattrs v) = Some a) /\ long_respelled long a) \/
   exists p, In p possible /\ respelled p (vname v)).
