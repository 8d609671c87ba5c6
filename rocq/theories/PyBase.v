(** Python control flow: exceptions as values, sequence indexing and slicing rules. *)
From Coq Require Import ZArith List Bool Lia String.
Import ListNotations.

(** Exception classes raised by the modelled code; messages are not modelled. *)
Inductive exc := TypeError | ValueError | KeyError | IndexError | AttributeError
               | ImportError | NotImplementedError | ZeroDivisionError | OverflowError | BareException.

(** Not in /repo: the outcome of a call, a value or a raised exception. *)
Inductive res (A : Type) := Ok (a : A) | Err (e : exc).
Arguments Ok {A} a.
Arguments Err {A} e.

(** Not in /repo: sequencing; an exception ends the computation. *)
Definition bind {A B} (x : res A) (f : A -> res B) : res B :=
  match x with Ok a => f a | Err e => Err e end.
(** Not in /repo: a total function applied to an outcome. *)
Definition rmap {A B} (f : A -> B) (x : res A) : res B :=
  match x with Ok a => Ok (f a) | Err e => Err e end.
Notation "'do' x <- e ;; k" := (bind e (fun x => k)) (at level 200, x pattern, right associativity).
Notation "'guard' c 'raise' e ;; k" := (if (c : bool) then Err e else k)
  (at level 200, c at level 100, e at level 100, right associativity).

(** A list comprehension / loop whose body may raise: the first failure wins. *)
Fixpoint mapM {A B} (f : A -> res B) (l : list A) : res (list B) :=
  match l with
  | [] => Ok []
  | x :: t => do y <- f x ;; do ys <- mapM f t ;; Ok (y :: ys)
  end.

(** Not in /repo: a lookup that raises [e] when nothing is found. *)
Definition oget {A} (e : exc) (o : option A) : res A :=
  match o with Some a => Ok a | None => Err e end.

(** Python index [s[i]] on a sequence of length n: negative i counts from the end. *)
Definition pyidx (n : nat) (i : Z) : option nat :=
  let j := if (i <? 0)%Z then (i + Z.of_nat n)%Z else i in
  if ((0 <=? j) && (j <? Z.of_nat n))%Z then Some (Z.to_nat j) else None.

(** Bounds of Python slice [s[a:b]] (step 1) on a sequence of length n. *)
Definition slice_bound (n : nat) (i : Z) : nat :=
  let j := if (i <? 0)%Z then (i + Z.of_nat n)%Z else i in
  Z.to_nat (Z.max 0 (Z.min j (Z.of_nat n))).
(** Not in /repo: lower bound [a] of [s[a:b]]; absent means the start. *)
Definition slice_lo (n : nat) (a : option Z) : nat :=
  match a with None => 0%nat | Some i => slice_bound n i end.
(** Not in /repo: upper bound [b] of [s[a:b]]; absent means the end. *)
Definition slice_hi (n : nat) (b : option Z) : nat :=
  match b with None => n | Some i => slice_bound n i end.

(** Not in /repo: [l[a:b]]. *)
Definition pyslice {A} (l : list A) (a b : option Z) : list A :=
  let n := List.length l in
  let lo := slice_lo n a in
  let hi := slice_hi n b in
  firstn (hi - lo) (skipn lo l).

(** [l[i]] *)
Definition pyget {A} (l : list A) (i : Z) : res A :=
  match pyidx (List.length l) i with
  | Some j => oget IndexError (nth_error l j)
  | None => Err IndexError
  end.

(** Not in /repo: the list with entry j replaced. *)
Fixpoint upd {A} (l : list A) (j : nat) (v : A) : list A :=
  match l, j with
  | [], _ => []
  | _ :: t, O => v :: t
  | x :: t, S j' => x :: upd t j' v
  end.

(** [l[i] = v] on an array *)
Definition pyset {A} (l : list A) (i : Z) (v : A) : res (list A) :=
  match pyidx (List.length l) i with
  | Some j => Ok (upd l j v)
  | None => Err IndexError
  end.

(** [l[a:b] = vs] on an array: numpy requires equal lengths (or one value to broadcast). *)
Definition pysetslice {A} (l : list A) (a b : option Z) (vs : list A) : res (list A) :=
  let n := List.length l in
  let lo := slice_lo n a in
  let hi := slice_hi n b in
  let len := (hi - lo)%nat in
  let put ws := Ok (firstn lo l ++ ws ++ skipn (lo + len) l) in
  if Nat.eqb (List.length vs) len then put vs
  else match vs with
       | [v] => put (repeat v len)
       | _ => Err ValueError
       end.

(** Container kinds the type checks of the code distinguish. *)
Inductive kind := KNdarray | KDataArray | KDataset | KList | KFloat | KInt | KOther.
(** Not in /repo: [type(a) == type(b)]. *)
Definition kind_eqb (a b : kind) : bool :=
  match a, b with
  | KNdarray, KNdarray | KDataArray, KDataArray | KDataset, KDataset | KList, KList
  | KFloat, KFloat | KInt, KInt | KOther, KOther => true
  | _, _ => false
  end.
Lemma kind_eqb_spec a b : reflect (a = b) (kind_eqb a b).
Proof. destruct a, b; cbn; constructor; congruence. Qed.
