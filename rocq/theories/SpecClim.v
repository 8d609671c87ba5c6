(** Specification of calendar periods and averages, independent of the model. *)
From Coq Require Import Reals ZArith List Bool Permutation Sorted Ascii String.
From Verif Require Import Num NumFacts Calendar.
Import ListNotations.
Local Open Scope list_scope.

(** t and u lie in the same calendar hour, day, month, quarter (counted from an anchor month) or year, by their fields *)
Definition same_period (f : per) (t u : time) : bool :=
  match f with
  | Hour => (yr t =? yr u)%Z && (mo t =? mo u)%Z && (dy t =? dy u)%Z && (sec t / 3600 =? sec u / 3600)%Z
  | Day => (yr t =? yr u)%Z && (mo t =? mo u)%Z && (dy t =? dy u)%Z
  | Month => (yr t =? yr u)%Z && (mo t =? mo u)%Z
  | Quarter a => ((12 * yr t + mo t - a) / 3 =? (12 * yr u + mo u - a) / 3)%Z
  | Year => (yr t =? yr u)%Z
  end.
(** a and b are the first instants of the period of t and of the next one *)
Definition bounds (c : cal) (f : per) (t : time) (a b : Z) : Prop :=
  forall u, valid c u -> (same_period f t u = true <-> (a <= instant c u < b)%Z).
(** the finite values of a list, and the mean of the values present: NaN when there are none *)
Definition vals (l : list fl) : list R := flat_map (fun v => match v with Fin r => [r] | _ => [] end) l.
Definition avg (l : list R) : R := (rsum l / INR (List.length l))%R.
Definition mean_present (l : list fl) : fl := match vals l with [] => NaN | r => Fin (avg r) end.
(** values are numbers or missing *)
Definition tidy (v : fl) : Prop := v = NaN \/ exists r, v = Fin r.

(** samples: a date and a frame of values *)
Definition all_valid (c : cal) (xs : list (time * (nat -> fl))) : Prop := Forall (fun s => valid c (fst s)) xs.
Definition all_tidy (w : nat) (xs : list (time * (nat -> fl))) : Prop := Forall (fun s => forall k, (k < w)%nat -> tidy (snd s k)) xs.
(** the values of element k at the dates in the period of t *)
Definition in_period (f : per) (t : time) (k : nat) (xs : list (time * (nat -> fl))) : list fl :=
  map (fun s => snd s k) (filter (fun s => same_period f t (fst s)) xs).
(** every one of the w elements has a value present in the period of t *)
Definition complete (f : per) (w : nat) (xs : list (time * (nat -> fl))) (t : time) : Prop :=
  forall k, (k < w)%nat -> exists r, mean_present (in_period f t k xs) = Fin r.
(** the label of a period is its middle *)
Definition centred (c : cal) (f : per) (l : time) : Prop := valid c l /\ exists a b, bounds c f l a b /\ (2 * instant c l = a + b)%Z.
(** labels of adjacent periods, in order *)
Definition adjacent (c : cal) (f : per) (l l' : time) : Prop := exists a b d, bounds c f l a b /\ bounds c f l' b d.
(** days in the month of t, a number or 0, weighted average *)
Definition days (c : cal) (t : time) : Z := mlen c (yr t) (mo t).
Definition value (v : fl) : R := match v with Fin r => r | _ => 0%R end.
Definition wavg (l : list (R * R)) : R := (rsum (map (fun p => fst p * snd p) l) / rsum (map fst l))%R.
(** ms holds one date of every complete month whose dates satisfy P *)
Record complete_months (c : cal) (P : time -> bool) (w : nat) (xs : list (time * (nat -> fl))) (ms : list time) : Prop := {
  cm_valid : Forall (valid c) ms;
  cm_in : Forall (fun t => P t = true /\ complete Month w xs t) ms;
  cm_all : forall t, valid c t -> P t = true -> complete Month w xs t -> exists u, In u ms /\ same_period Month u t = true;
  cm_once : ForallOrdPairs (fun t u => same_period Month t u = false) ms }.
(** average of monthly means weighted by the lengths of the months; NaN without months *)
Definition by_days (c : cal) (k : nat) (xs : list (time * (nat -> fl))) (ms : list time) : fl :=
  match ms with
  | [] => NaN
  | _ => Fin (wavg (map (fun t => (IZR (days c t), value (mean_present (in_period Month t k xs)))) ms))
  end.

(** the same hour of the year, day of the year or month of the year *)
Definition same_key (f : per) (t u : time) : bool :=
  match f with
  | Hour => (mo t =? mo u)%Z && (dy t =? dy u)%Z && (sec t / 3600 =? sec u / 3600)%Z
  | Day => (mo t =? mo u)%Z && (dy t =? dy u)%Z
  | _ => (mo t =? mo u)%Z
  end.
(** the values of element k at the dates with the key of t *)
Definition in_key (f : per) (t : time) (k : nat) (xs : list (time * (nat -> fl))) : list fl :=
  map (fun s => snd s k) (filter (fun s => same_key f t (fst s)) xs).
(** the hour, day or (first of the) month of t in another year, when that year has it *)
Definition in_year (f : per) (y : Z) (t : time) : time := mkTime y (mo t) (match f with Hour | Day => dy t | _ => 1%Z end) (sec t).
(** m is the median of l, doubled; y is m / 2 rounded, halves to even *)
Definition median_twice (l : list Z) (m : Z) : Prop := exists s,
  Permutation l s /\ Sorted Z.le s /\ m = (nth (List.length s / 2) s 0 + nth ((List.length s - 1) / 2) s 0)%Z.
Definition rounds_to (m y : Z) : Prop := (2 * y = m \/ Z.even y = true /\ (2 * y = m - 1 \/ 2 * y = m + 1))%Z.
Definition label_year (ts : list time) (y : Z) : Prop := exists m, median_twice (map yr ts) m /\ rounds_to m y.

(** s is spelled by the initials of three months in a row, the first being m *)
Definition initial (m : Z) : ascii := nth (Z.to_nat ((m - 1) mod 12)) ["J"; "F"; "M"; "A"; "M"; "J"; "J"; "A"; "S"; "O"; "N"; "D"]%char " "%char.
Definition spells (s : string) (m : Z) : Prop := (1 <= m <= 12)%Z /\ s = String (initial m) (String (initial (m + 1)) (String (initial (m + 2)) EmptyString)).
Definition in_season (m : Z) (t : time) : bool := ((mo t - m) mod 12 <? 3)%Z.
(** dates within one month of the month of l *)
Definition around (l t : time) : bool := (Z.abs (tmonth t - tmonth l) <=? 1)%Z.
(** the in-season samples that month_to_season keeps: the last one is dropped for DJF, the first one for NDJ *)
Definition kept (s : string) (m : Z) (xs : list (time * (nat -> fl))) : list (time * (nat -> fl)) :=
  let l := filter (fun e => in_season m (fst e)) xs in
  if String.eqb s "DJF" then removelast l else if String.eqb s "NDJ" then tl l else l.
(** difference that is missing when either side is *)
Definition minus (a b : fl) : fl := match a, b with Fin x, Fin y => Fin (x - y) | _, _ => NaN end.
