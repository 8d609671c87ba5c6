(** C146: month_to_season and calendar_average by season on the same monthly record.  [whole_years y0 n xs]: one date in each month
    of n years from January of y0; [no_gaps]: numbers everywhere; [spells s m]: s is DJF, JFM, ..., its first month being m;
    [around l]: within one month of l; [Quarter 12]: the seasons December-February, March-May, ... *)
From Coq Require Import Reals List Bool Arith ZArith Lra Lia String.
From Verif Require Import PyBase Num NumFacts Calendar CalendarFacts SpecClim Climat ClimFacts ClimApi ClimM2S ClimDemo SpecClimPair ClimPair ClimPairApi.
Import ListNotations.
Local Open Scope R_scope.
Local Notation smp := (list (time * (nat -> fl))).

(** C146.  For the four standard seasons both functions average the same samples - those of the three months, of two in a first
    winter that lacks its December: month_to_season all alike, calendar_average in proportion to the lengths of the months. *)
Theorem C146_means :
  forall c infer_freq empty_exc x s m td td' y0 n, let xs : smp := samples (inp x) in let w := width (inp x) in
  all_valid c xs -> no_gaps w xs -> (0 < w)%nat -> whole_years y0 n xs -> spells s m -> (m mod 3 = 0)%Z ->
  (exists nm, time_info x td = Ok nm) -> accepted c infer_freq x td' ->
  exists out out', month_to_season c empty_exc x s td = Ok out /\ calendar_average c infer_freq x "season" td' = Ok out' /\ List.length out = n /\
    forall j, (j < n)%nat -> let l := mkTime (y0 + Z.of_nat j) (m mod 12 + 1) 1 0 in
      exists e e', nth_error out j = Some e /\ fst e = l /\ In e' out' /\ same_period (Quarter 12) (fst e') l = true /\
        forall k, (k < w)%nat -> snd e k = Fin (avg (plain_values k (season_of l xs))) /\ snd e' k = Fin (wavg (day_values c k (season_of l xs))).
Proof. exact two_means. Qed.
Print Assumptions C146_means.

(** C146.  They agree on calendars of 360 days. *)
Theorem C146_equal_months :
  forall infer_freq empty_exc x s m td td' y0 n, let xs : smp := samples (inp x) in let w := width (inp x) in
  all_valid D360 xs -> no_gaps w xs -> (0 < w)%nat -> whole_years y0 n xs -> spells s m -> (m mod 3 = 0)%Z ->
  (exists nm, time_info x td = Ok nm) -> accepted D360 infer_freq x td' ->
  exists out out', month_to_season D360 empty_exc x s td = Ok out /\ calendar_average D360 infer_freq x "season" td' = Ok out' /\ List.length out = n /\
    Forall (fun e => exists e', In e' out' /\ same_period (Quarter 12) (fst e') (fst e) = true /\ forall k, (k < w)%nat -> snd e k = snd e' k) out.
Proof. exact pair_360. Qed.
Print Assumptions C146_equal_months.

(** C146.  On any calendar they differ by at most 3/118 of the range of the months averaged. *)
Theorem C146_close :
  forall c infer_freq empty_exc x s m td td' y0 n, let xs : smp := samples (inp x) in let w := width (inp x) in
  all_valid c xs -> no_gaps w xs -> (0 < w)%nat -> whole_years y0 n xs -> spells s m -> (m mod 3 = 0)%Z ->
  (exists nm, time_info x td = Ok nm) -> accepted c infer_freq x td' ->
  exists out out', month_to_season c empty_exc x s td = Ok out /\ calendar_average c infer_freq x "season" td' = Ok out' /\ List.length out = n /\
    Forall (fun e => exists e', In e' out' /\ same_period (Quarter 12) (fst e') (fst e) = true /\
      forall k a b, (k < w)%nat -> (forall z, In z xs -> around (fst e) (fst z) = true -> a <= value (snd z k) <= b) ->
        exists p q, snd e k = Fin p /\ snd e' k = Fin q /\ Rabs (p - q) <= 3 / 118 * (b - a)) out.
Proof. exact pair_close. Qed.
Print Assumptions C146_close.

(** C146.  They do not agree in general: on every other calendar the spring means are equal only if April is midway between March
    and May. *)
Theorem C146_agree_refuted :
  forall c infer_freq empty_exc x td td' y0 n, let xs : smp := samples (inp x) in let w := width (inp x) in
  c <> D360 -> all_valid c xs -> no_gaps w xs -> (0 < w)%nat -> whole_years y0 n xs -> (exists nm, time_info x td = Ok nm) -> accepted c infer_freq x td' ->
  exists out out', month_to_season c empty_exc x "MAM" td = Ok out /\ calendar_average c infer_freq x "season" td' = Ok out' /\ List.length out = n /\
    Forall (fun e => exists e' z3 z4 z5, In e' out' /\ same_period (Quarter 12) (fst e') (fst e) = true /\ In z3 xs /\ In z4 xs /\ In z5 xs /\
      (tmonth (fst z3) = 12 * yr (fst e) + 2 /\ tmonth (fst z4) = 12 * yr (fst e) + 3 /\ tmonth (fst z5) = 12 * yr (fst e) + 4)%Z /\
      forall k, (k < w)%nat -> exists a b d, snd z3 k = Fin a /\ snd z4 k = Fin b /\ snd z5 k = Fin d /\
        snd e k = Fin ((a + b + d) / 3) /\ snd e' k = Fin ((31 * a + 30 * b + 31 * d) / 92) /\ (snd e k = snd e' k <-> a + d = 2 * b)) out.
Proof. exact pair_spring. Qed.
Print Assumptions C146_agree_refuted.

(** one year of monthly data, 1 in April and 0 otherwise: on the Gregorian calendar the spring of month_to_season is 1/3, that of
    calendar_average 30/92; on the calendar of 360 days all the hypotheses hold as well. *)
Definition april (q : Z) (k : nat) : fl := Fin (if (q mod 12 =? 3)%Z then 1 else 0).
Definition one_year : input fl := as_input 1 (monthly 2001 1 april).
Example C146_example :
  let xs : smp := samples (inp one_year) in
  (forall c, all_valid c xs) /\ no_gaps (width (inp one_year)) xs /\ whole_years 2001 1 xs /\ spells "DJF" 12 /\ spells "MAM" 3 /\
  (exists nm, time_info one_year None = Ok nm) /\ (forall c, accepted c regular one_year None) /\
  exists out out' e e', month_to_season Greg KeyError one_year "MAM" None = Ok out /\ calendar_average Greg regular one_year "season" None = Ok out' /\
    In e out /\ In e' out' /\ snd e 0%nat = Fin (1 / 3) /\ snd e' 0%nat = Fin (30 / 92).
Proof.
  intros xs. assert (V : forall c, all_valid c xs) by (intros c; apply monthly_valid).
  assert (G : no_gaps (width (inp one_year)) xs).
  { unfold no_gaps. apply Forall_forall. intros s Hs k _. apply monthly_inv in Hs. destruct Hs as (q & _ & ->). cbn [snd]. unfold april. eauto. }
  assert (W : whole_years 2001 1 xs) by (apply monthly_whole; lia).
  assert (A : forall c, accepted c regular one_year None) by (intros c; apply as_input_accepted; [rewrite monthly_length; lia|left; reflexivity]).
  assert (T : exists nm, time_info one_year None = Ok nm) by apply (A Greg).
  split; [exact V|]. split; [exact G|]. split; [exact W|]. split; [split; [lia|reflexivity]|]. split; [split; [lia|reflexivity]|]. split; [exact T|]. split; [exact A|].
  destruct (C146_agree_refuted Greg regular KeyError one_year None None 2001 1 ltac:(discriminate) (V Greg) G ltac:(cbn; lia) W T (A Greg)) as (out & out' & E & E' & L & F).
  destruct out as [|e [|? ?]]; try discriminate L. inversion_clear F as [|? ? (e' & z3 & z4 & z5 & I & _ & I3 & I4 & I5 & (T3 & T4 & T5) & K) _].
  destruct (K 0%nat ltac:(cbn; lia)) as (a & b & d & Ha & Hb & Hd & Q & Q' & _). clear K.
  exists [e], out', e, e'. split; [exact E|]. split; [exact E'|]. split; [left; reflexivity|]. split; [exact I|]. enough (Fin ((a + b + d) / 3) = Fin (1 / 3) /\ Fin ((31 * a + 30 * b + 31 * d) / 92) = Fin (30 / 92)) as [R1 R2] by (split; [exact (eq_trans Q R1)|exact (eq_trans Q' R2)]).
  assert (P : forall z v, In z xs -> snd z 0%nat = Fin v -> v = if (tmonth (fst z) mod 12 =? 3)%Z then 1 else 0).
  { intros z v Hz Hv. apply monthly_inv in Hz. destruct Hz as (q & _ & ->). cbn [fst snd] in *. rewrite first_month. unfold april in Hv. injection Hv as <-. reflexivity. }
  rewrite (P z3 a I3 Ha), (P z4 b I4 Hb), (P z5 d I5 Hd), T3, T4, T5. clear. match goal with |- context [(12 * ?y + 2)%Z] => generalize y end. intros y.
  replace ((12 * y + 2) mod 12)%Z with 2%Z by lia. replace ((12 * y + 3) mod 12)%Z with 3%Z by lia. replace ((12 * y + 4) mod 12)%Z with 4%Z by lia.
  cbn [Z.eqb Pos.eqb]. split; apply (f_equal Fin); lra.
Qed.
