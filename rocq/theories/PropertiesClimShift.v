(** C144: whole cycles of the calendar.  [repeats c n]: n years are whole cycles of the calendar (400 years in the Gregorian, 4 in the
    Julian calendar, any number in the calendars whose years are all alike); [moved n], [moved_input n] and [moved_out n] put the
    same values n years later; all in SpecClimShift.v. *)
From Coq Require Import Reals List Bool Arith ZArith Lia String.
From Verif Require Import PyBase Num Calendar Climat SpecClim SpecClimShift ClimShift ClimKeys ClimDemo.
Import ListNotations.
Local Open Scope Z_scope.

(** C144.  calendar_average of the moved record is the moved average: the same values bit for bit in any arithmetic, every label n years
    later; a call that fails fails the same way. *)
Theorem C144_calendar_average :
  forall (T : Type) (N : Num T) c infer_freq n, repeats c n -> (forall ts, infer_freq (map (later n) ts) = infer_freq ts) ->
  forall (x : input T) freq td,
    calendar_average c infer_freq (moved_input n x) freq td = rmap (moved n) (calendar_average c infer_freq x freq td).
Proof. exact @calendar_later. Qed.
Print Assumptions C144_calendar_average.

Theorem C144_month_to_season :
  forall (T : Type) (N : Num T) c empty_exc n, repeats c n ->
  forall (x : input T) season td,
    month_to_season c empty_exc (moved_input n x) season td = rmap (moved n) (month_to_season c empty_exc x season td).
Proof. exact @m2s_later. Qed.
Print Assumptions C144_month_to_season.

(** C144.  Climatologies have the same values, and labels n years later if n is even; if n is odd (only possible in the calendars whose
    years are all alike) the labels move by n - 1, n or n + 1 years, because the median year is rounded to an even year. *)
Theorem C144_climatology :
  forall (T : Type) (N : Num T) c infer_freq empty_exc n, repeats c n -> (forall ts, infer_freq (map (later n) ts) = infer_freq ts) ->
  forall (x : input T), four_digits (samples (inp x)) -> four_digits (moved n (samples (inp x))) ->
  exists n', n - 1 <= n' <= n + 1 /\ (Z.even n = true -> n' = n) /\ forall freq custom td,
    climatology_average c infer_freq empty_exc (moved_input n x) freq custom td =
    rmap (moved_out n') (climatology_average c infer_freq empty_exc x freq custom td).
Proof. exact @clim_later. Qed.
Print Assumptions C144_climatology.

Theorem C144_anomaly :
  forall (T : Type) (N : Num T) c infer_freq empty_exc n, repeats c n -> (forall ts, infer_freq (map (later n) ts) = infer_freq ts) ->
  forall (x : input T) freq td, four_digits (samples (inp x)) -> four_digits (moved n (samples (inp x))) ->
    climate_anomaly c infer_freq empty_exc (moved_input n x) freq td = rmap (moved n) (climate_anomaly c infer_freq empty_exc x freq td).
Proof. exact @anom_later. Qed.
Print Assumptions C144_anomaly.

(** four quarterly values from July 2000 on: in the Gregorian calendar moved by 400 years (both labelled with the even one of their two years),
    and in the calendar without leap years moved by one year, where the label moves by two *)
Example C144_example :
  let xs := [(mkTime 2000 7 1 0, fun _ : nat => Fin 1); (mkTime 2000 10 1 0, fun _ => Fin 2); (mkTime 2001 1 1 0, fun _ => NaN); (mkTime 2001 4 1 0, fun _ => Fin 3)] in
  let x := as_input 1 xs in
  repeats Greg 400 /\ ~ repeats Greg 100 /\ four_digits (samples (inp x)) /\ four_digits (moved 400 (samples (inp x))) /\
  (forall ts, regular (map (later 400) ts) = regular ts) /\
  label_year (map fst xs) 2000 /\ label_year (map fst (moved 400 xs)) 2400 /\
  repeats NoLeap 1 /\ label_year (map fst (moved 1 xs)) 2002.
Proof.
  cbv zeta. split; [exists 1; reflexivity|]. split; [intros [k E]; cbn [cycle] in E; lia|].
  split; [apply four_all; cbn [as_input inp samples]; do 4 (constructor; [cbn [fst yr]; lia|]); constructor|].
  split; [apply four_all; unfold moved, later; cbn [as_input inp samples map fst snd yr]; do 4 (constructor; [cbn [fst yr]; lia|]); constructor|].
  split; [reflexivity|].
  assert (L : forall ts y, ts <> [] -> round_half (median2 (map yr ts)) = y -> label_year ts y) by (intros ts y H E; apply label_year_iff; auto).
  split; [apply L; [discriminate|vm_compute; reflexivity]|]. split; [apply L; [discriminate|vm_compute; reflexivity]|].
  split; [exists 1; reflexivity|]. apply L; [discriminate|vm_compute; reflexivity].
Qed.
