(** C123: calendar averages of a record cut in two. *)
From Coq Require Import List Bool Arith ZArith Lia String.
From Verif Require Import PyBase Num NumFacts NumB64 Calendar CalendarFacts SpecClim Climat ClimFacts ClimApi ClimLong ClimMore ClimDemo SpecSplit ClimSplit PropertiesClimat.
Import ListNotations.
Local Open Scope Z_scope.

(** C123, by hour, day or month, in any arithmetic: if the cut lies between two periods, the averages of the whole record are those
    of the parts, one after the other, provided these are adjacent; otherwise ValueError.  A part without a complete period
    (IndexError) adds nothing; a gap inside a part is a gap of the whole. *)
Theorem C123_hours_days_months :
  forall (T : Type) (N : Num T) c infer_freq x1 x2 x freq f td,
  isnan (nnan : T) = true -> short freq f -> (0 < width (inp x))%nat -> joined x1 x2 x -> cut_at c f (samples (inp x1)) (samples (inp x2)) ->
  usable c infer_freq x1 td -> usable c infer_freq x2 td -> usable c infer_freq x td ->
  match calendar_average c infer_freq x1 freq td, calendar_average c infer_freq x2 freq td with
  | Err IndexError, r => calendar_average c infer_freq x freq td = r
  | r, Err IndexError => calendar_average c infer_freq x freq td = r
  | Ok o1, Ok o2 => forall d, (adjacent c f (fst (last o1 d)) (fst (hd d o2)) -> calendar_average c infer_freq x freq td = Ok (o1 ++ o2)) /\
                              (~ adjacent c f (fst (last o1 d)) (fst (hd d o2)) -> calendar_average c infer_freq x freq td = Err ValueError)
  | _, _ => calendar_average c infer_freq x freq td = Err ValueError
  end.
Proof. intros T N c i x1 x2 x freq f td H. exact (c123_short c i H x1 x2 x freq f td). Qed.
Print Assumptions C123_hours_days_months.

(** C123, by season or year: the averages of the first part, NaN for each period between the parts, the averages of the second. *)
Theorem C123_seasons_years :
  forall (T : Type) (N : Num T) c infer_freq x1 x2 x freq f td,
  isnan (nnan : T) = true -> long freq f -> (0 < width (inp x))%nat -> joined x1 x2 x -> cut_at c f (samples (inp x1)) (samples (inp x2)) ->
  usable c infer_freq x1 td -> usable c infer_freq x2 td -> usable c infer_freq x td ->
  match calendar_average c infer_freq x1 freq td, calendar_average c infer_freq x2 freq td with
  | Ok o1, Ok o2 => exists gap, calendar_average c infer_freq x freq td = Ok (o1 ++ gap ++ o2) /\ Forall (fun e => forall k, snd e k = nnan) gap /\
                                forall d, adjacent c f (fst (last o1 d)) (fst (hd d o2)) -> gap = []
  | Err _, r => calendar_average c infer_freq x freq td = r
  | r, Err _ => calendar_average c infer_freq x freq td = r
  end.
Proof. intros T N c i x1 x2 x freq f td H. exact (c123_long c i H x1 x2 x freq f td). Qed.
Print Assumptions C123_seasons_years.

(** the arithmetics of the model qualify: real numbers with NaN, double precision *)
Example C123_reals : isnan (nnan : fl) = true. Proof. reflexivity. Qed.
Example C123_doubles L : isnan (Num := NumB L) (nnan (Num := NumB L)) = true. Proof. reflexivity. Qed.

(** 2020 and 2021, cut at new year *)
Definition ex_2020 : input fl := as_input 2 (monthly 2020 1 ex_v).
Definition ex_2021 : input fl := as_input 2 (monthly 2021 1 ex_v).
Lemma ex_usable w y n v : (0 < n)%nat -> usable Greg regular (as_input w (monthly y n v)) None.
Proof. intros H. split; [apply (monthly_valid Greg)|]. apply (as_input_accepted Greg w); [rewrite monthly_length; lia|left; reflexivity]. Qed.
Lemma ex_joined : joined ex_2020 ex_2021 ex_m.
Proof. split; [reflexivity|]. split; [reflexivity|]. unfold ex_2020, ex_2021, ex_m, as_input, monthly. cbn [inp samples]. change (12 * (2020 + Z.of_nat 2) - 1) with 24263. change (12 * 2020) with 24240. rewrite (between_split 24240 24252 24263) by lia. apply map_app. Qed.
Lemma ex_cut : cut_at Greg Year (samples (inp ex_2020)) (samples (inp ex_2021)).
Proof.
  intros s u Hs Hu. apply monthly_inv in Hs, Hu. destruct Hs as (q & Hq & ->). destruct Hu as (q' & Hq' & ->). cbn [fst]. split.
  - apply instant_lt; try apply first_valid. rewrite !first_month. lia.
  - unfold first_of. cbn [same_period yr]. apply Z.eqb_neq. lia.
Qed.
Example C123_example : exists o1 o2 gap,
  calendar_average Greg regular ex_2020 "year" None = Ok o1 /\ calendar_average Greg regular ex_2021 "year" None = Ok o2 /\
  calendar_average Greg regular ex_m "year" None = Ok (o1 ++ gap ++ o2).
Proof.
  assert (Yr : forall y, exists o, calendar_average Greg regular (as_input 2 (monthly y 1 ex_v)) "year" None = Ok o).
  { intros y. destruct (C59_outcome Greg regular (as_input 2 (monthly y 1 ex_v)) "year" Year None (or_intror (conj eq_refl eq_refl)) (monthly_valid _ _ _ _) (monthly_tidy _ _ _ _ ex_tidy) ltac:(cbn; lia)) as (_ & Q); [apply as_input_accepted; [rewrite monthly_length; lia|auto]|].
    apply (Q (first_of (12 * y), ex_v (12 * y))); [apply monthly_In; lia|]. apply (monthly_complete Greg); [apply ex_fin|apply first_valid|]. cbn [fst]. rewrite first_month. lia. }
  pose proof (C123_seasons_years fl NumFl Greg regular ex_2020 ex_2021 ex_m "year" Year None eq_refl (or_intror (conj eq_refl eq_refl)) ltac:(cbn; lia) ex_joined ex_cut
    (ex_usable 2 2020 1 ex_v ltac:(lia)) (ex_usable 2 2021 1 ex_v ltac:(lia)) (ex_usable 2 2020 2 ex_v ltac:(lia))) as H.
  destruct (Yr 2020) as [o1 E1]. destruct (Yr 2021) as [o2 E2]. change (as_input 2 (monthly 2020 1 ex_v)) with ex_2020 in E1. change (as_input 2 (monthly 2021 1 ex_v)) with ex_2021 in E2.
  rewrite E1, E2 in H. destruct H as (gap & H & _). exists o1, o2, gap. repeat split; assumption.
Qed.
