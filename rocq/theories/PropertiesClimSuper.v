(** C137: superposition, order, distance and independence of the elements in climatologies.
    [combine3 c1 c2], [below] and [within e] (SpecSuper.v) relate values; [inputs2], [inputs3], [each2], [each3] (SpecClimSuper.v)
    relate records with the same dates value by value. *)
From Coq Require Import Reals List Bool Arith ZArith Lra Lia String.
From Verif Require Import PyBase Num NumFacts ArrFacts Calendar CalendarFacts SpecClim Climat ClimFacts ClimApi ClimLong ClimKeys ClimKeysApi ClimSeason ClimM2S ClimAnom ClimMore ClimZero ClimDemo
  SpecUnits SpecSuper SpecClimSuper ClimSuper ClimSuperApi PropertiesClimat.
Import ListNotations.
Local Open Scope R_scope.

(** C137.  If u = c1 x + c2 y, gaps being the same in all three records, then averages, climatologies, season means and anomalies of u
    are c1 times those of x plus c2 times those of y, with the same labels; or all three calls raise the same exception. *)
Theorem C137_superposition :
  forall c infer_freq empty_exc c1 c2 x y u, inputs3 (combine3 c1 c2) x y u ->
  (forall freq td, outcomes3 (each3 (width (inp x)) (combine3 c1 c2)) (calendar_average c infer_freq x freq td) (calendar_average c infer_freq y freq td) (calendar_average c infer_freq u freq td)) /\
  (forall freq custom td, outcomes3 (clim3 (width (inp x)) (combine3 c1 c2)) (climatology_average c infer_freq empty_exc x freq custom td)
     (climatology_average c infer_freq empty_exc y freq custom td) (climatology_average c infer_freq empty_exc u freq custom td)) /\
  (forall season td, outcomes3 (each3 (width (inp x)) (combine3 c1 c2)) (month_to_season c empty_exc x season td) (month_to_season c empty_exc y season td) (month_to_season c empty_exc u season td)) /\
  (forall freq td, outcomes3 (each3 (width (inp x)) (combine3 c1 c2)) (climate_anomaly c infer_freq empty_exc x freq td) (climate_anomaly c infer_freq empty_exc y freq td) (climate_anomaly c infer_freq empty_exc u freq td)).
Proof.
  intros c i e c1 c2 x y u H.
  exact (conj (fun f t => cal3 c i c1 c2 x y u f t H) (conj (fun f m t => clim3_ok c i e c1 c2 x y u f m t H) (conj (fun s t => m2s3 c e c1 c2 x y u s t H) (fun f t => anom3 c i e c1 c2 x y u f t H)))).
Qed.
Print Assumptions C137_superposition.

(** C137.  If no value of x exceeds the value of y at the same place and date, no average of x exceeds that of y. *)
Theorem C137_order :
  forall c infer_freq empty_exc x y, inputs2 (fun _ => below) x y ->
  (forall freq td, outcomes (each2 (width (inp x)) (fun _ => below)) (calendar_average c infer_freq x freq td) (calendar_average c infer_freq y freq td)) /\
  (forall freq custom td, outcomes (clim2 (width (inp x)) (fun _ => below)) (climatology_average c infer_freq empty_exc x freq custom td) (climatology_average c infer_freq empty_exc y freq custom td)) /\
  (forall season td, outcomes (each2 (width (inp x)) (fun _ => below)) (month_to_season c empty_exc x season td) (month_to_season c empty_exc y season td)).
Proof.
  intros c i e x y H.
  exact (conj (fun f t => cal2 c i (fun _ => below) Rle2 below_to (fun _ => below_nan) below_of Rle2_avg Rle2_zero x y f t H)
        (conj (fun f m t => clim2_ok c i e (fun _ => below) Rle2 below_to (fun _ => below_nan) below_of Rle2_avg Rle2_zero x y f m t H)
              (fun s t => m2s2 c e (fun _ => below) Rle2 below_to (fun _ => below_nan) below_of Rle2_avg Rle2_zero x y s t H))).
Qed.
Print Assumptions C137_order.

(** C137.  Errors of at most d in the data make errors of at most d in the averages. *)
Theorem C137_distance :
  forall c infer_freq empty_exc d x y, 0 <= d -> inputs2 (fun _ => within d) x y ->
  (forall freq td, outcomes (each2 (width (inp x)) (fun _ => within d)) (calendar_average c infer_freq x freq td) (calendar_average c infer_freq y freq td)) /\
  (forall freq custom td, outcomes (clim2 (width (inp x)) (fun _ => within d)) (climatology_average c infer_freq empty_exc x freq custom td) (climatology_average c infer_freq empty_exc y freq custom td)) /\
  (forall season td, outcomes (each2 (width (inp x)) (fun _ => within d)) (month_to_season c empty_exc x season td) (month_to_season c empty_exc y season td)).
Proof.
  intros c i e d x y D H.
  exact (conj (fun f t => cal2 c i (fun _ => within d) (Rnear d) (near_to d) (fun _ => near_nan d) (near_of d) (Rnear_avg d) (fun k => Rnear_zero d k D) x y f t H)
        (conj (fun f m t => clim2_ok c i e (fun _ => within d) (Rnear d) (near_to d) (fun _ => near_nan d) (near_of d) (Rnear_avg d) (fun k => Rnear_zero d k D) x y f m t H)
              (fun s t => m2s2 c e (fun _ => within d) (Rnear d) (near_to d) (fun _ => near_nan d) (near_of d) (Rnear_avg d) (fun k => Rnear_zero d k D) x y s t H))).
Qed.
Print Assumptions C137_distance.

(** C137.  Element k0 (a grid point, or a variable's value at one) of every result depends only on the data of element k0, as long as gaps stay where
    they are. *)
Theorem C137_elements :
  forall c infer_freq empty_exc k0 x y, inputs2 (agree_at k0) x y ->
  (forall freq td, outcomes (each2 (width (inp x)) (agree_at k0)) (calendar_average c infer_freq x freq td) (calendar_average c infer_freq y freq td)) /\
  (forall freq custom td, outcomes (clim2 (width (inp x)) (agree_at k0)) (climatology_average c infer_freq empty_exc x freq custom td) (climatology_average c infer_freq empty_exc y freq custom td)) /\
  (forall season td, outcomes (each2 (width (inp x)) (agree_at k0)) (month_to_season c empty_exc x season td) (month_to_season c empty_exc y season td)) /\
  (forall freq td, outcomes (each2 (width (inp x)) (agree_at k0)) (climate_anomaly c infer_freq empty_exc x freq td) (climate_anomaly c infer_freq empty_exc y freq td)).
Proof.
  intros c i e k0 x y H.
  exact (conj (fun f t => cal2 c i (agree_at k0) (Rsame k0) (same_to k0) (same_nan k0) (same_of k0) (Rsame_avg k0) (Rsame_zero k0) x y f t H)
        (conj (fun f m t => clim2_ok c i e (agree_at k0) (Rsame k0) (same_to k0) (same_nan k0) (same_of k0) (Rsame_avg k0) (Rsame_zero k0) x y f m t H)
        (conj (fun s t => m2s2 c e (agree_at k0) (Rsame k0) (same_to k0) (same_nan k0) (same_of k0) (Rsame_avg k0) (Rsame_zero k0) x y s t H)
              (fun f t => anom2 c i e (agree_at k0) (Rsame k0) (same_to k0) (same_nan k0) (same_of k0) (Rsame_avg k0) (Rsame_zero k0) (Rsame_add k0) (Rsame_opp k0) x y f t H)))).
Qed.
Print Assumptions C137_elements.

(** ** the condition on gaps is needed *)
Definition gap_at (h : Z) : time := mkTime 2000 1 1 (3600 * h).
Definition gap_record (a b d : fl) : input fl := as_input 1 [(gap_at 0, fun _ => a); (gap_at 6, fun _ => b); (gap_at 12, fun _ => d)].
Lemma gap_valid a b d : all_valid Greg (samples (inp (gap_record a b d))).
Proof. unfold all_valid. cbn. repeat (constructor; [unfold valid; vm_compute; intuition discriminate|]). constructor. Qed.
Lemma gap_complete ra b d : forall t, same_period Day t (gap_at 0) = true -> complete Day 1 (samples (inp (gap_record (Fin ra) b d))) t.
Proof. intros t S. apply (present_complete Day 1 _ (gap_at 0, fun _ => Fin ra)); [left; reflexivity|intros k _; exists ra; reflexivity|exact S]. Qed.
Lemma gap_day ra b d : tidy b -> tidy d -> exists out e, calendar_average Greg regular (gap_record (Fin ra) b d) "day" None = Ok out /\ In e out /\ same_period Day (fst e) (gap_at 0) = true /\ snd e 0%nat = mean_present [Fin ra; b; d].
Proof.
  intros Tb Td. pose (x := gap_record (Fin ra) b d).
  assert (V : all_valid Greg (samples (inp x))) by apply gap_valid.
  assert (Ti : all_tidy (width (inp x)) (samples (inp x))). { unfold all_tidy. cbn. constructor; [intros k _; right; exists ra; reflexivity|]. constructor; [intros k _; exact Tb|]. constructor; [intros k _; exact Td|]. constructor. }
  assert (S : short "day" Day) by (unfold short; tauto).
  assert (H0 : In (gap_at 0, fun _ : nat => Fin ra) (samples (inp x))) by (left; reflexivity).
  assert (C0 : complete Day (width (inp x)) (samples (inp x)) (gap_at 0)) by (apply gap_complete; reflexivity).
  assert (P : forall s, In s (samples (inp x)) -> pnum Greg Day (fst s) = pnum Greg Day (gap_at 0)). { intros s [<-|[<-|[<-|[]]]]; reflexivity. }
  destruct (C58_outcome Greg regular x "day" Day None S V Ti ltac:(cbn; lia) (as_input_accepted Greg 1 (samples (inp x)) None ltac:(cbn; lia) (or_introl eq_refl))) as (_ & _ & Q).
  destruct (Q _ H0 C0) as [out E].
  { intros s u t Hs Hu _ _ Vt Ht. apply gap_complete. unfold all_valid in V. rewrite Forall_forall in V. apply (same_period_pnum Greg); [auto|exact (V _ H0)|].
    pose proof (pnum_mono Greg Day (fst s) t (V _ Hs) Vt (proj1 Ht)) as P1. pose proof (pnum_mono Greg Day t (fst u) Vt (V _ Hu) (proj2 Ht)) as P2. rewrite (P s Hs) in P1. rewrite (P u Hu) in P2. apply Z.le_antisymm; assumption. }
  destruct (C58_hours_days_months Greg regular x "day" Day None out S V Ti E) as (F & _ & R & _). destruct (proj1 (R _ H0) C0) as (j & Hj & Sj).
  exists out, (nth j out (gap_at 0, fun _ => NaN)). split; [exact E|]. split; [apply nth_In; exact Hj|]. specialize (Sj (gap_at 0, fun _ => NaN)). split; [exact Sj|].
  rewrite Forall_forall in F. destruct (F _ (nth_In out (gap_at 0, fun _ => NaN) Hj)) as (_ & K). rewrite (proj1 (K 0%nat ltac:(cbn; lia))). f_equal. set (l := fst _) in *. clearbody l.
  unfold in_period. cbn [samples inp x gap_record as_input]. cbn [filter fst].
  replace (same_period Day l (gap_at 6)) with true by (symmetry; exact Sj). replace (same_period Day l (gap_at 12)) with true by (symmetry; exact Sj). cbn [fst] in Sj. rewrite Sj. reflexivity.
Qed.
(** C137.  With different gaps it fails: u = x + y value by value (missing where x is), yet the daily mean of u is 1 while those of x and y are both 1. *)
Theorem C137_gaps_refuted :
  exists x y u : input fl, all_valid Greg (samples (inp x)) /\
    Forall2 (fun s s' => fst s = fst s') (samples (inp x)) (samples (inp y)) /\
    Forall2 (fun p s => fst s = fst (fst p) /\ snd s 0%nat = fl_add (snd (fst p) 0%nat) (snd (snd p) 0%nat)) (combine (samples (inp x)) (samples (inp y))) (samples (inp u)) /\
    exists ox oy ou ex ey eu,
      calendar_average Greg regular x "day" None = Ok ox /\ calendar_average Greg regular y "day" None = Ok oy /\ calendar_average Greg regular u "day" None = Ok ou /\
      In ex ox /\ In ey oy /\ In eu ou /\ snd ex 0%nat = Fin 1 /\ snd ey 0%nat = Fin 1 /\ snd eu 0%nat = Fin 1.
Proof.
  exists (gap_record (Fin 1) NaN (Fin 1)), (gap_record (Fin 0) (Fin 3) (Fin 0)), (gap_record (Fin 1) NaN (Fin 1)).
  split; [apply gap_valid|]. split; [repeat constructor|]. split.
  { cbn. repeat constructor; cbn; f_equal; lra. }
  destruct (gap_day 1 NaN (Fin 1) (or_introl eq_refl) (or_intror (ex_intro _ 1 eq_refl))) as (ox & ex & Ex & Ix & _ & Vx).
  destruct (gap_day 0 (Fin 3) (Fin 0) (or_intror (ex_intro _ 3 eq_refl)) (or_intror (ex_intro _ 0 eq_refl))) as (oy & ey & Ey & Iy & _ & Vy).
  exists ox, oy, ox, ex, ey, ex.
  assert (M1 : mean_present [Fin 1; NaN; Fin 1] = Fin 1) by (cbn; f_equal; unfold avg, rsum; cbn; field).
  assert (M2 : mean_present [Fin 0; Fin 3; Fin 0] = Fin 1) by (cbn; f_equal; unfold avg, rsum; cbn; field).
  rewrite M1 in Vx. rewrite M2 in Vy. tauto.
Qed.
Print Assumptions C137_gaps_refuted.

(** ** the hypotheses are met *)
Definition scaled (a b : R) : input fl := as_input 2 (monthly 2020 2 (fun q k => Fin (a * (IZR q + INR k) + b))).
Lemma each3_map {A L} (w : nat) (Q : fl -> fl -> fl -> Prop) (t : A -> L) (f g h : A -> nat -> fl) l : (forall a k, Q (f a k) (g a k) (h a k)) -> each3 w Q (map (fun a => (t a, f a)) l) (map (fun a => (t a, g a)) l) (map (fun a => (t a, h a)) l).
Proof. intros H. induction l as [|a l IH]; cbn; [constructor|]. constructor; auto. Qed.
Lemma each2_map {A L} (w : nat) (Q : nat -> fl -> fl -> Prop) (t : A -> L) (f g : A -> nat -> fl) l : (forall a k, Q k (f a k) (g a k)) -> each2 w Q (map (fun a => (t a, f a)) l) (map (fun a => (t a, g a)) l).
Proof. intros H. unfold each2. induction l as [|a l IH]; cbn; constructor; [split; [reflexivity|intros k _; apply H]|exact IH]. Qed.
Example C137_example :
  inputs3 (combine3 2 (-1)) ex_m (scaled 3 1) (scaled (-1) (-1)) /\ inputs2 (fun _ => below) ex_m (scaled 1 4) /\ inputs2 (fun _ => within 4) ex_m (scaled 1 4) /\
  exists out out', calendar_average Greg regular ex_m "season" None = Ok out /\ calendar_average Greg regular (scaled 1 4) "season" None = Ok out' /\ out <> [] /\ each2 2 (fun _ => below) out out' /\ each2 2 (fun _ => within 4) out out'.
Proof.
  assert (B : inputs2 (fun _ => below) ex_m (scaled 1 4)). { repeat split. apply each2_map. intros q k. right. eexists _, _. repeat split. lra. }
  assert (D : inputs2 (fun _ => within 4) ex_m (scaled 1 4)). { repeat split. apply each2_map. intros q k. right. eexists _, _. repeat split. apply Rabs_le. lra. }
  split. { repeat split. apply each3_map. intros q k. right. eexists _, _. repeat split. f_equal. lra. }
  split; [exact B|]. split; [exact D|]. destruct C59_example as [out E]. exists out.
  pose proof (proj1 (C137_order Greg regular KeyError _ _ B) "season"%string None) as O1. pose proof (proj1 (C137_distance Greg regular KeyError 4 _ _ ltac:(lra) D) "season"%string None) as O2.
  rewrite E in O1, O2. destruct (calendar_average Greg regular (scaled 1 4) "season" None) as [out'|e]; [|destruct O1]. exists out'. repeat split; auto.
  destruct (C59_seasons_years Greg regular ex_m "season" (Quarter 12) None out (or_introl (conj eq_refl eq_refl)) ex_valid ex_all_tidy ltac:(cbn; lia) E) as (_ & _ & _ & _ & K & _). exact K.
Qed.
Definition one_changed : input fl := as_input 2 (monthly 2020 2 (fun q k => match k with O => Fin (IZR q + INR k) | _ => Fin (IZR (q * q)) end)).
Example C137_elements_example : inputs2 (agree_at 0) ex_m one_changed /\ exists out out', climate_anomaly Greg regular KeyError ex_m "month" None = Ok out /\ climate_anomaly Greg regular KeyError one_changed "month" None = Ok out' /\ each2 2 (agree_at 0) out out'.
Proof.
  assert (B : inputs2 (agree_at 0) ex_m one_changed). { repeat split. apply each2_map. intros q [|k]; right; eexists _, _; (split; [reflexivity|]; split; [reflexivity|]); intros K; [reflexivity|discriminate K]. }
  split; [exact B|]. destruct C62_example as (out & E & _). exists out.
  pose proof (proj2 (proj2 (proj2 (C137_elements Greg regular KeyError 0 _ _ B))) "month"%string None) as O. rewrite E in O. destruct (climate_anomaly Greg regular KeyError one_changed "month" None) as [out'|e]; [|destruct O]. exists out'. repeat split; auto.
Qed.
