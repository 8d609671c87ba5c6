(** C140: averaging in two steps.  [with_data x out] is the argument x holding the dates and data of [out] (SpecClimIdem.v); [coarser] and [even]
    are in SpecClimTwo.v, [rows w eq] (same labels, equal values of the w elements) in SpecClimB64.v. *)
From Coq Require Import Reals List Bool Arith ZArith Lra Lia String.
From Verif Require Import PyBase Num NumFacts Calendar CalendarFacts SpecClim Climat ClimFacts ClimApi ClimLong ClimSeason ClimDemo SpecUnits SpecClimIdem SpecClimB64 SpecClimTwo ClimRel ClimSteps PropertiesClimat.
Import ListNotations.
Local Open Scope Z_scope.
Local Notation smp := (list (time * (nat -> fl))).

(** C140.  Averaging hourly, daily or monthly averages once more by the same frequency returns them unchanged, labels included. *)
Theorem C140_again :
  forall c infer_freq x freq f td out, short freq f -> (0 < width (inp x))%nat -> all_valid c (samples (inp x)) ->
    calendar_average c infer_freq x freq td = Ok out -> check_uniform c infer_freq (map fst out) = Ok tt ->
    calendar_average c infer_freq (with_data x out) freq td = Ok out.
Proof. exact again. Qed.
Print Assumptions C140_again.

(** C140.  At least three monthly averages are always accepted as data, whatever xarray.infer_freq says of their labels. *)
Theorem C140_months_accepted :
  forall c infer_freq x td out, (0 < width (inp x))%nat -> all_valid c (samples (inp x)) ->
    calendar_average c infer_freq x "month" td = Ok out -> (3 <= List.length out)%nat -> check_uniform c infer_freq (map fst out) = Ok tt.
Proof. exact month_uniform. Qed.
Print Assumptions C140_months_accepted.

(** C140.  Seasonal and yearly averages of three or more monthly averages are those of the data, exceptions included. *)
Theorem C140_months_then_seasons :
  forall c infer_freq x freq td out, freq = "season"%string \/ freq = "year"%string -> (0 < width (inp x))%nat -> all_valid c (samples (inp x)) ->
    calendar_average c infer_freq x "month" td = Ok out -> (3 <= List.length out)%nat ->
    calendar_average c infer_freq (with_data x out) freq td = calendar_average c infer_freq x freq td.
Proof. exact (fun c i x freq td out Fr W V E L => months_first c i x freq td out Fr W V E (month_uniform c i x td out W V E L)). Qed.
Print Assumptions C140_months_then_seasons.

(** C140.  Season climatologies of monthly averages, where they exist, are those of the data. *)
Theorem C140_months_then_climatology :
  forall c infer_freq empty_exc x custom td out res, (0 < width (inp x))%nat -> all_valid c (samples (inp x)) ->
    calendar_average c infer_freq x "month" td = Ok out -> climatology_average c infer_freq empty_exc (with_data x out) "season" custom td = Ok res ->
    climatology_average c infer_freq empty_exc x "season" custom td = Ok res.
Proof. exact climatology_again. Qed.
Print Assumptions C140_months_then_climatology.

(** C140.  Hourly or daily averages averaged further give the averages of the data if all their periods hold equally many values. *)
Theorem C140_even :
  forall c infer_freq x freq f freq' td m out, short freq f -> coarser f freq' -> even f (width (inp x)) m (samples (inp x)) -> (0 < width (inp x))%nat ->
    all_valid c (samples (inp x)) -> all_tidy (width (inp x)) (samples (inp x)) ->
    calendar_average c infer_freq x freq td = Ok out -> check_uniform c infer_freq (map fst out) = Ok tt ->
    outcomes (rows (width (inp x)) eq) (calendar_average c infer_freq (with_data x out) freq' td) (calendar_average c infer_freq x freq' td).
Proof. exact equal_steps. Qed.
Print Assumptions C140_even.

(** ** three days of data *)
Definition at_hour (d h : Z) : time := mkTime 2000 1 d (3600 * h).
Definition three_days (l : list (Z * Z * R)) : input fl := as_input 1 (map (fun p => (at_hour (fst (fst p)) (snd (fst p)), fun _ => Fin (snd p))) l).
Definition in_three (l : list (Z * Z * R)) : Prop := Forall (fun p => 1 <= fst (fst p) <= 3 /\ 0 <= snd (fst p) < 24) l /\ (3 <= List.length l)%nat /\ forall d, 1 <= d <= 3 -> exists h v, In (d, h, v) l.
Lemma three_valid l : in_three l -> all_valid Greg (samples (inp (three_days l))).
Proof. intros (H & _). unfold all_valid. cbn. rewrite Forall_map. revert H. apply Forall_impl. intros [[d h] v]. cbn [fst snd]. intros H. unfold valid, at_hour. cbn [yr mo dy sec]. change (mlen Greg 2000 1) with 31. lia. Qed.
Lemma three_tidy l : all_tidy 1 (samples (inp (three_days l))).
Proof. unfold all_tidy. cbn. rewrite Forall_map. apply Forall_forall. intros p _ k _. right. exists (snd p). reflexivity. Qed.
Definition day1 : Z := pnum Greg Day (at_hour 1 0).
Lemma three_day d h : 1 <= d <= 3 -> 0 <= h < 24 -> pnum Greg Day (at_hour d h) = day1 + d - 1.
Proof.
  intros Hd Hh. assert (V : forall h, 0 <= h < 24 -> valid Greg (at_hour d h)) by (intros h' H'; unfold valid, at_hour; cbn [yr mo dy sec]; change (mlen Greg 2000 1) with 31; lia).
  assert (E : pnum Greg Day (at_hour d h) = pnum Greg Day (at_hour d 0)). { apply (same_period_pnum Greg Day); [apply V; lia|apply V; lia|]. cbn. rewrite Z.eqb_refl. reflexivity. }
  rewrite E. clear E V Hh h. assert (d = 1 \/ d = 2 \/ d = 3) as [-> | [-> | ->]] by lia; reflexivity.
Qed.
Lemma three_complete l t : in_three l -> valid Greg t -> day1 <= pnum Greg Day t <= day1 + 2 -> complete Day 1 (samples (inp (three_days l))) t.
Proof.
  intros (H & _ & Oc) Vt B. destruct (Oc (pnum Greg Day t - day1 + 1) ltac:(lia)) as (h & v & Hl). rewrite Forall_forall in H. pose proof (H _ Hl) as Hb. cbn [fst snd] in Hb.
  apply (present_complete Day 1 _ (at_hour (pnum Greg Day t - day1 + 1) h, fun _ => Fin v)).
  - cbn. apply (in_map (fun p => (at_hour (fst (fst p)) (snd (fst p)), fun _ : nat => Fin (snd p))) l _ Hl).
  - intros k _. exists v. reflexivity.
  - cbn [fst]. apply (same_period_pnum Greg); auto; [|rewrite three_day by lia; lia]. unfold valid, at_hour. cbn [yr mo dy sec]. change (mlen Greg 2000 1) with 31. lia.
Qed.
Lemma three_pnum l s : in_three l -> In s (samples (inp (three_days l))) -> day1 <= pnum Greg Day (fst s) <= day1 + 2.
Proof. intros (H & _) Hs. cbn in Hs. apply in_map_iff in Hs. destruct Hs as ([[d h] v] & <- & Hs). rewrite Forall_forall in H. specialize (H _ Hs). cbn [fst snd] in *. rewrite three_day by lia. lia. Qed.
Lemma three_out l : in_three l -> let xs := samples (inp (three_days l)) in calendar_average Greg regular (three_days l) "day" None = Ok (labelled Greg Day day1 (day1 + 2) (fun p => mean_of (members Greg Day p xs))).
Proof.
  intros L xs. pose proof (three_valid l L) as V. pose proof (three_tidy l) as Ti. assert (S : short "day" Day) by (unfold short; tauto).
  assert (A : accepted Greg regular (three_days l) None) by (apply as_input_accepted; [rewrite map_length; apply L|left; reflexivity]).
  assert (V' : forall s, In s xs -> valid Greg (fst s)) by (unfold all_valid in V; rewrite Forall_forall in V; exact V).
  destruct (C58_outcome Greg regular (three_days l) "day" Day None S V Ti ltac:(cbn; lia) A) as (_ & _ & Q). destruct L as (H & L3 & Oc). destruct (Oc 1 ltac:(lia)) as (h & v & Hl). assert (L : in_three l) by (repeat split; auto).
  assert (H0 : In (at_hour 1 h, fun _ : nat => Fin v) xs) by (apply (in_map (fun p => (at_hour (fst (fst p)) (snd (fst p)), fun _ : nat => Fin (snd p))) l _ Hl)).
  destruct (Q _ H0) as [out E].
  { apply (three_complete l _ L (V' _ H0) (three_pnum l _ L H0)). }
  { intros s u t Hs Hu _ _ Vt Ht. apply three_complete; auto. pose proof (pnum_mono Greg Day (fst s) t (V' _ Hs) Vt (proj1 Ht)). pose proof (pnum_mono Greg Day t (fst u) Vt (V' _ Hu) (proj2 Ht)). pose proof (three_pnum l s L Hs). pose proof (three_pnum l u L Hu). lia. }
  destruct (first_step Greg regular (three_days l) "day" Day None out S ltac:(cbn; lia) V E) as (a & b & Hab & Eo & G).
  assert (G' : forall p, good Greg Day 1 xs p = true <-> day1 <= p <= day1 + 2).
  { intros p. split.
    - intros K. destruct (good_sample Greg Day 1 xs p ltac:(lia) V K) as (s & Hs & <-). apply (three_pnum l s L Hs).
    - intros K. destruct (midpoint_spec Greg Day p) as (VM & _ & EM). rewrite <- EM. apply (good_complete Greg Day 1 xs _ V Ti VM). apply three_complete; auto. rewrite EM. exact K. }
  assert (a = day1 /\ b = day1 + 2) as [-> ->].
  { pose proof (proj1 (G' a) (proj2 (G a) ltac:(lia))). pose proof (proj1 (G' b) (proj2 (G b) ltac:(lia))). pose proof (proj1 (G day1) (proj2 (G' day1) ltac:(lia))). pose proof (proj1 (G (day1 + 2)) (proj2 (G' (day1 + 2)) ltac:(lia))). lia. }
  rewrite E, Eo. reflexivity.
Qed.
(** all dates in one period *)
Lemma filter_true {A} (p : A -> bool) l : (forall a, In a l -> p a = true) -> filter p l = l.
Proof. induction l as [|a l IH]; intros H; [reflexivity|]. cbn. rewrite (H a (or_introl eq_refl)), IH; auto. intros; apply H; right; auto. Qed.
Lemma one_period c infer_freq x freq f td t0 s0 : short freq f -> all_valid c (samples (inp x)) -> all_tidy (width (inp x)) (samples (inp x)) -> (0 < width (inp x))%nat -> accepted c infer_freq x td -> valid c t0 ->
  (forall s, In s (samples (inp x)) -> same_period f t0 (fst s) = true) -> In s0 (samples (inp x)) -> (forall k, (k < width (inp x))%nat -> exists r, snd s0 k = Fin r) ->
  exists out e, calendar_average c infer_freq x freq td = Ok out /\ In e out /\ forall k, (k < width (inp x))%nat -> snd e k = mean_present (map (fun s => snd s k) (samples (inp x))).
Proof.
  intros S V Ti W A V0 P H0 F0. assert (V' : forall s, In s (samples (inp x)) -> valid c (fst s)) by (unfold all_valid in V; rewrite Forall_forall in V; exact V).
  destruct (C58_outcome c infer_freq x freq f td S V Ti W A) as (_ & _ & Q).
  assert (P' : forall s, In s (samples (inp x)) -> pnum c f (fst s) = pnum c f t0) by (intros s Hs; apply (same_period_pnum c f t0 _ V0 (V' s Hs)), P, Hs).
  assert (Cm : forall t, valid c t -> pnum c f t = pnum c f t0 -> complete f (width (inp x)) (samples (inp x)) t).
  { intros t Vt Et. apply (present_complete f _ _ s0 H0 F0). apply (same_period_pnum c f t (fst s0) Vt (V' _ H0)). transitivity (pnum c f t0); [apply P', H0|symmetry; exact Et]. }
  destruct (Q s0 H0) as [out E]; [apply Cm; auto|intros s u t Hs Hu _ _ Vt Ht; apply Cm; auto; pose proof (pnum_mono c f (fst s) t (V' _ Hs) Vt (proj1 Ht)) as Q1; pose proof (pnum_mono c f t (fst u) Vt (V' _ Hu) (proj2 Ht)) as Q2; rewrite (P' _ Hs) in Q1; rewrite (P' _ Hu) in Q2; lia|].
  destruct (C58_hours_days_months c infer_freq x freq f td out S V Ti E) as (F & _ & R & _). destruct (proj1 (R _ H0) (Cm _ (V' _ H0) (P' _ H0))) as (j & Hj & Sj). specialize (Sj s0).
  exists out, (nth j out s0). split; [exact E|]. split; [apply nth_In, Hj|]. intros k Hk. rewrite Forall_forall in F. destruct (F _ (nth_In out s0 Hj)) as ((VC & _) & K). rewrite (proj1 (K k Hk)). f_equal. unfold in_period. f_equal.
  apply filter_true. intros s Hs. apply (same_period_pnum c f _ _ VC (V' _ Hs)). rewrite (P' _ Hs). symmetry. apply (same_period_pnum c f _ _ VC (V' _ H0)) in Sj. rewrite <- Sj. apply P', H0.
Qed.

(** ** the hypotheses are met: two values a day, daily averages, then the monthly average *)
Definition twice : list (Z * Z * R) := [(1, 0, 1%R); (1, 12, 3%R); (2, 0, 5%R); (2, 12, 5%R); (3, 0, 0%R); (3, 12, 4%R)].
Lemma twice_in : in_three twice.
Proof. split; [repeat constructor; cbn; lia|]. split; [cbn; lia|]. intros d Hd. exists 0. assert (d = 1 \/ d = 2 \/ d = 3) as [-> | [-> | ->]] by lia; eexists; cbn; tauto. Qed.
Lemma twice_even : even Day 1 2 (samples (inp (three_days twice))).
Proof. split; [lia|]. intros s k Hs _. cbn in Hs. destruct Hs as [<-|[<-|[<-|[<-|[<-|[<-|[]]]]]]]; reflexivity. Qed.
Lemma three_month x : (forall s, In s (samples (inp x)) -> pnum Greg Day (fst s) = day1 \/ pnum Greg Day (fst s) = day1 + 1 \/ pnum Greg Day (fst s) = day1 + 2) -> all_valid Greg (samples (inp x)) -> forall s, In s (samples (inp x)) -> same_period Month (at_hour 1 0) (fst s) = true.
Proof.
  intros H V s Hs. unfold all_valid in V. rewrite Forall_forall in V. specialize (V s Hs). assert (D : exists d, 1 <= d <= 3 /\ pnum Greg Day (fst s) = pnum Greg Day (at_hour d 0)).
  { destruct (H s Hs) as [E|[E|E]]; [exists 1|exists 2|exists 3]; (split; [lia|]); rewrite E, three_day by lia; lia. }
  destruct D as (d & Hd & E). apply (same_period_pnum Greg Day (at_hour d 0) (fst s)) in E; [|unfold valid, at_hour; cbn [yr mo dy sec]; change (mlen Greg 2000 1) with 31; lia|exact V].
  cbn [same_period] in *. rewrite !andb_true_iff in *. split; [exact (proj1 (proj1 E))|exact (proj2 (proj1 E))].
Qed.
Lemma day_labels_in l : in_three l -> forall s, In s (labelled Greg Day day1 (day1 + 2) (fun p => mean_of (members Greg Day p (samples (inp (three_days l)))))) -> pnum Greg Day (fst s) = day1 \/ pnum Greg Day (fst s) = day1 + 1 \/ pnum Greg Day (fst s) = day1 + 2.
Proof. intros L s Hs. unfold labelled in Hs. apply in_map_iff in Hs. destruct Hs as (p & <- & Hp). apply between_In in Hp. cbn [fst]. destruct (midpoint_spec Greg Day p) as (_ & _ & ->). lia. Qed.
Example C140_even_example :
  exists out out' m e, calendar_average Greg regular (three_days twice) "day" None = Ok out /\ calendar_average Greg regular (with_data (three_days twice) out) "month" None = Ok out' /\
    calendar_average Greg regular (three_days twice) "month" None = Ok m /\ rows 1 eq out' m /\ In e m /\ snd e 0%nat = Fin 3.
Proof.
  pose proof (three_out twice twice_in) as E. cbv zeta in E. set (out := labelled _ _ _ _ _) in E.
  assert (U : check_uniform Greg regular (map fst out) = Ok tt) by reflexivity.
  destruct (one_period Greg regular (three_days twice) "month" Month None (at_hour 1 0) (at_hour 1 0, fun _ => Fin 1)) as (m & e & Em & Ie & Ve).
  - unfold short; tauto.
  - apply three_valid, twice_in.
  - apply three_tidy.
  - cbn; lia.
  - apply as_input_accepted; [cbn; lia|left; reflexivity].
  - unfold valid, at_hour. cbn [yr mo dy sec]. change (mlen Greg 2000 1) with 31. lia.
  - apply three_month; [|apply three_valid, twice_in]. intros s Hs. pose proof (three_pnum twice s twice_in Hs). lia.
  - left. reflexivity.
  - intros k _. exists 1%R. reflexivity.
  - pose proof (C140_even Greg regular (three_days twice) "day" Day "month" None 2 out (or_intror (or_introl (conj eq_refl eq_refl))) (or_intror (conj (or_introl eq_refl) (or_intror eq_refl))) twice_even ltac:(cbn; lia) (three_valid _ twice_in) (three_tidy _) E U) as O.
    rewrite Em in O. destruct (calendar_average Greg regular (with_data (three_days twice) out) "month" None) as [out'|] eqn:E'; [|destruct O]. exists out, out', m, e. repeat split; auto.
    rewrite (Ve 0%nat) by (cbn; lia). cbn. f_equal. unfold avg, rsum. cbn. field.
Qed.
Example C140_again_example : exists out, calendar_average Greg regular (three_days twice) "day" None = Ok out /\ calendar_average Greg regular (with_data (three_days twice) out) "day" None = Ok out /\ List.length out = 3%nat.
Proof.
  pose proof (three_out twice twice_in) as E. cbv zeta in E. set (out := labelled _ _ _ _ _) in E. exists out. split; [exact E|]. split; [|reflexivity].
  exact (C140_again Greg regular (three_days twice) "day" Day None out (or_intror (or_introl (conj eq_refl eq_refl))) ltac:(cbn; lia) (three_valid _ twice_in) E eq_refl).
Qed.

(** C140.  With unequal numbers of values it fails: eight dates, ten hours apart, over three days; the month's average is 1/4, that of the daily
    averages 1/3. *)
Definition ten_hours : list (Z * Z * R) := [(1, 0, 0%R); (1, 10, 0%R); (1, 20, 0%R); (2, 6, 1%R); (2, 16, 1%R); (3, 2, 0%R); (3, 12, 0%R); (3, 22, 0%R)].
Lemma ten_in : in_three ten_hours.
Proof. split; [repeat constructor; cbn; lia|]. split; [cbn; lia|]. intros d Hd. assert (d = 1 \/ d = 2 \/ d = 3) as [-> | [-> | ->]] by lia; eexists _, _; cbn; tauto. Qed.
Theorem C140_uneven_refuted :
  exists x : input fl, all_valid Greg (samples (inp x)) /\ Forall (fun s => exists r, snd s 0%nat = Fin r) (samples (inp x)) /\
    exists days month month' e e', calendar_average Greg regular x "day" None = Ok days /\ calendar_average Greg regular x "month" None = Ok month /\
      calendar_average Greg regular (with_data x days) "month" None = Ok month' /\ In e month /\ In e' month' /\ snd e 0%nat = Fin (1 / 4) /\ snd e' 0%nat = Fin (1 / 3).
Proof.
  exists (three_days ten_hours). pose proof (three_valid _ ten_in) as V. pose proof (three_tidy ten_hours) as Ti. split; [exact V|]. split; [cbn [three_days as_input inp samples]; rewrite Forall_map; apply Forall_forall; intros p _; exists (snd p); reflexivity|].
  pose proof (three_out ten_hours ten_in) as E. cbv zeta in E. set (out := labelled _ _ _ _ _) in E. exists out.
  assert (V0 : valid Greg (at_hour 1 0)) by (unfold valid, at_hour; cbn [yr mo dy sec]; change (mlen Greg 2000 1) with 31; lia).
  assert (VO : all_valid Greg out) by apply labelled_valid.
  assert (MD : forall d, 1 <= d <= 3 -> mean_of (members Greg Day (day1 + d - 1) (samples (inp (three_days ten_hours)))) 0%nat = mean_present (in_period Day (at_hour d 0) 0 (samples (inp (three_days ten_hours))))).
  { intros d Hd. rewrite <- (three_day d 0) by lia. apply (mean_of_present Greg Day (at_hour d 0) 1); auto. unfold valid, at_hour; cbn [yr mo dy sec]; change (mlen Greg 2000 1) with 31; lia. }
  assert (EO : out = [(midpoint Greg Day day1, mean_of (members Greg Day (day1 + 1 - 1) (samples (inp (three_days ten_hours))))); (midpoint Greg Day (day1 + 1), mean_of (members Greg Day (day1 + 2 - 1) (samples (inp (three_days ten_hours))))); (midpoint Greg Day (day1 + 2), mean_of (members Greg Day (day1 + 3 - 1) (samples (inp (three_days ten_hours)))))]).
  { unfold out, labelled. rewrite !between_cons by lia. rewrite between_nil by lia. cbn [map]. replace (day1 + 1 - 1) with day1 by lia. replace (day1 + 2 - 1) with (day1 + 1) by lia. replace (day1 + 3 - 1) with (day1 + 1 + 1) by lia. replace (day1 + 2) with (day1 + 1 + 1) by lia. reflexivity. }
  assert (M1 : mean_of (members Greg Day (day1 + 1 - 1) (samples (inp (three_days ten_hours)))) 0%nat = Fin 0) by (rewrite (MD 1) by lia; cbn; f_equal; unfold avg, rsum; cbn; field).
  assert (M2 : mean_of (members Greg Day (day1 + 2 - 1) (samples (inp (three_days ten_hours)))) 0%nat = Fin 1) by (rewrite (MD 2) by lia; cbn; f_equal; unfold avg, rsum; cbn; field).
  assert (M3 : mean_of (members Greg Day (day1 + 3 - 1) (samples (inp (three_days ten_hours)))) 0%nat = Fin 0) by (rewrite (MD 3) by lia; cbn; f_equal; unfold avg, rsum; cbn; field).
  assert (SM : short "month" Month) by (unfold short; tauto).
  assert (P1 : forall s, In s (samples (inp (three_days ten_hours))) -> same_period Month (at_hour 1 0) (fst s) = true).
  { apply three_month; [|exact V]. intros s Hs. pose proof (three_pnum _ s ten_in Hs). lia. }
  destruct (one_period Greg regular (three_days ten_hours) "month" Month None (at_hour 1 0) (at_hour 1 0, fun _ => Fin 0) SM V Ti ltac:(cbn; lia) (as_input_accepted Greg 1 (samples (inp (three_days ten_hours))) None ltac:(cbn; lia) (or_introl eq_refl)) V0 P1 (or_introl eq_refl) (fun k _ => ex_intro _ 0%R eq_refl)) as (m & e & Em & Ie & Ve).
  assert (P2 : forall s, In s out -> same_period Month (at_hour 1 0) (fst s) = true).
  { apply (three_month (with_data (three_days ten_hours) out)); [|exact VO]. intros s Hs. exact (day_labels_in ten_hours ten_in s Hs). }
  assert (TO : all_tidy 1 out). { rewrite EO. unfold all_tidy. repeat (constructor; [intros [|k] Hk; [right; cbn [snd]; rewrite ?M1, ?M2, ?M3; eexists; reflexivity|lia]|]). constructor. }
  assert (IO : In (midpoint Greg Day day1, mean_of (members Greg Day (day1 + 1 - 1) (samples (inp (three_days ten_hours))))) out) by (rewrite EO; left; reflexivity).
  assert (AO : accepted Greg regular (with_data (three_days ten_hours) out) None) by (split; [eexists; reflexivity|reflexivity]).
  assert (FO : forall k, (k < 1)%nat -> exists r, mean_of (members Greg Day (day1 + 1 - 1) (samples (inp (three_days ten_hours)))) k = Fin r) by (intros [|k] Hk; [exists 0%R; exact M1|lia]).
  destruct (one_period Greg regular (with_data (three_days ten_hours) out) "month" Month None (at_hour 1 0) _ SM VO TO ltac:(cbn; lia) AO V0 P2 IO FO) as (m' & e' & Em' & Ie' & Ve').
  exists m, m', e, e'. split; [exact E|]. do 4 (split; [assumption|]). split.
  - rewrite (Ve 0%nat) by (cbn; lia). cbn. f_equal. unfold avg, rsum. cbn. field.
  - rewrite (Ve' 0%nat) by (cbn; lia). cbn [with_data inp samples]. rewrite EO. cbn [map snd]. rewrite M1, M2, M3. cbn. f_equal. unfold avg, rsum. cbn. field.
Qed.
Print Assumptions C140_uneven_refuted.
Definition months_of_ex (p : Z) : nat -> fl := mean_of (members Greg Month p (samples (inp ex_m))).
Lemma ex_months out : calendar_average Greg regular ex_m "month" None = Ok out -> exists a b, out = labelled Greg Month a b months_of_ex /\ a <= 24240 /\ 24263 <= b.
Proof.
  intros E. destruct (first_step Greg regular ex_m "month" Month None out (or_intror (or_intror (conj eq_refl eq_refl))) ltac:(cbn; lia) ex_valid E) as (a & b & Hab & Eo & G).
  assert (K : forall q, 24240 <= q <= 24263 -> a <= q <= b).
  { intros q Hq. apply G. rewrite <- (first_month q). apply (good_complete Greg Month 2 _ _ ex_valid ex_all_tidy (first_valid _ _)). apply (monthly_complete Greg); [apply ex_fin|apply first_valid|]. rewrite first_month. lia. }
  pose proof (K 24240 ltac:(lia)). pose proof (K 24263 ltac:(lia)). exists a, b. split; [exact Eo|]. lia.
Qed.
Lemma ex_many out : calendar_average Greg regular ex_m "month" None = Ok out -> (3 <= List.length out)%nat.
Proof. intros E. destruct (ex_months out E) as (a & b & -> & Ha & Hb). unfold labelled. rewrite map_length, between_length. lia. Qed.
Lemma ex_months_tidy out : calendar_average Greg regular ex_m "month" None = Ok out -> all_tidy 2 out.
Proof.
  intros E. pose proof (C58_hours_days_months Greg regular ex_m "month" Month None out (or_intror (or_intror (conj eq_refl eq_refl))) ex_valid ex_all_tidy E) as (F & _).
  unfold all_tidy. rewrite Forall_forall in *. intros s Hs k Hk. destruct (F s Hs) as (_ & T). right. apply (T k Hk).
Qed.
Lemma month_of t q m : valid Greg t -> pnum Greg Month t = 12 * q + (m - 1) -> 1 <= m <= 12 -> mo t = m.
Proof. intros (V & _) E Hm. cbn [pnum] in E. unfold tmonth, mnum in E. lia. Qed.
Lemma labelled_month a b q m f : a <= 12 * q + (m - 1) <= b -> 1 <= m <= 12 -> exists s, In s (labelled Greg Month a b f) /\ mo (fst s) = m.
Proof.
  intros Hp Hm. destruct (midpoint_spec Greg Month (12 * q + (m - 1))) as (VM & _ & EM). apply month_of in EM; [|exact VM|exact Hm].
  exists (midpoint Greg Month (12 * q + (m - 1)), f (12 * q + (m - 1))). split; [|exact EM].
  unfold labelled. apply (in_map (fun p => (midpoint Greg Month p, f p))). apply between_In. exact Hp.
Qed.
Lemma ex_months_all a b m : a <= 24240 -> 24263 <= b -> 1 <= m <= 12 -> exists s, In s (labelled Greg Month a b months_of_ex) /\ mo (fst s) = m.
Proof. intros Ha Hb Hm. apply (labelled_month a b 2020 m months_of_ex); [lia|exact Hm]. Qed.
Lemma season_start m t : mo t = m -> in_season m t = true.
Proof. intros <-. unfold in_season. apply Z.ltb_lt. rewrite Z.sub_diag. reflexivity. Qed.
Lemma ex_again out : calendar_average Greg regular ex_m "month" None = Ok out -> exists res, climatology_average Greg regular KeyError (with_data ex_m out) "season" ["NDJ"; "JJA"]%string None = Ok res.
Proof.
  intros E. pose proof (ex_many out E) as L. pose proof (ex_months_tidy out E) as T. destruct (ex_months out E) as (a & b & Eo & Ha & Hb).
  destruct (C60_seasons Greg regular KeyError (with_data ex_m out) ["NDJ"; "JJA"]%string None) as (_ & Q).
  { cbn [with_data inp samples]. rewrite Eo. apply labelled_valid. }
  { exact T. }
  { cbn; lia. }
  { split; [eexists; reflexivity|]. cbn [with_data inp samples]. exact (C140_months_accepted Greg regular ex_m None out ltac:(cbn; lia) ex_valid E L). }
  destruct Q as (_ & R). { intros s Hs. destruct ex_spells as (_ & _ & S6 & _ & S11). destruct Hs as [<-|[<-|[]]]; eauto. }
  destruct R as (res & Er & _); [|eexists; exact Er].
  intros s m _ [Hm _]. destruct (ex_months_all a b m Ha Hb Hm) as (e & He & Me). exists e. split; [cbn [with_data inp samples]; rewrite Eo; exact He|].
  exact (season_start m (fst e) Me).
Qed.
Example C140_months_example : exists out seasons res, calendar_average Greg regular ex_m "month" None = Ok out /\ (3 <= List.length out)%nat /\
  calendar_average Greg regular ex_m "season" None = Ok seasons /\ calendar_average Greg regular (with_data ex_m out) "season" None = Ok seasons /\
  climatology_average Greg regular KeyError (with_data ex_m out) "season" ["NDJ"; "JJA"]%string None = Ok res /\ climatology_average Greg regular KeyError ex_m "season" ["NDJ"; "JJA"]%string None = Ok res.
Proof.
  destruct C58_example as (out & E & _). destruct C59_example as (seasons & Es). pose proof (ex_many out E) as L. destruct (ex_again out E) as (res & Er).
  exists out, seasons, res. split; [exact E|]. split; [exact L|]. split; [exact Es|]. split.
  - rewrite <- Es. exact (C140_months_then_seasons Greg regular ex_m "season" None out (or_introl eq_refl) ltac:(cbn; lia) ex_valid E L).
  - split; [exact Er|]. exact (C140_months_then_climatology Greg regular KeyError ex_m _ None out res ltac:(cbn; lia) ex_valid E Er).
Qed.
