(** Consequences: ranges, always-missing elements, year anomalies of short records, dropped winter months. *)
From Coq Require Import Reals List Bool Arith ZArith Lra Lia String Ascii.
From Verif Require Import PyBase Num NumFacts SumFacts ArrFacts Calendar CalendarFacts SpecClim Climat ClimFacts ClimApi ClimLong ClimKeys ClimKeysApi ClimSeason ClimM2S ClimAnom.
Import ListNotations.
Local Open Scope Z_scope.

(** every value present lies between a and b *)
Definition within (a b : R) (v : fl) : Prop := v = NaN \/ exists r, v = Fin r /\ (a <= r <= b)%R.
Lemma avg_range l a b : l <> [] -> Forall (fun r => a <= r <= b)%R l -> (a <= avg l <= b)%R.
Proof.
  intros H F. unfold avg. assert (P : (0 < INR (List.length l))%R) by (apply lt_0_INR; destruct l; [contradiction|cbn; lia]).
  assert (R : (a * INR (List.length l) <= rsum l <= b * INR (List.length l))%R).
  { clear H P. induction F as [|r l Hr F IH]; [cbn; lra|]. cbn [List.length]. change (rsum (r :: l)) with (r + rsum l)%R. rewrite S_INR. lra. }
  set (A := rsum l) in *. set (B := INR (List.length l)) in *. split; apply (Rmult_le_reg_r B); auto; replace (A / B * B)%R with A by (field; lra); lra.
Qed.
Lemma mean_within l a b : Forall (within a b) l -> within a b (mean_present l).
Proof.
  intros F. unfold mean_present. destruct (vals l) as [|v vs] eqn:E; [left; auto|]. right. eexists. split; [reflexivity|]. apply avg_range; [discriminate|]. rewrite <- E. clear E.
  apply Forall_forall. intros r Hr. unfold vals in Hr. apply in_flat_map in Hr. destruct Hr as (x & Hx & Hr). rewrite Forall_forall in F. destruct (F x Hx) as [->|(r' & -> & B)]; cbn in Hr; [destruct Hr|]. destruct Hr as [<-|[]]. auto.
Qed.
Lemma by_days_within c P w k xs ms a b : complete_months c P w xs ms -> (k < w)%nat -> Forall (fun s => within a b (snd s k)) xs -> within a b (by_days c k xs ms).
Proof.
  intros CM Hk F. unfold by_days. destruct ms as [|t l] eqn:E; [left; auto|]. rewrite <- E in *. right. eexists. split; [reflexivity|].
  assert (NE : ms <> []) by (rewrite E; discriminate). clear E t l. apply wavg_range.
  - destruct ms; [contradiction|discriminate].
  - rewrite Forall_map. cbn [fst]. apply Forall_forall. intros t _. apply IZR_lt. unfold days. pose proof (mlen_bounds c (yr t) (mo t)). lia.
  - rewrite Forall_map. cbn [snd]. apply Forall_forall. intros t Ht. pose proof (cm_in _ _ _ _ _ CM) as CI. rewrite Forall_forall in CI. destruct (CI t Ht) as [_ CC]. destruct (CC k Hk) as [r Er]. rewrite Er. cbn [value].
    assert (Q : within a b (mean_present (in_period Month t k xs))). { apply mean_within. unfold in_period. rewrite Forall_map. apply Forall_forall. intros s Hs. apply filter_In in Hs. rewrite Forall_forall in F. apply F. tauto. }
    rewrite Er in Q. destruct Q as [Q|(r' & Q & B)]; [discriminate|]. injection Q as <-. auto.
Qed.

Section More.
  Variables (c : cal) (infer_freq : list time -> bool) (empty_exc : exc).
  Local Notation CL := (climatology_average c infer_freq empty_exc).
  Local Notation CA := (calendar_average c infer_freq).
  Local Notation CN := (climate_anomaly c infer_freq empty_exc).
  Local Notation M2S := (month_to_season c empty_exc).
  Local Notation smp := (list (time * (nat -> fl))).
  Definition any_freq (freq : string) : Prop := (freq = "hour" \/ freq = "day" \/ freq = "month" \/ freq = "season" \/ freq = "year")%string.
  Lemma calavg_within x freq td out k a b : any_freq freq -> all_valid c (samples (inp x)) -> all_tidy (width (inp x)) (samples (inp x)) -> (k < width (inp x))%nat ->
    CA x freq td = Ok out -> Forall (fun s => within a b (snd s k)) (samples (inp x)) -> Forall (fun e => within a b (snd e k)) out.
  Proof.
    intros Af V Ti Hk E F. assert (Q : (exists f, short freq f) \/ exists f, long freq f) by (destruct Af as [->|[->|[->|[->| ->]]]]; [left; exists Hour|left; exists Day|left; exists Month|right; exists (Quarter 12)|right; exists Year]; unfold short, long; tauto).
    destruct Q as [[f Sh]|[f Lg]].
    - destruct (calavg_short c infer_freq x freq f td out Sh V Ti E) as (Q & _). rewrite Forall_forall in Q |- *. intros e He. destruct (Q e He) as (_ & Fr). assert (EE : snd e k = mean_present (in_period f (fst e) k (samples (inp x)))) by (apply (Fr k Hk)). rewrite EE. apply mean_within. unfold in_period. rewrite Forall_map. apply Forall_forall. intros s Hs. apply filter_In in Hs. rewrite Forall_forall in F. apply F. tauto.
    - destruct (calavg_long c infer_freq x freq f td out Lg V Ti ltac:(lia) E) as (Q & _). rewrite Forall_forall in Q |- *. intros e He. destruct (Q e He) as (_ & ms & CM & Fr). assert (EE : snd e k = by_days c k (samples (inp x)) ms) by (apply (Fr k Hk)). rewrite EE. eapply by_days_within; eauto.
  Qed.

  (** an element that is missing at every date *)
  Definition dead (w : nat) (xs : smp) : Prop := exists k, (k < w)%nat /\ forall s, In s xs -> snd s k = NaN.
  Lemma dead_incomplete f w xs t : dead w xs -> ~ complete f w xs t.
  Proof.
    intros (k & Hk & H) C. destruct (C k Hk) as [r E]. apply mean_present_notnan in E. apply E. clear E C. unfold in_period. induction xs as [|s l IH]; [reflexivity|]. cbn [filter].
    assert (IH' := IH (fun s Hs => H s (or_intror Hs))). destruct (same_period f t (fst s)); auto. cbn [map]. unfold vals in *. cbn [flat_map]. rewrite IH'. rewrite (H s (or_introl eq_refl)). reflexivity.
  Qed.
  Lemma dead_pos w xs : dead w xs -> (0 < w)%nat. Proof. intros (k & Hk & _). lia. Qed.
  Lemma calavg_dead x freq td : any_freq freq -> all_valid c (samples (inp x)) -> all_tidy (width (inp x)) (samples (inp x)) -> accepted c infer_freq x td -> dead (width (inp x)) (samples (inp x)) -> CA x freq td = Err IndexError.
  Proof.
    intros Af V Ti A Dd. pose proof (dead_pos _ _ Dd) as Hw. assert (Q : (exists f, short freq f) \/ exists f, long freq f) by (destruct Af as [->|[->|[->|[->| ->]]]]; [left; exists Hour|left; exists Day|left; exists Month|right; exists (Quarter 12)|right; exists Year]; unfold short, long; tauto).
    destruct Q as [[f Sh]|[f Lg]].
    - apply (calavg_short_outcome c infer_freq x freq f td Sh V Ti Hw A). intros s _. apply dead_incomplete. auto.
    - apply (calavg_long_outcome c infer_freq x freq f td Lg V Ti Hw A). intros s _. apply dead_incomplete. auto.
  Qed.
  Lemma season_dead x custom td : all_valid c (samples (inp x)) -> all_tidy (width (inp x)) (samples (inp x)) -> accepted c infer_freq x td -> dead (width (inp x)) (samples (inp x)) ->
    (forall s, In s (requested custom) -> exists m, spells s m /\ exists u, In u (samples (inp x)) /\ in_season m (fst u) = true) ->
    exists out, CL x "season" custom td = Ok (Seasons out) /\ map fst out = requested custom /\ Forall (fun e => forall k, (k < width (inp x))%nat -> snd e k = Fin 0) out.
  Proof.
    intros V Ti A Dd H. destruct (clim_season c infer_freq empty_exc x custom td V Ti (dead_pos _ _ Dd) A) as [_ CS]. destruct CS as [_ CS]. { intros s Hs. destruct (H s Hs) as (m & S & _). eauto. }
    destruct CS as (out & E & N & F). { intros s m Hs S. destruct (H s Hs) as (m' & S' & U). rewrite (spells_unique s m m') by auto. auto. }
    exists out. split; auto. split; auto. rewrite Forall_forall in F |- *. intros e He k Hk. destruct (F e He) as (m & ms & _ & _ & CM & Fr). refine (eq_trans (Fr k Hk) _). destruct ms as [|t l]; auto. exfalso.
    pose proof (cm_in _ _ _ _ _ CM) as CI. inversion CI as [|? ? [_ CC] _]; subst. apply (dead_incomplete Month _ _ t Dd). auto.
  Qed.

  (** year anomalies of records shorter than a century *)
  Lemma filter_mod_one lo hi y : lo <= y <= hi -> hi - lo < 100 -> filter (fun p => p mod 100 =? y mod 100) (between lo hi) = [y].
  Proof.
    intros H L. rewrite (filter_ext_in _ (fun p => p =? y)).
    - apply filter_one; [apply NoDup_between|apply between_In; auto].
    - intros p Hp. apply between_In in Hp. apply eq_true_iff_eq. rewrite !Z.eqb_eq. lia.
  Qed.
  Lemma anom_year_short x td : all_valid c (samples (inp x)) -> all_tidy (width (inp x)) (samples (inp x)) -> (0 < width (inp x))%nat -> (exists n, n <> EmptyString /\ time_info x td = Ok n) -> check_uniform c infer_freq (map fst (samples (inp x))) = Ok tt ->
    let xs : smp := samples (inp x) in let w := width (inp x) in
    (forall s u, In s xs -> In u xs -> yr (fst s) < yr (fst u) + 100) ->
    (forall s, In s xs -> exists u v, In u xs /\ In v xs /\ complete Month w xs (fst u) /\ complete Month w xs (fst v) /\ yr (fst u) <= yr (fst s) <= yr (fst v)) ->
    exists out, CN x "year" td = Ok out /\
      Forall2 (fun s o => fst o = fst s /\ exists ms, complete_months c (same_period Year (fst s)) w xs ms /\ forall k, (k < w)%nat -> snd o k = minus (snd s k) (Fin (value (by_days c k xs ms)))) xs out.
  Proof.
    intros V Ti Hw (n & Nn & Et) Eu xs w Span Cv. fold xs w in V, Ti, Hw.
    assert (Vs : forall s, In s xs -> valid c (fst s)) by (unfold all_valid in V; rewrite Forall_forall in V; auto).
    assert (NE : xs <> []) by (intros Q; fold xs in Eu; rewrite Q in Eu; discriminate).
    destruct (calavg_long_eq c infer_freq x "year" Year td n (or_intror (conj eq_refl eq_refl)) Et Eu) as [_ C]. fold xs w in C.
    destruct xs as [|s0 xs0] eqn:Ex; [contradiction|]. rewrite <- Ex in *.
    assert (NS : surv c w xs <> []). { destruct (Cv s0 ltac:(rewrite Ex; left; auto)) as (u & v & Hu & _ & Cu & _). intros Q. apply (In_surv c w xs (fst u)) in Cu; auto. rewrite Q in Cu. destruct Cu. }
    destruct (C NS) as (lo & hi & Hlh & B & E). clear C.
    assert (WF : map fst (W c Year w xs) = map (fun q => date_of c (pstart c Month q)) (surv c w xs)) by (unfold W; rewrite map_map; reflexivity).
    assert (YQ : forall q, pnum c Year (date_of c (pstart c Month q)) = q / 12). { intros q. cbn [pnum]. rewrite (proj2 (D_spec c q)). reflexivity. }
    destruct (bins_spec c Year (map fst (W c Year w xs))) as (lo' & hi' & B1 & B2 & (t1 & Ht1 & P1) & (t2 & Ht2 & P2)). { rewrite WF. destruct (surv c w xs); [contradiction|discriminate]. }
    assert (EQ : lo' = lo /\ hi' = hi).
    { rewrite B in B1. assert (lo' <= hi') by (pose proof (B2 t1 Ht1); lia). assert (L1 := f_equal (fun l => nth 0 l 0) B1). assert (L2 := f_equal (@List.length Z) B1). cbv beta in L1. rewrite !nth_between in L1 by lia. rewrite !between_length in L2. lia. }
    destruct EQ as [-> ->].
    (* the first and last years hold samples *)
    assert (SY : forall q, In q (surv c w xs) -> exists s, In s xs /\ yr (fst s) = q / 12).
    { intros q Hq. unfold surv in Hq. apply filter_In in Hq. destruct Hq as [_ G]. destruct (good_sample c Month w xs q Hw V G) as (s & Hs & Es). exists s. split; auto. cbn [pnum] in Es. rewrite <- Es. symmetry. apply (tmonth_div c); auto. }
    rewrite WF in Ht1, Ht2, B2. apply in_map_iff in Ht1, Ht2. destruct Ht1 as (q1 & <- & Hq1). destruct Ht2 as (q2 & <- & Hq2). rewrite YQ in P1, P2.
    destruct (SY q1 Hq1) as (s1 & Hs1 & Es1). destruct (SY q2 Hq2) as (s2 & Hs2 & Es2).
    assert (L100 : hi - lo < 100) by (pose proof (Span s2 s1 Hs2 Hs1); lia).
    assert (YR : forall s, In s xs -> lo <= yr (fst s) <= hi).
    { intros s Hs. destruct (Cv s Hs) as (u & v & Hu & Hv & Cu & Cv' & Y). apply (In_surv c w xs) in Cu; auto. apply (In_surv c w xs) in Cv'; auto.
      pose proof (B2 _ (in_map (fun q => date_of c (pstart c Month q)) _ _ Cu)) as Q1. pose proof (B2 _ (in_map (fun q => date_of c (pstart c Month q)) _ _ Cv')) as Q2. rewrite YQ in Q1, Q2. rewrite (proj1 (tmonth_div c _ (Vs u Hu))) in Q1. rewrite (proj1 (tmonth_div c _ (Vs v Hv))) in Q2. lia. }
    assert (ML : forall p, yr (midpoint c Year p) = p). { intros p. destruct (midpoint_spec c Year p) as (M1 & _ & M3). cbn [pnum] in M3. rewrite <- M3 at 2. symmetry. apply (tmonth_div c); auto. }
    destruct (anom_year c infer_freq empty_exc x td V Ti Hw (ex_intro _ n (conj Nn Et)) _ E) as [_ AN]. fold w in AN. change (samples (inp x)) with xs in AN.
    destruct AN as (out & EO & F). { intros s Hs. exists (midpoint c Year (yr (fst s)), sum_of (members c Year (yr (fst s)) (W c Year w xs))). split; [|cbn [fst]; rewrite ML; auto]. apply (in_map (fun p => (midpoint c Year p, sum_of (members c Year p (W c Year w xs))))). apply between_In. auto. }
    exists out. split; auto. revert F. apply Forall2_weaken. intros s o Hs [F1 F2]. split; auto.
    exists (map (fun q => date_of c (pstart c Month q)) (filter (fun q => pnum c Year (date_of c (pstart c Month q)) =? pnum c Year (fst s)) (surv c w xs))). split; [apply months_of_period; auto|].
    intros k Hk. rewrite (F2 k Hk). f_equal. f_equal. rewrite filter_map_swap. cbn [fst]. rewrite (filter_ext _ (fun p => p mod 100 =? yr (fst s) mod 100)) by (intros p; rewrite ML; reflexivity).
    rewrite filter_mod_one by auto. cbn [map snd]. change (rsum [value (sum_of (members c Year (yr (fst s)) (W c Year w xs)) k)]) with (value (sum_of (members c Year (yr (fst s)) (W c Year w xs)) k) + 0)%R. rewrite Rplus_0_r. f_equal.
    rewrite (sum_months c infer_freq Year w xs (yr (fst s)) k Hw V Ti Hk). assert (PY : pnum c Year (fst s) = yr (fst s)) by (cbn [pnum]; apply (tmonth_div c); auto). rewrite PY. reflexivity.
  Qed.

  (** DJF loses the last winter sample whatever month it is from *)
  Lemma m2s_dropped x td out l z : all_valid c (samples (inp x)) -> all_tidy (width (inp x)) (samples (inp x)) -> M2S x "DJF" td = Ok out ->
    filter (fun e => in_season 12 (fst e)) (samples (inp x)) = l ++ [z] ->
    Forall (fun e => forall k, (k < width (inp x))%nat -> snd e k = mean_present (map (fun s => snd s k) (filter (fun s => around (fst e) (fst s)) l))) out.
  Proof.
    intros V Ti E F. assert (S : spells "DJF" 12) by (split; [lia|reflexivity]). destruct (m2s_out c empty_exc x "DJF" 12 td out V Ti S E) as (Q & _). assert (KL : kept "DJF" 12 (samples (inp x)) = l). { unfold kept. cbv zeta. cbn [String.eqb Ascii.eqb Bool.eqb]. unfold frame in F. rewrite F. apply removelast_last. }
    rewrite KL in Q. rewrite Forall_forall in Q |- *. intros e He. apply (Q e He).
  Qed.

  (** *** arguments that are turned down *)
  Lemma bad_freq x freq td :
    (~ any_freq freq -> CA x freq td = Err ValueError) /\
    (~ (freq = "hour" \/ freq = "day" \/ freq = "month" \/ freq = "season")%string -> forall custom, CL x freq custom td = Err ValueError) /\
    (~ (freq = "day" \/ freq = "month" \/ freq = "season" \/ freq = "year")%string -> (exists n, time_info x td = Ok n) -> CN x freq td = Err ValueError).
  Proof.
    split; [|split].
    - intros H. unfold calendar_average, cal_freq. unfold any_freq in H.
      repeat match goal with |- context [String.eqb freq ?s] => destruct (String.eqb_spec freq s); [exfalso; tauto|] end. reflexivity.
    - intros H custom. unfold climatology_average, clim_freq.
      repeat match goal with |- context [String.eqb freq ?s] => destruct (String.eqb_spec freq s); [exfalso; tauto|] end. reflexivity.
    - intros H (n & Et). unfold climate_anomaly. rewrite Et. cbn [bind].
      repeat match goal with |- context [String.eqb freq ?s] => destruct (String.eqb_spec freq s); [exfalso; tauto|] end. reflexivity.
  Qed.
  Definition time_name (x : input fl) (td : option string) : option string :=
    match td with Some n => if String.eqb n "" then cf_time x else Some n | None => cf_time x end.
  Definition no_axis (x : input fl) (td : option string) (e : exc) : Prop :=
    match time_name x td with
    | None => e = KeyError
    | Some n => match lookup x n with None => e = KeyError | Some false => e = ValueError | Some true => False end
    end.
  Lemma time_info_err x td e : no_axis x td e -> time_info x td = Err e.
  Proof.
    unfold no_axis, time_name, time_info. destruct td as [n|]; [destruct (String.eqb n "")|].
    - destruct (cf_time x) as [m|]; [|intros ->; reflexivity]. cbn [oget bind]. destruct (lookup x m) as [[]|]; [tauto| |]; intros ->; reflexivity.
    - cbn [bind]. destruct (lookup x n) as [[]|]; [tauto| |]; intros ->; reflexivity.
    - destruct (cf_time x) as [m|]; [|intros ->; reflexivity]. cbn [oget bind]. destruct (lookup x m) as [[]|]; [tauto| |]; intros ->; reflexivity.
  Qed.
  Lemma bad_axis x td e : no_axis x td e ->
    (forall freq, any_freq freq -> CA x freq td = Err e) /\
    (forall freq custom, (freq = "hour" \/ freq = "day" \/ freq = "month" \/ freq = "season")%string -> CL x freq custom td = Err e) /\
    (forall freq, CN x freq td = Err e) /\ (forall s, M2S x s td = Err e).
  Proof.
    intros H. apply time_info_err in H. split; [|split; [|split]].
    - intros freq [->|[->|[->|[->| ->]]]]; unfold calendar_average; cbn [cal_freq String.eqb Ascii.eqb Bool.eqb oget bind]; rewrite H; reflexivity.
    - intros freq custom [->|[->|[->| ->]]]; unfold climatology_average; cbn [clim_freq String.eqb Ascii.eqb Bool.eqb oget bind]; rewrite H; reflexivity.
    - intros freq. unfold climate_anomaly. rewrite H. reflexivity.
    - intros s. unfold month_to_season. rewrite H. reflexivity.
  Qed.
  (** fewer than three dates, or no frequency and a month in the range without exactly one date *)
  Lemma bad_spacing x td : all_valid c (samples (inp x)) -> (exists n, time_info x td = Ok n) ->
    let ts := map fst (samples (inp x)) in
    (List.length ts < 3)%nat \/ (infer_freq ts = false /\ exists t u v, In t ts /\ In u ts /\ valid c v /\ instant c t <= instant c v <= instant c u /\ List.length (filter (same_period Month v) ts) <> 1%nat) ->
    (forall freq, any_freq freq -> CA x freq td = Err ValueError) /\
    (forall freq custom, (freq = "hour" \/ freq = "day" \/ freq = "month" \/ freq = "season")%string -> CL x freq custom td = Err ValueError).
  Proof.
    intros V (n & Et) ts H. assert (Vt : Forall (valid c) ts) by (unfold ts; rewrite Forall_map; exact V).
    assert (E : check_uniform c infer_freq ts = Err ValueError).
    { destruct (check_uniform c infer_freq ts) as [[]|e] eqn:E.
      - apply (check_uniform_iff c infer_freq ts Vt) in E. exfalso. destruct E as (L & E). destruct H as [H|(I & t & u & v & Ht & Hu & Vv & Hv & N)]; [lia|]. destruct E as [E|E]; [congruence|]. apply N. exact (E t u v Ht Hu Vv Hv).
      - revert E. unfold check_uniform. destruct (Nat.ltb _ _); [congruence|]. destruct (infer_freq ts); [discriminate|]. destruct (negb _); congruence. }
    split.
    - intros freq [->|[->|[->|[->| ->]]]]; unfold calendar_average; cbn [cal_freq String.eqb Ascii.eqb Bool.eqb oget bind]; rewrite Et; cbn [bind]; fold ts; rewrite E; reflexivity.
    - intros freq custom [->|[->|[->| ->]]]; unfold climatology_average; cbn [clim_freq String.eqb Ascii.eqb Bool.eqb oget bind]; rewrite Et; cbn [bind]; cbv zeta; fold ts; rewrite E; reflexivity.
  Qed.
End More.
