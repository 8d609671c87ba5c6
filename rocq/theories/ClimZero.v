(** Anomalies: when they exist, and that they average to zero. *)
From Coq Require Import Reals List Bool Arith ZArith Lra Lia String Ascii Permutation.
From Verif Require Import PyBase Num NumFacts SumFacts ArrFacts Calendar CalendarFacts SpecClim Climat ClimFacts ClimApi ClimLong ClimKeys ClimKeysApi ClimSeason ClimAnom.
Import ListNotations.
Local Open Scope Z_scope.

Lemma mapM_all {A B} (f : A -> res B) l : (forall x, In x l -> exists y, f x = Ok y) -> exists ys, mapM f l = Ok ys.
Proof.
  induction l as [|x l IH]; intros H; [exists []; reflexivity|]. destruct (H x (or_introl eq_refl)) as [y E]. destruct IH as [ys E']; [intros z Hz; apply H; right; auto|].
  exists (y :: ys). apply mapM_Ok_iff. constructor; auto. apply mapM_Ok_iff. auto.
Qed.
Lemma rsum_perm l l' : Permutation l l' -> rsum l = rsum l'.
Proof.
  induction 1; [reflexivity| | |congruence].
  - change (rsum (x :: l)) with (x + rsum l)%R. change (rsum (x :: l')) with (x + rsum l')%R. congruence.
  - change (rsum (y :: x :: l)) with (y + (x + rsum l))%R. change (rsum (x :: y :: l)) with (x + (y + rsum l))%R. ring.
Qed.
Lemma wavg_perm l l' : Permutation l l' -> wavg l = wavg l'.
Proof. intros P. unfold wavg. rewrite (rsum_perm _ _ (Permutation_map _ P)), (rsum_perm _ _ (Permutation_map fst P)). reflexivity. Qed.
Lemma wavg_minus {A} (d v : A -> R) (b : R) (l : list A) : l <> [] -> (forall a, In a l -> 0 < d a)%R -> wavg (map (fun a => (d a, v a - b)%R) l) = (wavg (map (fun a => (d a, v a)) l) - b)%R.
Proof.
  intros NE P. unfold wavg. rewrite !map_map. cbn [fst snd]. assert (S1 : rsum (map (fun a => d a * (v a - b))%R l) = (rsum (map (fun a => d a * v a)%R l) - b * rsum (map d l))%R).
  { clear NE P. induction l as [|a l IH]; [cbn; ring|]. cbn [map]. change (rsum (?x :: ?l)) with (x + rsum l)%R. unfold rsum in *. cbn [fold_right]. rewrite IH. ring. }
  rewrite S1. assert (S2 : (0 < rsum (map d l))%R). { apply rsum_pos; [destruct l; [contradiction|discriminate]|]. rewrite Forall_map. apply Forall_forall. auto. }
  change (map (fun x => d x) l) with (map d l). field. intros Q. rewrite Q in S2. lra.
Qed.

(** months by number *)
Lemma same_month t u c : valid c t -> valid c u -> same_period Month t u = true <-> tmonth t = tmonth u.
Proof. intros V V'. rewrite (same_period_pnum c Month) by auto. cbn [pnum]. split; congruence. Qed.
Lemma complete_months_perm c P w xs ms ms' : complete_months c P w xs ms -> complete_months c P w xs ms' -> (forall t u, valid c t -> valid c u -> same_period Month t u = true -> P t = P u) -> Permutation (map tmonth ms) (map tmonth ms').
Proof.
  intros C C' HP. assert (ND : forall l, complete_months c P w xs l -> NoDup (map tmonth l)).
  { intros l [V _ _ O]. induction O as [|t l Ht O IH]; [constructor|]. inversion V as [|? ? Vt V']; subst. cbn [map]. constructor; auto. intros Hi. apply in_map_iff in Hi. destruct Hi as (u & E & Hu). rewrite Forall_forall in Ht, V'. specialize (Ht u Hu). assert (same_period Month t u = true) by (apply (same_month t u c); auto). congruence. }
  assert (IN : forall l l', complete_months c P w xs l -> complete_months c P w xs l' -> incl (map tmonth l) (map tmonth l')).
  { intros l l' Cl Cl' q Hq. apply in_map_iff in Hq. destruct Hq as (t & <- & Ht). pose proof (cm_valid _ _ _ _ _ Cl) as V. pose proof (cm_valid _ _ _ _ _ Cl') as V'. pose proof (cm_in _ _ _ _ _ Cl) as I. rewrite Forall_forall in V, V', I. destruct (I t Ht) as [I1 I2].
    destruct (cm_all _ _ _ _ _ Cl' t (V t Ht) I1 I2) as (u & Hu & E). apply (same_month u t c) in E; auto. rewrite <- E. apply in_map. auto. }
  apply NoDup_Permutation; eauto. intros q. split; apply IN; auto.
Qed.
(** the average does not depend on the dates chosen to stand for the months *)
Lemma by_days_unique c P w xs ms ms' k : complete_months c P w xs ms -> complete_months c P w xs ms' -> (forall t u, valid c t -> valid c u -> same_period Month t u = true -> P t = P u) -> by_days c k xs ms = by_days c k xs ms'.
Proof.
  intros C C' HP. pose proof (complete_months_perm _ _ _ _ _ _ C C' HP) as Pm. set (g := fun q => let t := mkTime (q / 12) (q mod 12 + 1) 1 0 in (IZR (days c t), value (mean_present (in_period Month t k xs)))).
  assert (G : forall l, Forall (valid c) l -> map (fun t => (IZR (days c t), value (mean_present (in_period Month t k xs)))) l = map g (map tmonth l)).
  { intros l V. rewrite map_map. apply map_ext_in. intros t Ht. rewrite Forall_forall in V. destruct (tmonth_div c t (V t Ht)) as [E1 E2]. unfold g. cbv zeta. unfold days. cbn [yr mo]. rewrite E1, E2. replace (mo t - 1 + 1) with (mo t) by lia. reflexivity. }
  unfold by_days. destruct ms as [|t l]; destruct ms' as [|t' l'].
  - reflexivity.
  - apply Permutation_length in Pm. discriminate.
  - apply Permutation_length in Pm. discriminate.
  - f_equal. rewrite !G by (eapply cm_valid; eauto). apply wavg_perm. apply Permutation_map. auto.
Qed.

Section Zero.
  Variables (c : cal) (infer_freq : list time -> bool) (empty_exc : exc).
  Local Notation CN := (climate_anomaly c infer_freq empty_exc).
  Local Notation CL := (climatology_average c infer_freq empty_exc).
  Local Notation smp := (list (time * (nat -> fl))).
  (** anomalies exist whenever the climatology does *)
  Lemma anom_total x freq f td n y res : anom_short freq f -> all_valid c (samples (inp x)) -> all_tidy (width (inp x)) (samples (inp x)) ->
    time_info x td = Ok n -> n <> EmptyString -> label_year (map fst (samples (inp x))) y -> all_exist c f y (map fst (samples (inp x))) ->
    CL x freq [] td = Ok res -> exists out, CN x freq td = Ok out.
  Proof.
    intros Sh V Ti Et Nn LY A EC. pose proof (time_info_again _ _ _ Et Nn) as Et'.
    assert (EC' : CL x freq [] (Some n) = Ok res). { rewrite <- EC. unfold climatology_average. rewrite Et, Et'. reflexivity. }
    assert (Sh' : clim_short freq f) by (destruct Sh as [[-> ->]|[-> ->]]; unfold clim_short; tauto).
    assert (Hf : cyclic f) by (destruct Sh as [[_ ->]|[_ ->]]; unfold cyclic; auto).
    destruct (clim_out c infer_freq empty_exc x freq f [] (Some n) y res Sh' V Ti LY A EC') as (l & -> & F & _ & Ex & _).
    assert (EF : String.eqb freq "year" = false /\ negb (String.eqb freq "day" || String.eqb freq "month" || String.eqb freq "season" || String.eqb freq "year") = false) by (destruct Sh as [[-> _]|[-> _]]; split; reflexivity).
    unfold climate_anomaly. rewrite Et. cbn [bind]. destruct EF as [EF1 EF2]. rewrite EF2, EF1. cbv zeta. rewrite EC'. cbn [bind]. apply mapM_all. intros s Hs. destruct (Ex s Hs) as (j & Hj & Sj). destruct l as [|e0 l0] eqn:El; [cbn in Hj; lia|]. rewrite <- El in *. specialize (Sj e0).
    pose proof (nth_In l e0 Hj) as He. rewrite Forall_forall in F. destruct (F _ He) as ((Vl & _) & _). unfold all_valid in V. rewrite Forall_forall in V.
    apply (key_same c) in Sj; auto. assert (Hin : In (nth j l e0) (having (anom_key freq) (anom_key freq (fst s)) l)). { unfold having. apply filter_In. split; auto. rewrite !(anom_key_eq freq f) by auto. apply Z.eqb_eq. auto. }
    destruct (having (anom_key freq) (anom_key freq (fst s)) l); [destruct Hin|]. eauto.
  Qed.
  Lemma anom_group_zero x freq f td y out : anom_short freq f -> all_valid c (samples (inp x)) -> all_tidy (width (inp x)) (samples (inp x)) ->
    label_year (map fst (samples (inp x))) y -> all_exist c f y (map fst (samples (inp x))) -> CN x freq td = Ok out ->
    forall t k, (k < width (inp x))%nat -> (exists s r, In s (samples (inp x)) /\ same_key f t (fst s) = true /\ snd s k = Fin r) -> mean_present (in_key f t k out) = Fin 0.
  Proof.
    intros Sh V Ti LY A E t k Hk (s & r & Hs & Sk & Er). apply (anom_zero f (width (inp x)) (samples (inp x))); auto.
    - apply (anom_out c infer_freq empty_exc x freq f td y out); auto.
    - unfold mean_present. destruct (vals (in_key f t k (samples (inp x)))) eqn:EV; [exfalso|eauto]. assert (Q : In r (vals (in_key f t k (samples (inp x))))). { unfold vals. apply in_flat_map. exists (Fin r). split; [|left; auto]. unfold in_key. apply in_map_iff. exists s. split; auto. apply filter_In. auto. } rewrite EV in Q. destruct Q.
  Qed.
  (** season anomalies: the days-weighted average over the months of a season is zero *)
  Lemma season_same m t u : valid c t -> valid c u -> same_period Month t u = true -> in_season m t = in_season m u.
  Proof. intros _ _ E. cbn [same_period] in E. apply andb_true_iff in E. destruct E as [_ E]. apply Z.eqb_eq in E. unfold in_season. rewrite E. reflexivity. Qed.
  Lemma anom_season_zero x td : all_valid c (samples (inp x)) -> all_tidy (width (inp x)) (samples (inp x)) -> (0 < width (inp x))%nat -> (exists n, n <> EmptyString /\ time_info x td = Ok n) -> check_uniform c infer_freq (map fst (samples (inp x))) = Ok tt ->
    let xs : smp := samples (inp x) in let w := width (inp x) in
    (forall m, m = 12 \/ m = 3 \/ m = 6 \/ m = 9 -> exists u, In u xs /\ in_season m (fst u) = true) ->
    exists out, CN x "season" td = Ok out /\
      forall m ms k, (m = 12 \/ m = 3 \/ m = 6 \/ m = 9) -> complete_months c (in_season m) w xs ms -> ms <> [] -> (k < w)%nat -> complete_months c (in_season m) w out ms /\ by_days c k out ms = Fin 0.
  Proof.
    intros V Ti Hw Hn Eu xs w Four. destruct (anom_season c infer_freq empty_exc x td V Ti Hw Hn Eu Four) as (out & E & F). exists out. split; auto. intros m ms k Hm C NE Hk. fold xs w in V, Ti, Hw, F.
    assert (U : forall m1 m2 t, (m1 = 12 \/ m1 = 3 \/ m1 = 6 \/ m1 = 9) -> (m2 = 12 \/ m2 = 3 \/ m2 = 6 \/ m2 = 9) -> in_season m1 t = true -> in_season m2 t = true -> m1 = m2).
    { intros m1 m2 t H1 H2 S1 S2. unfold in_season in S1, S2. apply Z.ltb_lt in S1, S2. lia. }
    (* every sample of the season has the same average subtracted *)
    assert (B : forall k, (k < w)%nat -> exists b, by_days c k xs ms = Fin b). { intros k' Hk'. unfold by_days. destruct ms; [contradiction|]. eauto. }
    assert (Q : forall k b, (k < w)%nat -> by_days c k xs ms = Fin b -> forall l o : smp, incl l xs -> Forall2 (fun s e => fst e = fst s /\ exists m ms, (m = 12 \/ m = 3 \/ m = 6 \/ m = 9) /\ in_season m (fst s) = true /\ complete_months c (in_season m) w xs ms /\
                 forall k, (k < w)%nat -> snd e k = minus (snd s k) (match ms with [] => Fin 0 | _ => by_days c k xs ms end)) l o -> forall t, in_season m t = true -> in_period Month t k o = map (fun v => minus v (Fin b)) (in_period Month t k l)).
    { intros k' b Hk' Eb l o Hincl Fl t St. unfold in_period. induction Fl as [|s e l o (H1 & m' & ms' & Hm' & Sm & Cm & H2) Fl IH]; [reflexivity|]. cbn [filter]. rewrite H1.
      assert (IH' := IH (fun z Hz => Hincl z (or_intror Hz))). destruct (same_period Month t (fst s)) eqn:Sp; cbn [map]; [|apply IH'].
      f_equal; [|apply IH']. rewrite H2 by auto. f_equal. assert (Em : in_season m (fst s) = true). { rewrite <- St. symmetry. cbn [same_period] in Sp. apply andb_true_iff in Sp. destruct Sp as [_ Sp]. apply Z.eqb_eq in Sp. unfold in_season. rewrite Sp. reflexivity. }
      pose proof (U _ _ _ Hm' Hm Sm Em). subst m'. rewrite <- Eb. rewrite (by_days_unique c (in_season m) w xs ms ms') by (auto; apply season_same).
      destruct ms'; [|reflexivity]. exfalso. pose proof (complete_months_perm _ _ _ _ _ _ C Cm (season_same m)) as Pm. apply Permutation_length in Pm. destruct ms; [contradiction|discriminate]. }
    assert (M : forall k b, (k < w)%nat -> by_days c k xs ms = Fin b -> forall t, in_season m t = true -> (forall r, mean_present (in_period Month t k xs) = Fin r -> mean_present (in_period Month t k out) = Fin (r - b)) /\ (mean_present (in_period Month t k xs) = NaN -> mean_present (in_period Month t k out) = NaN)).
    { intros k' b Hk' Eb t St. rewrite (Q k' b Hk' Eb xs out (incl_refl _) F t St). split; [intros r Er; apply mean_minus; auto|]. unfold mean_present. rewrite vals_minus. destruct (vals (in_period Month t k' xs)); [reflexivity|discriminate]. }
    assert (CI : forall t, in_season m t = true -> complete Month w out t <-> complete Month w xs t).
    { intros t St. split; intros H k' Hk'; destruct (B k' Hk') as [b Eb]; destruct (M k' b Hk' Eb t St) as [M1 M2]; destruct (H k' Hk') as [r Er].
      - unfold mean_present at 1. destruct (vals (in_period Month t k' xs)) eqn:EV; [|eauto]. rewrite M2 in Er; [discriminate|]. unfold mean_present. rewrite EV. reflexivity.
      - rewrite (M1 r Er). eauto. }
    split.
    - destruct C as [C1 C2 C3 C4]. split; auto.
      + rewrite Forall_forall in C2 |- *. intros t Ht. destruct (C2 t Ht). split; auto. apply CI; auto.
      + intros t Vt St Ct. apply C3; auto. apply CI; auto.
    - destruct (B k Hk) as [b Eb]. pose proof (cm_in _ _ _ _ _ C) as CC. rewrite Forall_forall in CC.
      assert (EW : by_days c k out ms = Fin (wavg (map (fun t => (IZR (days c t), (value (mean_present (in_period Month t k xs)) - b)%R)) ms))).
      { unfold by_days. destruct ms as [|t0 ms0] eqn:Em; [contradiction|]. rewrite <- Em in *. f_equal. f_equal. apply map_ext_in. intros t Ht. f_equal. destruct (CC t Ht) as [St Ct]. destruct (Ct k Hk) as [r Er]. rewrite (proj1 (M k b Hk Eb t St) r Er), Er. reflexivity. }
      rewrite EW. f_equal. rewrite (wavg_minus (fun t => IZR (days c t)) (fun t => value (mean_present (in_period Month t k xs))) b ms NE).
      + unfold by_days in Eb. destruct ms; [contradiction|]. injection Eb as Eb. cbn [map]. rewrite Eb. ring.
      + intros t _. apply IZR_lt. unfold days. pose proof (mlen_bounds c (yr t) (mo t)). lia.
  Qed.
End Zero.
