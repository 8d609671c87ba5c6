(** Anomalies of anomalies. *)
From Coq Require Import Reals List Bool Arith ZArith Lra Lia String Permutation.
From Verif Require Import PyBase Num NumFacts SumFacts ArrFacts Calendar CalendarFacts SpecClim Climat ClimFacts ClimApi ClimLong ClimKeys ClimKeysApi ClimSeason ClimAnom ClimMore ClimZero
  SpecUnits SpecSuper SpecClimSuper ClimSuper ClimSuperApi SpecClimIdem.
Import ListNotations.
Local Open Scope Z_scope.
Local Notation smp := (list (time * (nat -> fl))).

Lemma F2_r {A B} (Q : A -> B -> Prop) l l' b : Forall2 Q l l' -> In b l' -> exists a, In a l /\ Q a b.
Proof. induction 1 as [|x y l l' H F IH]; intros []; [subst; exists x; split; [left; auto|auto]|]. destruct (IH H0) as (a & Ha & Qa). exists a. split; [right; auto|auto]. Qed.
Lemma F2_l {A B} (Q : A -> B -> Prop) l l' a : Forall2 Q l l' -> In a l -> exists b, In b l' /\ Q a b.
Proof. induction 1 as [|x y l l' H F IH]; intros []; [subst; exists y; split; [left; auto|auto]|]. destruct (IH H0) as (b & Hb & Qb). exists b. split; [right; auto|auto]. Qed.
Lemma F2_impl_In {A B} (Q Q' : A -> B -> Prop) l l' : Forall2 Q l l' -> (forall a b, In a l -> In b l' -> Q a b -> Q' a b) -> Forall2 Q' l l'.
Proof. induction 1 as [|x y l l' H F IH]; intros K; constructor; [apply K; try (left; reflexivity); auto|]. apply IH. intros a b Ha Hb. apply K; right; auto. Qed.
Lemma minus_zero v : tidy v -> minus v (Fin 0) = v.
Proof. intros [->|[r ->]]; cbn; [reflexivity|]. f_equal. ring. Qed.

Section Idem.
  Variables (c : cal) (infer_freq : list time -> bool) (empty_exc : exc).
  Local Notation CN := (climate_anomaly c infer_freq empty_exc).
  (** missing where the data are *)
  Definition gaps_kept (w : nat) (xs out : smp) : Prop := Forall2 (fun s e => fst e = fst s /\ forall k, (k < w)%nat -> (snd s k = NaN /\ snd e k = NaN) \/ exists r r', snd s k = Fin r /\ snd e k = Fin r') xs out.
  Lemma kept_dates w xs out : gaps_kept w xs out -> map fst out = map fst xs.
  Proof. induction 1 as [|s e l o [H _] _ IH]; [reflexivity|]. cbn [map]. congruence. Qed.
  Lemma kept_valid w xs out : gaps_kept w xs out -> all_valid c xs -> all_valid c out.
  Proof. unfold all_valid. rewrite !Forall_forall. intros G V e He. destruct (F2_r _ _ _ _ G He) as (s & Hs & -> & _). auto. Qed.
  Lemma kept_tidy w xs out : gaps_kept w xs out -> all_tidy w out.
  Proof. unfold all_tidy. rewrite Forall_forall. intros G e He k Hk. destruct (F2_r _ _ _ _ G He) as (s & Hs & _ & H). destruct (H k Hk) as [[_ ->]|(r & r' & _ & ->)]; [left|right; exists r']; reflexivity. Qed.
  Lemma kept_ok x freq td out : CN x freq td = Ok out -> gaps_kept (width (inp x)) (samples (inp x)) out -> exists out', CN (with_data x out) freq td = Ok out'.
  Proof.
    intros E G. set (k0 := width (inp x)).
    assert (I : inputs2 (agree_at k0) x (with_data x out)).
    { repeat split. eapply F2_impl_In; [exact G|]. intros s e _ _ [H1 H2]. split; [exact H1|]. intros k Hk. destruct (H2 k Hk) as [H|(r & r' & A & B)]; [left; exact H|]. right. exists r, r'. repeat split; auto. unfold k0. lia. }
    pose proof (anom2 c infer_freq empty_exc (agree_at k0) (Rsame k0) (same_to k0) (same_nan k0) (same_of k0) (Rsame_avg k0) (Rsame_zero k0) (Rsame_add k0) (Rsame_opp k0) x (with_data x out) freq td I) as O.
    rewrite E in O. destruct (CN (with_data x out) freq td) as [o|e]; [eauto|destruct O].
  Qed.
  Lemma minus_kept w (xs out : smp) (m : time * (nat -> fl) -> nat -> fl) : all_tidy w xs -> Forall2 (fun s e => fst e = fst s /\ forall k, (k < w)%nat -> snd e k = minus (snd s k) (m s k)) xs out ->
    (forall s k r, In s xs -> (k < w)%nat -> snd s k = Fin r -> exists b, m s k = Fin b) -> gaps_kept w xs out.
  Proof.
    intros T F M. eapply F2_impl_In; [exact F|]. intros s e Hs _ [H1 H2]. split; [exact H1|]. intros k Hk. rewrite (H2 k Hk). unfold all_tidy in T. rewrite Forall_forall in T. destruct (T s Hs k Hk) as [->|[r Er]]; [left; auto|].
    right. destruct (M s k r Hs Hk Er) as [b ->]. rewrite Er. exists r, (r - b)%R. auto.
  Qed.
  (** by day and by month *)
  Lemma idem_short x freq f td y out : anom_short freq f -> all_valid c (samples (inp x)) -> all_tidy (width (inp x)) (samples (inp x)) ->
    label_year (map fst (samples (inp x))) y -> all_exist c f y (map fst (samples (inp x))) -> CN x freq td = Ok out ->
    exists out', CN (with_data x out) freq td = Ok out' /\ each2 (width (inp x)) (fun _ a b => a = b) out out'.
  Proof.
    intros Sh V Ti LY A E. pose proof (anom_out c infer_freq empty_exc x freq f td y out Sh V Ti LY A E) as F. cbv zeta in F.
    assert (SK : forall t, same_key f t t = true). { intros t. destruct Sh as [[_ ->]|[_ ->]]; cbn; rewrite ?Z.eqb_refl; reflexivity. }
    assert (G : gaps_kept (width (inp x)) (samples (inp x)) out).
    { apply (minus_kept _ _ _ (fun s k => mean_present (in_key f (fst s) k (samples (inp x)))) Ti F). intros s k r Hs Hk Er. unfold mean_present.
      destruct (vals (in_key f (fst s) k (samples (inp x)))) eqn:EV; [exfalso|eauto]. assert (Q : In r (vals (in_key f (fst s) k (samples (inp x))))). { unfold vals. apply in_flat_map. exists (Fin r). split; [|left; auto]. unfold in_key. apply in_map_iff. exists s. split; auto. apply filter_In. auto. } rewrite EV in Q. destruct Q. }
    destruct (kept_ok x freq td out E G) as [out' E']. exists out'. split; [exact E'|].
    pose proof (anom_out c infer_freq empty_exc (with_data x out) freq f td y out' Sh (kept_valid _ _ _ G V) (kept_tidy _ _ _ G)) as F'.
    assert (KD : map fst (samples (inp (with_data x out))) = map fst (samples (inp x))) by exact (kept_dates _ _ _ G). rewrite KD in F'. specialize (F' LY A E'). cbn [with_data inp samples width] in F'. cbv zeta in F'.
    eapply F2_impl_In; [exact F'|]. intros e e' He _ [H1 H2]. split; [exact H1|]. intros k Hk. rewrite (H2 k Hk). destruct (F2_r _ _ _ _ G He) as (s & Hs & D & K). destruct (K k Hk) as [[_ ->]|(r & r' & Es & Ee)]; [reflexivity|].
    rewrite (anom_group_zero c infer_freq empty_exc x freq f td y out Sh V Ti LY A E (fst e) k Hk); [rewrite Ee; symmetry; apply minus_zero; right; eauto|]. exists s, r. rewrite D. auto.
  Qed.
  (** subtracting the average of the selected months *)
  Lemma months_zero (P : time -> bool) w (xs out : smp) ms :
    (forall t u, same_period Month t u = true -> P t = P u) -> complete_months c P w xs ms -> ms <> [] ->
    Forall2 (fun s e => fst e = fst s /\ (P (fst s) = true -> forall k, (k < w)%nat -> snd e k = minus (snd s k) (by_days c k xs ms))) xs out ->
    complete_months c P w out ms /\ forall k, (k < w)%nat -> by_days c k out ms = Fin 0.
  Proof.
    intros HP C NE F.
    assert (B : forall k, exists b, by_days c k xs ms = Fin b). { intros k. unfold by_days. destruct ms; [contradiction|]. eauto. }
    assert (Q : forall k b, (k < w)%nat -> by_days c k xs ms = Fin b -> forall t, P t = true -> in_period Month t k out = map (fun v => minus v (Fin b)) (in_period Month t k xs)).
    { intros k b Hk Eb t Pt. unfold in_period. set (ys := xs) in Eb at 1. assert (F' : Forall2 (fun s e => fst e = fst s /\ (P (fst s) = true -> snd e k = minus (snd s k) (Fin b))) xs out).
      { eapply F2_impl_In; [exact F|]. intros s e _ _ [H1 H2]. split; [exact H1|]. intros Ps. rewrite (H2 Ps k Hk). fold ys. rewrite Eb. reflexivity. }
      clear - F' HP Pt. induction F' as [|s e l o [H1 H2] F' IH]; [reflexivity|]. cbn [filter]. rewrite H1. destruct (same_period Month t (fst s)) eqn:Sp; cbn [map]; [|exact IH]. f_equal; [|exact IH]. apply H2. rewrite <- (HP t (fst s) Sp). exact Pt. }
    assert (M : forall k b, (k < w)%nat -> by_days c k xs ms = Fin b -> forall t, P t = true -> (forall r, mean_present (in_period Month t k xs) = Fin r -> mean_present (in_period Month t k out) = Fin (r - b)) /\ (mean_present (in_period Month t k xs) = NaN -> mean_present (in_period Month t k out) = NaN)).
    { intros k b Hk Eb t Pt. rewrite (Q k b Hk Eb t Pt). split; [intros r Er; apply mean_minus; auto|]. unfold mean_present. rewrite vals_minus. destruct (vals (in_period Month t k xs)); [reflexivity|discriminate]. }
    assert (CI : forall t, P t = true -> complete Month w out t <-> complete Month w xs t).
    { intros t Pt. split; intros H k Hk; destruct (B k) as [b Eb]; destruct (M k b Hk Eb t Pt) as [M1 M2]; destruct (H k Hk) as [r Er].
      - unfold mean_present at 1. destruct (vals (in_period Month t k xs)) eqn:EV; [|eauto]. rewrite M2 in Er; [discriminate|]. unfold mean_present. rewrite EV. reflexivity.
      - rewrite (M1 r Er). eauto. }
    split.
    - destruct C as [C1 C2 C3 C4]. split; auto.
      + rewrite Forall_forall in C2 |- *. intros t Ht. destruct (C2 t Ht). split; auto. apply CI; auto.
      + intros t Vt St Ct. apply C3; auto. apply CI; auto.
    - intros k Hk. destruct (B k) as [b Eb]. pose proof (cm_in _ _ _ _ _ C) as CC. rewrite Forall_forall in CC.
      assert (EW : by_days c k out ms = Fin (wavg (map (fun t => (IZR (days c t), (value (mean_present (in_period Month t k xs)) - b)%R)) ms))).
      { unfold by_days. destruct ms as [|t0 ms0] eqn:Em; [contradiction|]. rewrite <- Em in *. f_equal. f_equal. apply map_ext_in. intros t Ht. f_equal. destruct (CC t Ht) as [St Ct]. destruct (Ct k Hk) as [r Er]. rewrite (proj1 (M k b Hk Eb t St) r Er), Er. reflexivity. }
      rewrite EW. f_equal. rewrite (wavg_minus (fun t => IZR (days c t)) (fun t => value (mean_present (in_period Month t k xs))) b ms NE).
      + unfold by_days in Eb. destruct ms; [contradiction|]. injection Eb as Eb. cbn [map]. rewrite Eb. ring.
      + intros t _. apply IZR_lt. unfold days. pose proof (mlen_bounds c (yr t) (mo t)). lia.
  Qed.
  (** and where there is none to subtract *)
  Lemma months_same (P : time -> bool) w (xs out : smp) ms ms' :
    (forall t u, same_period Month t u = true -> P t = P u) -> complete_months c P w xs ms -> ms = [] ->
    Forall2 (fun s e => fst e = fst s /\ (P (fst s) = true -> forall k, (k < w)%nat -> snd e k = snd s k)) xs out -> complete_months c P w out ms' -> ms' = [].
  Proof.
    intros HP C -> F C'. destruct ms' as [|t l]; [reflexivity|exfalso]. pose proof (cm_in _ _ _ _ _ C') as I. pose proof (cm_valid _ _ _ _ _ C') as V. inversion I as [|? ? [Pt Ct] _]; subst. inversion V as [|? ? Vt _]; subst.
    destruct (cm_all _ _ _ _ _ C t Vt Pt) as (u & [] & _). intros k Hk. destruct (Ct k Hk) as [r Er]. exists r. rewrite <- Er. f_equal. unfold in_period.
    clear - F HP Pt Hk. induction F as [|s e l o [H1 H2] F IH]; [reflexivity|]. cbn [filter]. rewrite H1. destruct (same_period Month t (fst s)) eqn:Sp; cbn [map]; [|exact IH]. f_equal; [|exact IH]. symmetry. apply H2; [|exact Hk]. rewrite <- (HP t (fst s) Sp). exact Pt.
  Qed.
  Lemma season_month m t u : same_period Month t u = true -> in_season m t = in_season m u.
  Proof. intros E. cbn [same_period] in E. apply andb_true_iff in E. destruct E as [_ E]. apply Z.eqb_eq in E. unfold in_season. rewrite E. reflexivity. Qed.
  Lemma year_month v t u : same_period Month t u = true -> same_period Year v t = same_period Year v u.
  Proof. intros E. cbn [same_period] in *. apply andb_true_iff in E. destruct E as [E _]. apply Z.eqb_eq in E. rewrite E. reflexivity. Qed.
  (** what is subtracted a second time is zero: P selects the months averaged for a date *)
  Lemma second_zero (P : time -> bool) w (xs out : smp) ms ms' : (forall t u, same_period Month t u = true -> P t = P u) -> all_tidy w xs ->
    complete_months c P w xs ms -> complete_months c P w out ms' ->
    Forall2 (fun s e => fst e = fst s /\ (P (fst s) = true -> forall k, (k < w)%nat -> snd e k = minus (snd s k) (Fin (value (by_days c k xs ms))))) xs out ->
    forall k, (k < w)%nat -> value (by_days c k out ms') = 0%R.
  Proof.
    intros HP T C C' F k Hk. destruct ms as [|t l].
    - assert (Em : ms' = []); [|rewrite Em; reflexivity]. apply (months_same P w xs out [] ms' HP C eq_refl); [|exact C'].
      eapply F2_impl_In; [exact F|]. intros s e Hs _ [H1 H2]. split; [exact H1|]. intros Ps k' Hk'. rewrite (H2 Ps k' Hk'). apply minus_zero. unfold all_tidy in T. rewrite Forall_forall in T. apply T; auto.
    - destruct (months_zero P w xs out (t :: l) HP C ltac:(discriminate) F) as [C2 Z]. rewrite (by_days_unique c P w out ms' (t :: l) k C' C2 (fun a b _ _ => HP a b)), (Z k Hk). reflexivity.
  Qed.
  Lemma match_value c0 k xs ms : (match ms with [] => Fin 0 | _ => by_days c0 k xs ms end) = Fin (value (by_days c0 k xs ms)).
  Proof. destruct ms; reflexivity. Qed.
  Lemma idem_season x td : all_valid c (samples (inp x)) -> all_tidy (width (inp x)) (samples (inp x)) -> (0 < width (inp x))%nat -> (exists n, n <> EmptyString /\ time_info x td = Ok n) -> check_uniform c infer_freq (map fst (samples (inp x))) = Ok tt ->
    (forall m, m = 12 \/ m = 3 \/ m = 6 \/ m = 9 -> exists u, In u (samples (inp x)) /\ in_season m (fst u) = true) ->
    exists out out', CN x "season" td = Ok out /\ CN (with_data x out) "season" td = Ok out' /\ each2 (width (inp x)) (fun _ a b => a = b) out out'.
  Proof.
    intros V Ti Hw Hn Eu Four. destruct (anom_season c infer_freq empty_exc x td V Ti Hw Hn Eu Four) as (out & E & F). exists out.
    assert (U : forall m1 m2 t, (m1 = 12 \/ m1 = 3 \/ m1 = 6 \/ m1 = 9) -> (m2 = 12 \/ m2 = 3 \/ m2 = 6 \/ m2 = 9) -> in_season m1 t = true -> in_season m2 t = true -> m1 = m2).
    { intros m1 m2 t H1 H2 S1 S2. unfold in_season in S1, S2. apply Z.ltb_lt in S1, S2. lia. }
    assert (G : gaps_kept (width (inp x)) (samples (inp x)) out).
    { eapply F2_impl_In; [exact F|]. intros s e Hs _ (H1 & m & ms & _ & _ & _ & H2). split; [exact H1|]. intros k Hk. rewrite (H2 k Hk), match_value. unfold all_tidy in Ti. rewrite Forall_forall in Ti. destruct (Ti s Hs k Hk) as [->|[r ->]]; [left; auto|right; cbn; eauto]. }
    destruct (anom_season c infer_freq empty_exc (with_data x out) td (kept_valid _ _ _ G V) (kept_tidy _ _ _ G) Hw Hn) as (out' & E' & F').
    { assert (KD : map fst (samples (inp (with_data x out))) = map fst (samples (inp x))) by exact (kept_dates _ _ _ G). rewrite KD. exact Eu. }
    { intros m Hm. destruct (Four m Hm) as (u & Hu & Su). destruct (F2_l _ _ _ _ G Hu) as (e & He & D & _). exists e. split; [exact He|]. etransitivity; [exact (f_equal (in_season m) D)|exact Su]. }
    exists out'. split; [exact E|]. split; [exact E'|]. cbn [with_data inp samples width] in F'.
    eapply F2_impl_In; [exact F'|]. intros e e' He _ (H1 & m & ms' & Hm & Sm & C' & H2). split; [exact H1|]. intros k Hk. rewrite (H2 k Hk), match_value.
    destruct (F2_r _ _ _ _ F He) as (s & Hs & D & m1 & ms & Hm1 & Sm1 & C & _). rewrite D in Sm. rewrite <- (U _ _ _ Hm Hm1 Sm Sm1) in *.
    rewrite (second_zero (in_season m) (width (inp x)) (samples (inp x)) out ms ms' (season_month m) Ti C C'); [|clear k Hk H2|exact Hk].
    - symmetry. apply minus_zero. pose proof (kept_tidy _ _ _ G) as T. unfold all_tidy in T. rewrite Forall_forall in T. apply T; auto.
    - eapply F2_impl_In; [exact F|]. intros s0 e0 Hs0 _ (K1 & m2 & ms2 & Hm2 & Sm2 & C2 & K2). split; [exact K1|]. intros Sp k Hk. rewrite (K2 k Hk), match_value. rewrite (U _ _ _ Hm2 Hm Sm2 Sp) in *.
      rewrite (by_days_unique c (in_season m) (width (inp x)) (samples (inp x)) ms2 ms k C2 C (fun a b _ _ => season_month m a b)). reflexivity.
  Qed.
  Lemma idem_year x td : all_valid c (samples (inp x)) -> all_tidy (width (inp x)) (samples (inp x)) -> (0 < width (inp x))%nat -> (exists n, n <> EmptyString /\ time_info x td = Ok n) -> check_uniform c infer_freq (map fst (samples (inp x))) = Ok tt ->
    let xs : smp := samples (inp x) in let w := width (inp x) in
    (forall s u, In s xs -> In u xs -> yr (fst s) < yr (fst u) + 100) ->
    (forall s, In s xs -> exists u v, In u xs /\ In v xs /\ complete Month w xs (fst u) /\ complete Month w xs (fst v) /\ yr (fst u) <= yr (fst s) <= yr (fst v)) ->
    exists out out', CN x "year" td = Ok out /\ CN (with_data x out) "year" td = Ok out' /\ each2 w (fun _ a b => a = b) out out'.
  Proof.
    intros V Ti Hw Hn Eu xs w Y100 Bd. destruct (anom_year_short c infer_freq empty_exc x td V Ti Hw Hn Eu Y100 Bd) as (out & E & F). fold xs w in F, V, Ti, Hw. exists out.
    assert (G : gaps_kept w xs out).
    { eapply F2_impl_In; [exact F|]. intros s e Hs _ (H1 & ms & _ & H2). split; [exact H1|]. intros k Hk. rewrite (H2 k Hk). unfold all_tidy in Ti. rewrite Forall_forall in Ti. destruct (Ti s Hs k Hk) as [->|[r ->]]; [left; auto|right; cbn; eauto]. }
    assert (IP : forall t k, (k < w)%nat -> (exists r, mean_present (in_period Month t k xs) = Fin r) -> exists r, mean_present (in_period Month t k out) = Fin r).
    { intros t k Hk (r & Er). unfold mean_present in Er. destruct (vals (in_period Month t k xs)) as [|v l] eqn:EV; [discriminate|]. assert (Q : In v (vals (in_period Month t k xs))) by (rewrite EV; left; auto).
      unfold vals in Q. apply in_flat_map in Q. destruct Q as (a & Ha & Hv). unfold in_period in Ha. apply in_map_iff in Ha. destruct Ha as (s & <- & Hs). apply filter_In in Hs. destruct Hs as [Hs Sp].
      destruct (F2_l _ _ _ _ G Hs) as (e & He & D & K). destruct (K k Hk) as [[En _]|(r1 & r2 & _ & E2)]; [rewrite En in Hv; destruct Hv|].
      unfold mean_present. destruct (vals (in_period Month t k out)) eqn:EV'; [exfalso|eauto]. assert (Q : In r2 (vals (in_period Month t k out))). { unfold vals. apply in_flat_map. exists (Fin r2). split; [|left; auto]. unfold in_period. apply in_map_iff. exists e. split; [auto|]. apply filter_In. rewrite D. auto. } rewrite EV' in Q. destruct Q. }
    destruct (anom_year_short c infer_freq empty_exc (with_data x out) td (kept_valid _ _ _ G V) (kept_tidy _ _ _ G) Hw Hn) as (out' & E' & F').
    { assert (KD : map fst (samples (inp (with_data x out))) = map fst (samples (inp x))) by exact (kept_dates _ _ _ G). rewrite KD. exact Eu. }
    { cbn [with_data inp samples]. intros e e0 He He0. destruct (F2_r _ _ _ _ G He) as (s & Hs & -> & _). destruct (F2_r _ _ _ _ G He0) as (s0 & Hs0 & -> & _). auto. }
    { cbn [with_data inp samples width]. intros e He. destruct (F2_r _ _ _ _ G He) as (s & Hs & -> & _). destruct (Bd s Hs) as (u & v & Hu & Hv & Cu & Cv & L). destruct (F2_l _ _ _ _ G Hu) as (u' & Hu' & Du & _). destruct (F2_l _ _ _ _ G Hv) as (v' & Hv' & Dv & _).
      exists u', v'. rewrite Du, Dv. repeat split; auto; try lia; intros k Hk; apply IP; auto. }
    exists out'. split; [exact E|]. split; [exact E'|]. cbn [with_data inp samples width] in F'. fold w in F'.
    eapply F2_impl_In; [exact F'|]. intros e e' He _ (H1 & ms' & C' & H2). split; [exact H1|]. intros k Hk. rewrite (H2 k Hk).
    destruct (F2_r _ _ _ _ F He) as (s & Hs & D & ms & C & _). rewrite D in C'.
    rewrite (second_zero (same_period Year (fst s)) w xs out ms ms' (year_month (fst s)) Ti C C'); [|clear k Hk H2|exact Hk].
    - symmetry. apply minus_zero. pose proof (kept_tidy _ _ _ G) as T. unfold all_tidy in T. rewrite Forall_forall in T. apply T; auto.
    - eapply F2_impl_In; [exact F|]. intros s0 e0 Hs0 _ (K1 & ms2 & C2 & K2). split; [exact K1|]. intros Sp k Hk. rewrite (K2 k Hk). f_equal. f_equal. f_equal. cbn [same_period] in Sp. apply Z.eqb_eq in Sp.
      apply (by_days_unique c (same_period Year (fst s)) w xs ms2 ms k); [|exact C|intros a b _ _; apply year_month].
      assert (X : forall t, same_period Year (fst s0) t = same_period Year (fst s) t) by (intros t; cbn [same_period]; rewrite Sp; reflexivity).
      destruct C2 as [A1 A2 A3 A4]. split; auto; [eapply Forall_impl; [|exact A2]; cbv beta; intros t; rewrite X; auto|intros t Vt; rewrite <- X; auto].
  Qed.
End Idem.
