(** climatology_average by season. *)
From Coq Require Import Reals List Bool Arith ZArith Lra Lia String Ascii.
From Verif Require Import PyBase Num NumFacts SumFacts ArrFacts Calendar CalendarFacts SpecClim Climat ClimFacts ClimApi ClimLong ClimKeys ClimKeysApi.
Import ListNotations.
Local Open Scope Z_scope.

(** the table of seasons holds exactly the names spelled by three months in a row *)
Lemma months_in m a b d : 1 <= m <= 12 -> a = m -> b = m mod 12 + 1 -> d = (m + 1) mod 12 + 1 -> forall t, 1 <= mo t <= 12 -> in_months (a, b, d) t = in_season m t.
Proof.
  intros H -> -> -> t Ht. unfold in_months, in_season. apply eq_true_iff_eq. rewrite !orb_true_iff, !Z.eqb_eq, Z.ltb_lt. lia.
Qed.
Lemma find_season_iff s a b d : find_season s = Some (a, b, d) <-> spells s a /\ b = a mod 12 + 1 /\ d = (a + 1) mod 12 + 1.
Proof.
  split.
  - intros H. unfold find_season, seasons_dict in H. cbn [find option_map fst snd] in H.
    repeat match type of H with option_map _ (if String.eqb ?n ?x then _ else _) = _ => destruct (String.eqb_spec n x) as [<-|]; [cbn [option_map snd] in H; injection H as <- <- <-; repeat split; try lia; reflexivity|] end.
    discriminate.
  - intros ((H & ->) & -> & ->). assert (Q : a = 1 \/ a = 2 \/ a = 3 \/ a = 4 \/ a = 5 \/ a = 6 \/ a = 7 \/ a = 8 \/ a = 9 \/ a = 10 \/ a = 11 \/ a = 12) by lia.
    repeat (destruct Q as [->|Q]; [reflexivity|]). subst a. reflexivity.
Qed.
Lemma spells_unique s m m' : spells s m -> spells s m' -> m = m'.
Proof.
  intros H H'. assert (Q : find_season s = Some (m, m mod 12 + 1, (m + 1) mod 12 + 1)) by (apply find_season_iff; auto).
  assert (Q' : find_season s = Some (m', m' mod 12 + 1, (m' + 1) mod 12 + 1)) by (apply find_season_iff; auto). rewrite Q in Q'. injection Q'. auto.
Qed.
Lemma find_season_none s : find_season s = None <-> forall m, ~ spells s m.
Proof.
  split.
  - intros H m S. assert (Q : find_season s = Some (m, m mod 12 + 1, (m + 1) mod 12 + 1)) by (apply find_season_iff; auto). congruence.
  - intros H. destruct (find_season s) as [[[a b] d]|] eqn:E; auto. apply find_season_iff in E. destruct E as [E _]. destruct (H a E).
Qed.

Section Season.
  Variables (c : cal) (infer_freq : list time -> bool) (empty_exc : exc).
  Local Notation CL := (climatology_average c infer_freq empty_exc).
  Local Notation smp := (list (time * (nat -> fl))).
  Local Notation D q := (date_of c (pstart c Month q)).

  (** only the dates of the season are looked at *)
  Definition sel (m : Z) (xs : smp) : smp := filter (fun s => in_season m (fst s)) xs.
  Lemma sel_period m xs t k : in_season m t = true -> in_period Month t k (sel m xs) = in_period Month t k xs.
  Proof.
    intros H. unfold in_period, sel. f_equal. induction xs as [|s l IH]; [reflexivity|]. cbn [filter]. destruct (in_season m (fst s)) eqn:E; cbn [filter]; rewrite IH; auto.
    destruct (same_period Month t (fst s)) eqn:Q; auto. exfalso. cbn in Q. apply andb_true_iff in Q. rewrite !Z.eqb_eq in Q. unfold in_season in *. destruct Q as [_ Q]. congruence.
  Qed.
  Lemma sel_out m xs w t : (0 < w)%nat -> complete Month w (sel m xs) t -> in_season m t = true.
  Proof.
    intros Hw H. destruct (H 0%nat Hw) as [r E]. apply mean_present_notnan in E. unfold in_period in E. destruct (filter (fun s => same_period Month t (fst s)) (sel m xs)) as [|s l] eqn:F; [destruct (E eq_refl)|].
    assert (Q : In s (filter (fun s => same_period Month t (fst s)) (sel m xs))) by (rewrite F; left; auto). apply filter_In in Q. destruct Q as [Q1 Q2]. apply filter_In in Q1. destruct Q1 as [_ Q1]. cbn in Q2. apply andb_true_iff in Q2. rewrite !Z.eqb_eq in Q2. unfold in_season in *. destruct Q2 as [_ Q2]. congruence.
  Qed.
  Lemma sel_complete m xs w t : (0 < w)%nat -> complete Month w (sel m xs) t <-> in_season m t = true /\ complete Month w xs t.
  Proof.
    intros Hw. split.
    - intros H. assert (S : in_season m t = true) by (apply (sel_out m xs w); auto). split; auto. intros k Hk. rewrite <- (sel_period m) by auto. auto.
    - intros [S H] k Hk. rewrite sel_period by auto. auto.
  Qed.
  Lemma season_mean_spec m xs w a b d : (0 < w)%nat -> all_valid c xs -> all_tidy w xs -> 1 <= m <= 12 -> a = m -> b = m mod 12 + 1 -> d = (m + 1) mod 12 + 1 ->
    (sel m xs = [] -> season_mean c empty_exc Month w (a, b, d) xs = Err empty_exc) /\
    (sel m xs <> [] -> exists fr ms, season_mean c empty_exc Month w (a, b, d) xs = Ok fr /\ complete_months c (in_season m) w xs ms /\
       forall k, (k < w)%nat -> fr k = match ms with [] => Fin 0 | _ => by_days c k xs ms end).
  Proof.
    intros Hw V Ti Hm Ea Eb Ed. assert (Vs : forall s, In s xs -> valid c (fst s)) by (unfold all_valid in V; rewrite Forall_forall in V; auto).
    assert (ES : filter (fun s => in_months (a, b, d) (fst s)) xs = sel m xs). { unfold sel. apply filter_ext_in. intros s Hs. apply (months_in m); auto. apply (Vs s Hs). }
    assert (V' : all_valid c (sel m xs)). { unfold all_valid in *. rewrite Forall_forall in *. intros s Hs. apply filter_In in Hs. apply V; tauto. }
    assert (Ti' : all_tidy w (sel m xs)). { unfold all_tidy in *. rewrite Forall_forall in *. intros s Hs. apply filter_In in Hs. apply Ti; tauto. }
    unfold season_mean, frame. rewrite ES. split.
    - intros ->. reflexivity.
    - intros NE. destruct (sel m xs) as [|s0 l0] eqn:F; [contradiction|]. rewrite <- F in *. clear NE. assert (LL : Nat.eqb (List.length (sel m xs)) 0 = false) by (rewrite F; reflexivity). rewrite LL. cbv zeta.
      rewrite dropna_resampled. fold (surv c w (sel m xs)). eexists _, (map (fun q => D q) (surv c w (sel m xs))). split; [reflexivity|]. split.
      + split.
        * apply Forall_forall. intros t Ht. apply in_map_iff in Ht. destruct Ht as (q & <- & _). apply D_spec.
        * apply Forall_forall. intros t Ht. apply in_map_iff in Ht. destruct Ht as (q & <- & Hq). destruct (D_spec c q) as [VD ED]. apply (sel_complete m xs w); auto. apply (In_surv c w); auto. rewrite ED. auto.
        * intros t Vt S Ct. destruct (D_spec c (tmonth t)) as [VD ED]. exists (D (tmonth t)). split.
          -- apply in_map_iff. exists (tmonth t). split; auto. apply (In_surv c w); auto. apply (proj2 (sel_complete m xs w t Hw)). auto.
          -- apply (same_period_pnum c); auto.
        * pose proof (NoDup_surv c w (sel m xs)) as ND. induction ND as [|q l' Nq ND IH]; cbn [map]; constructor; auto.
          apply Forall_forall. intros t Ht. apply in_map_iff in Ht. destruct Ht as (q' & <- & Hq'). destruct (D_spec c q) as [V1 E1]. destruct (D_spec c q') as [V2 E2].
          destruct (same_period Month (D q) (D q')) eqn:S; auto. exfalso. apply (same_period_pnum c) in S; auto. cbn [pnum] in S. apply Nq. rewrite <- E1, <- S, E2. auto.
      + intros k Hk. set (l := surv c w (sel m xs)) in *. rewrite !map_map. cbn [fst snd]. destruct (map (fun q => D q) l) eqn:F1.
        * destruct l; [|discriminate]. reflexivity.
        * rewrite <- F1. assert (NE : l <> []) by (intros Q; rewrite Q in F1; discriminate). unfold by_days. destruct (map (fun q => D q) l) eqn:F2; [discriminate|]. rewrite <- F2.
          set (v := fun q => value (mean_present (in_period Month (D q) k xs))). rewrite (map_ext (fun q => month_length c (D q)) (qlen c)) by (intros; apply month_length_D).
          rewrite (map_ext_in _ (fun q => (Fin (v q) * (ofZ (qlen c q) / ofZ (zsum (map (qlen c) l))))%num)).
          -- rewrite weighted_sum; auto; [|intros q _; pose proof (qlen_bounds c q); lia]. f_equal. f_equal. rewrite map_map. apply map_ext. intros q. unfold v, days. f_equal. f_equal. symmetry. apply (month_length_D c q).
          -- intros q Hq. rewrite month_length_D. f_equal. destruct (D_spec c q) as [VD ED]. assert (Q : complete Month w (sel m xs) (D q)) by (apply (In_surv c w); auto; rewrite ED; auto).
             pose proof (sel_out m xs w _ Hw Q) as SO. destruct (Q k Hk) as [r Er]. unfold v. rewrite <- (sel_period m) by auto. rewrite Er. cbn [value].
             rewrite <- Er, <- (mean_of_present c Month _ w) by auto. cbn [pnum]. rewrite ED. reflexivity.
  Qed.
  Definition requested (custom : list string) : list string := match custom with [] => ["DJF"; "JJA"; "MAM"; "SON"]%string | _ => custom end.
  Definition season_entry (w : nat) (xs : smp) (e : string * frame fl) : Prop :=
    exists m ms, spells (fst e) m /\ (exists s, In s xs /\ in_season m (fst s) = true) /\ complete_months c (in_season m) w xs ms /\ forall k, (k < w)%nat -> snd e k = match ms with [] => Fin 0 | _ => by_days c k xs ms end.
  Lemma requested_default custom : forallb (fun s => match find_season s with Some _ => true | None => false end) (requested custom) = true <-> forall s, In s (requested custom) -> exists m, spells s m.
  Proof.
    rewrite forallb_forall. split; intros H s Hs; specialize (H s Hs).
    - destruct (find_season s) as [[[a b] d]|] eqn:E; [|discriminate]. apply find_season_iff in E. exists a. tauto.
    - destruct H as [m H]. assert (Q : find_season s = Some (m, m mod 12 + 1, (m + 1) mod 12 + 1)) by (apply find_season_iff; auto). rewrite Q. auto.
  Qed.
  Lemma clim_season x custom td : all_valid c (samples (inp x)) -> all_tidy (width (inp x)) (samples (inp x)) -> (0 < width (inp x))%nat -> accepted c infer_freq x td ->
    let xs := samples (inp x) in let w := width (inp x) in
    ((exists s, In s (requested custom) /\ forall m, ~ spells s m) -> CL x "season" custom td = Err ValueError) /\
    ((forall s, In s (requested custom) -> exists m, spells s m) ->
       ((exists s m, In s (requested custom) /\ spells s m /\ forall u, In u xs -> in_season m (fst u) = false) -> CL x "season" custom td = Err empty_exc) /\
       ((forall s m, In s (requested custom) -> spells s m -> exists u, In u xs /\ in_season m (fst u) = true) ->
          exists out, CL x "season" custom td = Ok (Seasons out) /\ map fst out = requested custom /\ Forall (season_entry w xs) out)).
  Proof.
    intros V Ti Hw ((n & Et) & Eu) xs w. fold xs w in V, Ti, Hw.
    assert (E : CL x "season" custom td = guard negb (forallb (fun s => match find_season s with Some _ => true | None => false end) (requested custom)) raise ValueError ;;
       do l <- mapM (fun s => do ms <- oget KeyError (find_season s) ;; do fr <- season_mean c empty_exc Month w ms xs ;; Ok (s, fr)) (requested custom) ;; Ok (Seasons l)).
    { unfold climatology_average. rewrite Et, Eu. reflexivity. }
    rewrite E. split.
    - intros (s & Hs & Ns). destruct (forallb _ (requested custom)) eqn:F; [|reflexivity]. destruct (proj1 (requested_default custom) F s Hs) as [m S]. destruct (Ns m S).
    - intros A. rewrite (proj2 (requested_default custom) A). cbn [negb].
      assert (SM : forall s m, spells s m -> oget KeyError (find_season s) = Ok (m, m mod 12 + 1, (m + 1) mod 12 + 1)). { intros s m S. assert (Q : find_season s = Some (m, m mod 12 + 1, (m + 1) mod 12 + 1)) by (apply find_season_iff; auto). rewrite Q. reflexivity. }
      assert (SD : forall m, sel m xs = [] \/ exists u, In u xs /\ in_season m (fst u) = true). { intros m. destruct (sel m xs) as [|u l] eqn:F; auto. right. exists u. assert (Q : In u (sel m xs)) by (rewrite F; left; auto). apply filter_In in Q. auto. }
      split.
      + intros (s & m & Hs & S & No). revert Hs A. generalize (requested custom). intros l Hs A. induction l as [|s1 l IH]; [destruct Hs|]. cbn [mapM].
        destruct (A s1 ltac:(left; auto)) as [m1 S1]. rewrite (SM s1 m1 S1). cbn [bind]. destruct (season_mean_spec m1 xs w _ _ _ Hw V Ti (proj1 S1) eq_refl eq_refl eq_refl) as [Q1 Q2].
        destruct (SD m1) as [Z|[u [Hu Su]]]; [rewrite Q1 by auto; reflexivity|]. destruct Q2 as (fr & ms & Q2 & _). { intros Z. assert (Q : In u (sel m1 xs)) by (apply filter_In; auto). rewrite Z in Q. destruct Q. }
        rewrite Q2. cbn [bind]. destruct Hs as [->|Hs].
        * exfalso. rewrite (spells_unique s m1 m S1 S) in Su. rewrite (No u Hu) in Su. discriminate.
        * assert (IH' := IH Hs (fun s Hs => A s (or_intror Hs))). clear IH. destruct (mapM _ l) as [r|e]; cbn [bind] in *; [discriminate|]. auto.
      + intros Ex. assert (Q : exists out, mapM (fun s => do ms <- oget KeyError (find_season s) ;; do fr <- season_mean c empty_exc Month w ms xs ;; Ok (s, fr)) (requested custom) = Ok out /\ map fst out = requested custom /\ Forall (season_entry w xs) out).
        { revert A Ex. generalize (requested custom). intros l A Ex. induction l as [|s1 l IH]; [exists []; auto|]. cbn [mapM]. destruct (A s1 ltac:(left; auto)) as [m1 S1]. rewrite (SM s1 m1 S1). cbn [bind].
          destruct (season_mean_spec m1 xs w _ _ _ Hw V Ti (proj1 S1) eq_refl eq_refl eq_refl) as [Q1 Q2]. destruct (Ex s1 m1 ltac:(left; auto) S1) as (u & Hu & Su).
          destruct Q2 as (fr & ms & Q2 & CM & Fr). { intros Z. assert (Q : In u (sel m1 xs)) by (apply filter_In; auto). rewrite Z in Q. destruct Q. }
          rewrite Q2. cbn [bind]. destruct IH as (out & IH & I1 & I2). { intros; apply A; right; auto. } { intros; eapply Ex; [right|]; eauto. } rewrite IH. cbn [bind]. exists ((s1, fr) :: out). split; auto. split; [cbn; rewrite I1; auto|]. constructor; auto. exists m1, ms. cbn [fst snd]. split; auto. split; eauto. }
        destruct Q as (out & -> & Q). exists out. split; auto.
  Qed.
End Season.
