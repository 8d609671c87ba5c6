(** Proofs about the order of the dates (C141). *)
From Coq Require Import Reals List Bool Arith ZArith Lra Lia String Permutation Sorted.
From Verif Require Import PyBase Num NumFacts SumFacts ArrFacts Calendar CalendarFacts SpecClim Climat ClimFacts ClimApi ClimKeys ClimSeason ClimM2S ClimAnom ClimMore ClimZero ClimRel ClimOrder SpecUnits SpecClimB64 SpecClimOrder.
Import ListNotations.
Local Open Scope Z_scope.
Local Notation smp := (list (time * (nat -> fl))).

Section Dates.
  Variable c : cal.
  Lemma in_order_iff ts : in_order c ts = true <-> increasing c ts.
  Proof.
    unfold increasing. split.
    - intros H. apply Sorted_StronglySorted; [intros a b d; lia|]. induction ts as [|t [|u r] IH]; [constructor|repeat constructor|]. cbn [in_order] in H. apply andb_true_iff in H. destruct H as [A B]. constructor; [apply IH, B|constructor; apply Z.leb_le, A].
    - induction 1 as [|t r S IH F]; [reflexivity|]. destruct r as [|u r]; [reflexivity|]. cbn [in_order]. change (in_order c (u :: r) = true) in IH. apply andb_true_iff. split; [apply Z.leb_le; inversion F; auto|exact IH].
  Qed.
  Lemma order_dec ts : {increasing c ts} + {~ increasing c ts}.
  Proof. destruct (in_order c ts) eqn:E; [left; apply in_order_iff, E|right; intros H; apply in_order_iff in H; congruence]. Qed.
  Lemma out_of_order ts : ~ increasing c ts -> in_order c ts = false.
  Proof. intros H. destruct (in_order c ts) eqn:E; [apply in_order_iff in E; contradiction|reflexivity]. Qed.
  Lemma increasing_filter (p : time * (nat -> fl) -> bool) (xs : smp) : increasing c (map fst xs) -> increasing c (map fst (filter p xs)).
  Proof.
    unfold increasing. induction xs as [|s xs IH]; cbn [map filter]; intros H; [constructor|]. inversion H as [|? ? S F]; subst. destruct (p s); [|auto]. cbn [map]. constructor; [auto|].
    rewrite Forall_forall in *. intros t Ht. apply F. apply in_map_iff in Ht. destruct Ht as (e & <- & He). apply filter_In in He. apply in_map, He.
  Qed.
  Lemma increasing_tl (xs : smp) : increasing c (map fst xs) -> increasing c (map fst (tl xs)).
  Proof. intros H. destruct xs; [constructor|]. cbn in *. inversion H; auto. Qed.
  Lemma increasing_removelast (xs : smp) : increasing c (map fst xs) -> increasing c (map fst (removelast xs)).
  Proof.
    unfold increasing. induction xs as [|s xs IH]; cbn [map removelast]; intros H; [constructor|]. inversion H as [|? ? S F]; subst. destruct xs as [|u xs]; [constructor|]. cbn [map]. constructor; [apply IH, S|].
    rewrite Forall_forall in *. intros t Ht. apply F. apply in_map_iff in Ht. destruct Ht as (e & <- & He). apply in_map. clear -He.
    revert u He. induction xs as [|v xs IH]; intros u He; [destruct He|]. cbn [removelast] in He. destruct He as [<-|He]; [left; auto|right; apply IH, He].
  Qed.
End Dates.

Section Ord.
  Variables (c : cal) (infer_freq : list time -> bool) (empty_exc : exc).
  Local Notation CO := (calendar_average_ord c infer_freq).
  Local Notation KO := (climatology_average_ord c infer_freq empty_exc).
  Local Notation AO := (climate_anomaly_ord c infer_freq empty_exc).
  Local Notation MO := (month_to_season_ord c empty_exc).

  (** ** the checks only add failures *)
  Lemma check_ok ts : check_uniform_ord c infer_freq ts = Ok tt -> check_uniform c infer_freq ts = Ok tt.
  Proof. unfold check_uniform_ord. intros H. destruct (Nat.ltb (List.length ts) 3) eqn:E; [discriminate|]. destruct (infer_freq ts) eqn:F; [unfold check_uniform; rewrite E, F; reflexivity|]. destruct (negb _); [discriminate|exact H]. Qed.
  Lemma check_same ts : increasing c ts -> check_uniform_ord c infer_freq ts = check_uniform c infer_freq ts.
  Proof.
    intros H. apply in_order_iff in H. unfold check_uniform_ord. destruct (Nat.ltb (List.length ts) 3) eqn:E; [unfold check_uniform; rewrite E; reflexivity|]. destruct (infer_freq ts) eqn:F; [unfold check_uniform; rewrite E, F; reflexivity|]. rewrite H. reflexivity.
  Qed.
  Lemma check_value ts e : check_uniform_ord c infer_freq ts = Err e -> e = ValueError.
  Proof.
    unfold check_uniform_ord, check_uniform. destruct (Nat.ltb (List.length ts) 3); [congruence|]. destruct (infer_freq ts); [discriminate|]. destruct (negb _); [congruence|]. destruct (negb _); congruence.
  Qed.
  Lemma season_ok f w ms (xs : smp) r : season_mean_ord c empty_exc f w ms xs = Ok r -> season_mean c empty_exc f w ms xs = Ok r.
  Proof. unfold season_mean_ord. cbv zeta. destruct (Nat.eqb _ 0); [discriminate|]. destruct (negb _); [discriminate|]. auto. Qed.
  Lemma season_same f w ms (xs : smp) : increasing c (map fst (filter (fun s => in_months ms (fst s)) xs)) -> season_mean_ord c empty_exc f w ms xs = season_mean c empty_exc f w ms xs.
  Proof.
    intros H. apply in_order_iff in H. unfold season_mean_ord. cbv zeta. unfold frame in *. rewrite H. cbn [negb]. unfold season_mean at 2. cbv zeta. destruct (Nat.eqb _ 0) eqn:E; [reflexivity|]. unfold season_mean. cbv zeta. unfold frame in *. rewrite E. reflexivity.
  Qed.
  Lemma cal_ok x freq td out : CO x freq td = Ok out -> calendar_average c infer_freq x freq td = Ok out.
  Proof.
    unfold calendar_average_ord. destruct (oget _ _); [|discriminate]. cbn [bind]. destruct (time_info x td); [|discriminate]. cbn [bind]. destruct (check_uniform_ord _ _ _); [|discriminate]. cbn [bind]. destruct (negb _); [discriminate|auto].
  Qed.
  Lemma cal_increasing x freq td out : CO x freq td = Ok out -> increasing c (map fst (samples (inp x))).
  Proof.
    unfold calendar_average_ord. destruct (oget _ _); [|discriminate]. cbn [bind]. destruct (time_info x td); [|discriminate]. cbn [bind]. destruct (check_uniform_ord _ _ _); [|discriminate]. cbn [bind].
    destruct (in_order _ _) eqn:E; [intros _; apply in_order_iff, E|discriminate].
  Qed.
  Lemma cal_same (x : input fl) freq td : increasing c (map fst (samples (inp x))) -> CO x freq td = calendar_average c infer_freq x freq td.
  Proof.
    intros H. unfold calendar_average_ord. rewrite (check_same _ H). apply in_order_iff in H. rewrite H. cbn [negb]. unfold calendar_average.
    destruct (oget _ _); [|reflexivity]. cbn [bind]. destruct (time_info x td); [|reflexivity]. cbn [bind]. destruct (check_uniform _ _ _); reflexivity.
  Qed.
  Lemma clim_ok x freq custom td out : KO x freq custom td = Ok out -> climatology_average c infer_freq empty_exc x freq custom td = Ok out.
  Proof.
    unfold climatology_average_ord. destruct (oget _ (clim_freq freq)) as [f|] eqn:Ef; [|discriminate]. cbn [bind]. destruct (time_info x td) eqn:Et; [|discriminate]. cbn [bind]. destruct (check_uniform_ord _ _ _) as [[]|] eqn:Eu; [|discriminate]. cbn [bind]. apply check_ok in Eu.
    destruct (String.eqb freq "season") eqn:Es; [|auto]. unfold climatology_average. rewrite Ef, Et. cbn [bind]. cbv zeta. rewrite Eu. cbn [bind]. rewrite Es. destruct (negb _); [discriminate|].
    destruct (mapM _ _) as [l|] eqn:EM; [|discriminate]. cbn [bind]. intros E. apply mapM_Ok_iff in EM. rewrite (proj2 (mapM_Ok_iff _ _ l)); [exact E|]. clear E. induction EM as [|s y ss l K _ IH]; constructor; auto. revert K. destruct (oget KeyError (find_season s)) as [ms|]; [|discriminate]. cbn [bind].
    destruct (season_mean_ord _ _ _ _ _ _) as [fr|] eqn:E'; [|discriminate]. rewrite (season_ok _ _ _ _ _ E'). auto.
  Qed.
  Lemma clim_same (x : input fl) freq custom td : increasing c (map fst (samples (inp x))) -> KO x freq custom td = climatology_average c infer_freq empty_exc x freq custom td.
  Proof.
    intros H. unfold climatology_average_ord. rewrite (check_same _ H). unfold climatology_average.
    destruct (oget _ (clim_freq freq)) as [f|] eqn:Ef; [|reflexivity]. cbn [bind]. destruct (time_info x td); [|reflexivity]. cbn [bind]. cbv zeta. destruct (check_uniform _ _ _); [|reflexivity]. cbn [bind].
    destruct (String.eqb freq "season") eqn:Es; [|reflexivity]. destruct (negb _); [reflexivity|]. f_equal. generalize (match custom with [] => ["DJF"; "JJA"; "MAM"; "SON"]%string | _ => custom end). intros ss.
    induction ss as [|s ss IH]; [reflexivity|]. cbn [mapM]. destruct (oget KeyError (find_season s)) as [ms|]; [|reflexivity]. cbn [bind]. rewrite (season_same f (width (inp x)) ms (samples (inp x))) by (apply increasing_filter, H). destruct (season_mean _ _ _ _ _ _); [|reflexivity]. cbn [bind]. rewrite IH. reflexivity.
  Qed.
  Lemma anom_ok x freq td out : AO x freq td = Ok out -> climate_anomaly c infer_freq empty_exc x freq td = Ok out.
  Proof. unfold climate_anomaly_ord. destruct (time_info x td); [|discriminate]. cbn [bind]. destruct (negb _); [discriminate|]. destruct (if String.eqb freq "year" then _ else _); [|discriminate]. auto. Qed.
  Lemma anom_same (x : input fl) freq td : increasing c (map fst (samples (inp x))) -> AO x freq td = climate_anomaly c infer_freq empty_exc x freq td.
  Proof.
    intros H. unfold climate_anomaly_ord. unfold climate_anomaly. destruct (time_info x td); [|reflexivity]. cbn [bind]. destruct (negb _); [reflexivity|]. rewrite (cal_same x freq (Some a) H), (clim_same x freq [] (Some a) H).
    cbv zeta. destruct (String.eqb freq "year"); [destruct (calendar_average _ _ _ _ _)|destruct (climatology_average _ _ _ _ _ _ _)]; reflexivity.
  Qed.
  Lemma m2s_ok x season td out : MO x season td = Ok out -> month_to_season c empty_exc x season td = Ok out.
  Proof.
    unfold month_to_season_ord. destruct (time_info x td); [|discriminate]. cbn [bind]. destruct (negb _); [discriminate|]. destruct (oget _ _); [|discriminate]. cbn [bind]. cbv zeta. destruct (Nat.eqb _ 0); [discriminate|]. destruct (negb _); [discriminate|]. auto.
  Qed.
  Lemma m2s_same (x : input fl) season td : increasing c (map fst (samples (inp x))) -> MO x season td = month_to_season c empty_exc x season td.
  Proof.
    intros H. unfold month_to_season_ord, month_to_season. destruct (time_info x td); [|reflexivity]. cbn [bind]. cbv zeta. destruct (negb _); [reflexivity|]. destruct (oget _ _) as [ms|]; [|reflexivity]. cbn [bind]. destruct (Nat.eqb _ 0); [reflexivity|].
    pose proof (increasing_filter c (fun s => in_months ms (fst s)) _ H) as HF.
    assert (HS : in_order c (map fst (if String.eqb season "DJF" then removelast (filter (fun s => in_months ms (fst s)) (samples (inp x))) else if String.eqb season "NDJ" then tl (filter (fun s => in_months ms (fst s)) (samples (inp x))) else filter (fun s => in_months ms (fst s)) (samples (inp x)))) = true).
    { apply in_order_iff. destruct (String.eqb season "DJF"); [apply increasing_removelast, HF|]. destruct (String.eqb season "NDJ"); [apply increasing_tl, HF|exact HF]. }
    unfold frame in *. rewrite HS. reflexivity.
  Qed.

  (** ** dates out of order *)
  Lemma cal_refused (x : input fl) freq f td n : cal_freq freq = Some f -> time_info x td = Ok n -> ~ increasing c (map fst (samples (inp x))) -> CO x freq td = Err ValueError.
  Proof.
    intros Ef Et H. unfold calendar_average_ord. rewrite Ef, Et. cbn [oget bind]. destruct (check_uniform_ord _ _ _) as [u|e] eqn:Eu; [|apply check_value in Eu; subst; reflexivity]. cbn [bind]. rewrite (out_of_order c _ H). reflexivity.
  Qed.
  Lemma year_refused (x : input fl) td n : n <> EmptyString -> time_info x td = Ok n -> ~ increasing c (map fst (samples (inp x))) -> AO x "year" td = Err ValueError.
  Proof.
    intros Nn Et H. unfold climate_anomaly_ord. rewrite Et. cbn [bind]. change (negb _) with false. cbv iota. change (String.eqb "year" "year") with true. cbv iota.
    assert (Et' : time_info x (Some n) = Ok n).
    { revert Et. unfold time_info. destruct (String.eqb_spec n "") as [->|_]; [contradiction|]. destruct (match td with Some m => _ | None => _ end) as [m|]; [|discriminate]. cbn [bind]. intros E.
      destruct (lookup x m) as [b|] eqn:Eb; [|discriminate]. cbn [oget bind] in E. destruct b; [|discriminate]. cbn in E. injection E as ->. rewrite Eb. reflexivity. }
    rewrite (cal_refused x "year" Year (Some n) n eq_refl Et' H). reflexivity.
  Qed.
  Lemma season_months m (xs : smp) : 1 <= m <= 12 -> all_valid c xs -> filter (fun e => in_months (m, m mod 12 + 1, (m + 1) mod 12 + 1) (fst e)) xs = filter (fun e => in_season m (fst e)) xs.
  Proof. intros Hm V. apply filter_ext_in. intros e He. apply (months_in m); auto. unfold all_valid in V. rewrite Forall_forall in V. apply (V e He). Qed.
  Lemma m2s_refused (x : input fl) s m td n : time_info x td = Ok n -> all_valid c (samples (inp x)) -> spells s m -> (List.length (samples (inp x)) mod 12 = 0)%nat ->
    ~ increasing c (map fst (kept s m (samples (inp x)))) -> MO x s td = Err ValueError.
  Proof.
    intros Et V S L H. unfold month_to_season_ord. rewrite Et. cbn [bind]. unfold frame in *. rewrite L. cbn [Nat.eqb negb].
    assert (Q : find_season s = Some (m, m mod 12 + 1, (m + 1) mod 12 + 1)) by (apply find_season_iff; auto). rewrite Q. cbn [oget bind]. cbv zeta.
    rewrite (season_months m _ (proj1 S) V). unfold kept in H. cbv zeta in H.
    match goal with |- context [List.length ?l] => change (~ increasing c (map fst l)) in H; revert H; generalize l end. intros [|e r] H; [destruct H; constructor|].
    cbn [List.length Nat.eqb]. rewrite (out_of_order c _ H). reflexivity.
  Qed.
  Lemma season_refused f w q (xs : smp) : 1 <= q <= 12 -> all_valid c xs -> ~ increasing c (map fst (filter (fun e => in_season q (fst e)) xs)) -> season_mean_ord c empty_exc f w (q, q mod 12 + 1, (q + 1) mod 12 + 1) xs = Err ValueError.
  Proof.
    intros Hq V H. unfold season_mean_ord. cbv zeta. pose proof (season_months q xs Hq V) as SM. unfold frame in *. rewrite SM, (out_of_order c _ H). destruct (filter _ xs); [destruct H; constructor|reflexivity].
  Qed.
  Lemma season_some f w q (xs : smp) : 1 <= q <= 12 -> all_valid c xs -> filter (fun e => in_season q (fst e)) xs <> [] -> exists fr, season_mean c empty_exc f w (q, q mod 12 + 1, (q + 1) mod 12 + 1) xs = Ok fr.
  Proof.
    intros Hq V H. unfold season_mean. cbv zeta. pose proof (season_months q xs Hq V) as SM. unfold frame in *. rewrite SM. destruct (filter _ xs); [destruct (H eq_refl)|]. eexists. reflexivity.
  Qed.
  (** a season whose dates are out of order *)
  Lemma clim_refused (x : input fl) custom td n s m : time_info x td = Ok n -> all_valid c (samples (inp x)) ->
    (forall r, In r (requested custom) -> exists m, spells r m /\ exists e, In e (samples (inp x)) /\ in_season m (fst e) = true) ->
    In s (requested custom) -> spells s m -> ~ increasing c (map fst (filter (fun e => in_season m (fst e)) (samples (inp x)))) ->
    KO x "season" custom td = Err ValueError.
  Proof.
    intros Et V A Hs Sp H. unfold climatology_average_ord. change (clim_freq "season") with (Some Month). cbn [oget bind]. rewrite Et. cbn [bind].
    destruct (check_uniform_ord _ _ _) as [u|e] eqn:Eu; [|apply check_value in Eu; subst; reflexivity]. cbn [bind]. change (String.eqb "season" "season") with true. cbv iota zeta. change (match custom with [] => ["DJF"; "JJA"; "MAM"; "SON"]%string | _ => custom end) with (requested custom).
    rewrite (proj2 (requested_default custom)) by (intros r Hr; destruct (A r Hr) as (q & Q & _); exists q; exact Q). cbn [negb].
    assert (K : forall l, (forall r, In r l -> exists m, spells r m /\ exists e, In e (samples (inp x)) /\ in_season m (fst e) = true) -> In s l ->
      mapM (fun s => do ms <- oget KeyError (find_season s) ;; do fr <- season_mean_ord c empty_exc Month (width (inp x)) ms (samples (inp x)) ;; Ok (s, fr)) l = Err ValueError).
    { induction l as [|r l IH]; intros Al Hl; [destruct Hl|]. cbn [mapM]. destruct (Al r (or_introl eq_refl)) as (q & Q & e & He & Ie).
      assert (F : find_season r = Some (q, q mod 12 + 1, (q + 1) mod 12 + 1)) by (apply find_season_iff; auto). rewrite F. cbn [oget bind].
      assert (NE : filter (fun e => in_season q (fst e)) (samples (inp x)) <> []) by (intros Z0; assert (I : In e (filter (fun e => in_season q (fst e)) (samples (inp x)))) by (apply filter_In; auto); rewrite Z0 in I; destruct I).
      destruct (order_dec c (map fst (filter (fun e => in_season q (fst e)) (samples (inp x))))) as [EO|EO]; [|rewrite (season_refused Month (width (inp x)) q _ (proj1 Q) V EO); reflexivity].
      assert (Hl' : In s l). { destruct Hl as [->|Hl]; [|exact Hl]. exfalso. rewrite (spells_unique s q m Q Sp) in EO. exact (H EO). }
      rewrite (season_same Month (width (inp x)) _ (samples (inp x))) by (rewrite (season_months q _ (proj1 Q) V); exact EO). rewrite (IH (fun r' Hr' => Al r' (or_intror Hr')) Hl').
      destruct (season_some Month (width (inp x)) q _ (proj1 Q) V NE) as (fr & ->). reflexivity. }
    rewrite (K (requested custom) A Hs). reflexivity.
  Qed.

  (** ** climatologies of hours, days and months do not depend on the order *)
  Lemma perm_mean l l' : Permutation l l' -> mean_present l = mean_present l'.
  Proof.
    intros P. unfold mean_present. assert (Q : Permutation (vals l) (vals l')) by (unfold vals; apply Permutation_flat_map, P).
    destruct (vals l) as [|a r]; [apply Permutation_nil in Q; rewrite Q; reflexivity|]. destruct (vals l') as [|a' r']; [apply Permutation_sym, Permutation_nil in Q; discriminate|].
    f_equal. unfold avg. rewrite (rsum_perm _ _ Q), (Permutation_length Q). reflexivity.
  Qed.
  Lemma perm_filter {A} (p : A -> bool) l l' : Permutation l l' -> Permutation (filter p l) (filter p l').
  Proof. induction 1 as [|a l l' _ IH|a b l|l l' l'' _ IH1 _ IH2]; cbn; [constructor|destruct (p a); [constructor|]; exact IH|destruct (p a), (p b); try apply perm_swap; apply Permutation_refl|exact (Permutation_trans IH1 IH2)]. Qed.
  Lemma perm_keys f ts ts' : Permutation ts ts' -> keys (key f) ts = keys (key f) ts'.
  Proof.
    intros P. apply sorted_unique; try apply zsort_sorted. unfold keys, zuniq. apply (Permutation_trans (Permutation_sym (zsort_perm _))). apply (Permutation_trans (l' := nodup Z.eq_dec (map (key f) ts'))); [|apply zsort_perm].
    apply NoDup_Permutation; try apply NoDup_nodup. intros z. rewrite !nodup_In. split; apply Permutation_in; apply Permutation_map; [exact P|exact (Permutation_sym P)].
  Qed.
  Lemma perm_median l l' : Permutation l l' -> median2 l = median2 l'.
  Proof. intros P. unfold median2. replace (zsort l') with (zsort l); [reflexivity|]. apply sorted_unique; try apply zsort_sorted. exact (Permutation_trans (Permutation_sym (zsort_perm l)) (Permutation_trans P (zsort_perm l'))). Qed.
  Lemma perm_tidy w (xs : smp) p k : all_tidy w xs -> (k < w)%nat -> Forall tidy (map (fun s => snd s k) (filter p xs)).
  Proof. intros Ti Hk. unfold all_tidy in Ti. rewrite Forall_forall in *. intros v Hv. apply in_map_iff in Hv. destruct Hv as (s & <- & Hs). apply filter_In in Hs. apply Ti; tauto. Qed.
  Lemma info_reordered x y td : reordered x y -> time_info y td = time_info x td.
  Proof. intros (_ & E1 & E2 & _). unfold time_info. rewrite E1, E2. reflexivity. Qed.
  Lemma clim_perm (x y : input fl) freq custom td : freq <> "season"%string -> reordered x y -> all_tidy (width (inp x)) (samples (inp x)) ->
    check_uniform c infer_freq (map fst (samples (inp x))) = Ok tt -> check_uniform c infer_freq (map fst (samples (inp y))) = Ok tt ->
    outcomes (crows (width (inp x)) eq) (climatology_average c infer_freq empty_exc x freq custom td) (climatology_average c infer_freq empty_exc y freq custom td).
  Proof.
    intros N R Ti Ux Uy. unfold climatology_average. rewrite (info_reordered x y td R). destruct R as (Ew & _ & _ & P). rewrite Ux, Uy. set (w := width (inp x)) in *. destruct (oget ValueError (clim_freq freq)) as [f|e]; [|reflexivity]. cbn [bind]. cbv zeta. destruct (time_info x td); [|reflexivity]. cbn [bind].
    destruct (String.eqb_spec freq "season"); [contradiction|]. rewrite <- (perm_median _ _ (Permutation_map (fun s : time * frame fl => yr (fst s)) P)), <- (perm_keys f _ _ (Permutation_map (@fst time (frame fl)) P)).
    destruct (keys (key f) (map fst (samples (inp x)))) as [|k0 ks]; [reflexivity|].
    destruct (parse c f _ k0) as [p1|]; [|reflexivity]. cbn [bind]. destruct (parse c f _ _) as [p2|]; [|reflexivity]. cbn [bind].
    match goal with |- outcomes _ (bind (center _ _ _ _ ?fa) _) (bind (center _ _ _ _ ?fb) _) => assert (C : outcomes (rows w eq) (center c f p1 p2 fa) (center c f p1 p2 fb)) end.
    { apply center_rows. generalize (k0 :: ks). intros l. induction l as [|z l IH]; constructor; auto. intros k Hk. unfold mean_of, having.
      rewrite (nanmean_present _ (perm_tidy w _ _ k Ti Hk)). rewrite nanmean_present.
      - apply perm_mean, Permutation_map, perm_filter, P.
      - apply (perm_tidy w); auto. unfold all_tidy in *. rewrite Forall_forall in *. intros s Hs. apply Ti. apply (Permutation_in _ (Permutation_sym P) Hs). }
    destruct (center c f p1 p2 _) as [o|e], (center c f p1 p2 _) as [o'|e']; cbn [bind outcomes] in *; auto.
  Qed.
  Lemma clim_reordered (x y : input fl) freq custom td : freq <> "season"%string -> reordered x y -> all_tidy (width (inp x)) (samples (inp x)) ->
    check_uniform_ord c infer_freq (map fst (samples (inp x))) = Ok tt -> check_uniform_ord c infer_freq (map fst (samples (inp y))) = Ok tt ->
    outcomes (crows (width (inp x)) eq) (KO x freq custom td) (KO y freq custom td).
  Proof.
    intros N R Ti Ux Uy. pose proof (clim_perm x y freq custom td N R Ti (check_ok _ Ux) (check_ok _ Uy)) as O. unfold climatology_average_ord. rewrite Ux, Uy, (info_reordered x y td R). destruct (oget ValueError (clim_freq freq)); [|reflexivity]. cbn [bind]. destruct (time_info x td); [|reflexivity]. cbn [bind].
    destruct (String.eqb_spec freq "season"); [contradiction|exact O].
  Qed.
  Lemma clim_checked (x : input fl) freq custom td r : KO x freq custom td = Ok r -> check_uniform_ord c infer_freq (map fst (samples (inp x))) = Ok tt.
  Proof. unfold climatology_average_ord. destruct (oget _ _); [|discriminate]. cbn [bind]. destruct (time_info _ _); [|discriminate]. cbn [bind]. destruct (check_uniform_ord _ _ _) as [[]|] eqn:Q; [intros _; reflexivity|discriminate]. Qed.
  (** the anomalies follow the dates *)
  Lemma mapM_perm {A B} (F : A -> res B) l l' r : Permutation l l' -> mapM F l = Ok r -> exists r', mapM F l' = Ok r' /\ Permutation r r'.
  Proof.
    intros P. revert r. induction P as [|a l l' P IH|a b l|l l' l'' P1 IH1 P2 IH2]; intros r E.
    - exists r. split; [exact E|apply Permutation_refl].
    - cbn [mapM] in *. destruct (F a) as [y|]; [|discriminate]. cbn [bind] in *. destruct (mapM F l) as [t|]; [|discriminate]. cbn [bind] in E. injection E as <-. destruct (IH t eq_refl) as (t' & -> & Q). cbn [bind]. eexists. split; [reflexivity|constructor; exact Q].
    - cbn [mapM] in *. destruct (F b) as [y|]; [|discriminate]. cbn [bind] in *. destruct (F a) as [z|]; [|discriminate]. cbn [bind] in *. destruct (mapM F l) as [t|]; [|discriminate]. cbn [bind] in *. injection E as <-. eexists. split; [reflexivity|apply perm_swap].
    - destruct (IH1 r E) as (r1 & E1 & Q1). destruct (IH2 r1 E1) as (r2 & E2 & Q2). exists r2. split; [exact E2|exact (Permutation_trans Q1 Q2)].
  Qed.
  Definition one_anomaly (freq : string) (l : list (time * frame fl)) (s : time * frame fl) : res (time * frame fl) :=
    match having (anom_key freq) (anom_key freq (fst s)) l with
    | [] => Err KeyError
    | g => Ok (fst s, subtract (snd s) (fun k => nansum (map (fun r => snd r k) g)))
    end.
  Lemma one_rows w freq (l l' : smp) s : rows w eq l l' -> outcomes (fun e e' => fst e' = fst e /\ forall k, (k < w)%nat -> snd e k = snd e' k) (one_anomaly freq l s) (one_anomaly freq l' s).
  Proof.
    intros H. unfold one_anomaly. pose proof (rows_filter w eq (fun t => anom_key freq t =? anom_key freq (fst s)) l l' H) as HF. unfold having, frame in *. destruct HF as [|e e' r r' K HF]; [reflexivity|]. cbn [outcomes fst snd]. split; [reflexivity|]. intros k Hk. unfold subtract. f_equal. f_equal.
    assert (RR : rows w eq (e :: r) (e' :: r')) by (constructor; auto). pose proof (rows_col w eq (e :: r) (e' :: r') k RR Hk) as C. clear -C. induction C as [|a b u v -> _ IH]; [reflexivity|]. f_equal. exact IH.
  Qed.
  Lemma anomalies_rows w freq (l l' : smp) (ys : smp) : rows w eq l l' -> outcomes (rows w eq) (mapM (one_anomaly freq l) ys) (mapM (one_anomaly freq l') ys).
  Proof.
    intros H. induction ys as [|s ys IH]; [constructor|]. cbn [mapM]. pose proof (one_rows w freq l l' s H) as O. destruct (one_anomaly freq l s) as [e|], (one_anomaly freq l' s) as [e'|]; cbn [outcomes bind] in *; try contradiction; auto.
    destruct (mapM (one_anomaly freq l) ys) as [r|], (mapM (one_anomaly freq l') ys) as [r'|]; cbn [outcomes bind] in *; try contradiction; auto. constructor; auto.
  Qed.
  Lemma anom_reordered (x y : input fl) freq td out : freq = "day"%string \/ freq = "month"%string -> reordered x y -> all_tidy (width (inp x)) (samples (inp x)) ->
    check_uniform_ord c infer_freq (map fst (samples (inp y))) = Ok tt -> AO x freq td = Ok out ->
    exists out', AO y freq td = Ok out' /\ same_rows (width (inp x)) out out'.
  Proof.
    intros Fr R Ti Uy E. pose proof (anom_ok x freq td out E) as E0. revert E. unfold climate_anomaly_ord. rewrite (info_reordered x y td R). destruct (time_info x td) as [n|] eqn:Et; [|discriminate]. cbn [bind].
    assert (G : String.eqb freq "day" || String.eqb freq "month" || String.eqb freq "season" || String.eqb freq "year" = true) by (destruct Fr as [-> | ->]; reflexivity). rewrite G. cbn [negb].
    assert (Y : String.eqb freq "year" = false) by (destruct Fr as [-> | ->]; reflexivity). rewrite Y. assert (N : freq <> "season"%string) by (destruct Fr as [-> | ->]; discriminate).
    destruct (KO x freq [] (Some n)) as [cl|] eqn:EK; [|discriminate]. cbn [bind]. intros _.
    assert (Ux : check_uniform_ord c infer_freq (map fst (samples (inp x))) = Ok tt).
    { exact (clim_checked x freq [] (Some n) cl EK). }
    pose proof (clim_reordered x y freq [] (Some n) N R Ti Ux Uy) as O. rewrite EK in O. destruct (KO y freq [] (Some n)) as [cl'|] eqn:EK'; [|destruct O]. cbn [bind outcomes] in *.
    apply clim_ok in EK, EK'. revert E0. unfold climate_anomaly. rewrite (info_reordered x y td R), Et. cbn [bind]. rewrite G, Y. cbn [negb]. cbv zeta. rewrite EK, EK'. cbn [bind].
    destruct cl as [l|l], cl' as [l'|l']; cbn [crows] in O; try contradiction.
    2:{ exfalso. clear -EK N. revert EK. unfold climatology_average. destruct (oget _ _); [|discriminate]. cbn [bind]. destruct (time_info _ _); [|discriminate]. cbn [bind]. cbv zeta. destruct (check_uniform _ _ _); [|discriminate]. cbn [bind]. destruct (String.eqb_spec freq "season"); [contradiction|].
        destruct (keys _ _); [discriminate|]. destruct (parse _ _ _ _); [|discriminate]. cbn [bind]. destruct (parse _ _ _ _); [|discriminate]. cbn [bind]. destruct (center _ _ _ _ _); discriminate. }
    intros E. change (mapM (one_anomaly freq l) (samples (inp x)) = Ok out) in E. change (exists out', mapM (one_anomaly freq l') (samples (inp y)) = Ok out' /\ same_rows (width (inp x)) out out').
    destruct R as (_ & _ & _ & P). destruct (mapM_perm _ _ _ _ P E) as (m & Em & Pm). pose proof (anomalies_rows (width (inp x)) freq l l' (samples (inp y)) O) as Q. rewrite Em in Q.
    destruct (mapM (one_anomaly freq l') (samples (inp y))) as [out'|]; [|destruct Q]. exists out'. split; [reflexivity|]. exists m. split; [exact Pm|exact Q].
  Qed.
  Lemma calendar_refused (x : input fl) td n : time_info x td = Ok n -> ~ increasing c (map fst (samples (inp x))) ->
    (forall freq, any_freq freq -> CO x freq td = Err ValueError) /\ (n <> EmptyString -> AO x "year" td = Err ValueError).
  Proof.
    intros Et H. split; [|intros Nn; exact (year_refused x td n Nn Et H)]. intros freq Fr.
    assert (F : exists f, cal_freq freq = Some f) by (unfold any_freq in Fr; repeat destruct Fr as [->|Fr]; try subst; eexists; reflexivity). destruct F as (f & F). exact (cal_refused x freq f td n F Et H).
  Qed.
  Lemma m2s_order (x : input fl) s m td n : time_info x td = Ok n -> all_valid c (samples (inp x)) -> spells s m -> (List.length (samples (inp x)) mod 12 = 0)%nat ->
    (increasing c (map fst (kept s m (samples (inp x)))) -> MO x s td = month_to_season c empty_exc x s td) /\
    (~ increasing c (map fst (kept s m (samples (inp x)))) -> MO x s td = Err ValueError).
  Proof.
    intros Et V S L. split; [|exact (m2s_refused x s m td n Et V S L)]. intros H. apply in_order_iff in H.
    unfold month_to_season_ord. rewrite Et. cbn [bind]. unfold frame in *. rewrite L. cbn [Nat.eqb negb].
    assert (Q : find_season s = Some (m, m mod 12 + 1, (m + 1) mod 12 + 1)) by (apply find_season_iff; auto). rewrite Q. cbn [oget bind]. cbv zeta.
    rewrite (season_months m _ (proj1 S) V). unfold kept in H. cbv zeta in H. rewrite H. cbn [negb].
    match goal with |- (if Nat.eqb (List.length ?l) 0 then _ else _) = _ => destruct (Nat.eqb (List.length l) 0) eqn:E0; [|reflexivity]; apply Nat.eqb_eq, length_zero_iff_nil in E0 end.
    symmetry. apply (proj1 (m2s_eq c empty_exc x s m td n Et V S L)). exact E0.
  Qed.
  Lemma check_ord_iff ts : Forall (valid c) ts -> check_uniform_ord c infer_freq ts = Ok tt <->
    (3 <= List.length ts)%nat /\ (infer_freq ts = true \/ increasing c ts /\ forall t u v, In t ts -> In u ts -> valid c v -> instant c t <= instant c v <= instant c u -> List.length (filter (same_period Month v) ts) = 1%nat).
  Proof.
    intros V. pose proof (check_uniform_iff c infer_freq ts V) as I. unfold check_uniform_ord. destruct (Nat.ltb_spec (List.length ts) 3) as [L|L]; [split; [discriminate|lia]|].
    destruct (infer_freq ts) eqn:F; [split; [intros _; split; [exact L|left; reflexivity]|reflexivity]|].
    destruct (order_dec c ts) as [O|O].
    - rewrite (proj2 (in_order_iff c ts) O). cbn [negb]. rewrite I. split; intros (A & [B|B]); try discriminate; (split; [exact A|right]); [split; [exact O|exact B]|exact (proj2 B)].
    - rewrite (out_of_order c ts O). cbn [negb]. split; [discriminate|]. intros (_ & [B|B]); [discriminate|destruct (O (proj1 B))].
  Qed.
End Ord.
