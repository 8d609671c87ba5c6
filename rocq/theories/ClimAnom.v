(** climate_anomaly. *)
From Coq Require Import Reals List Bool Arith ZArith Lra Lia String Ascii.
From Verif Require Import PyBase Num NumFacts SumFacts ArrFacts Calendar CalendarFacts SpecClim Climat ClimFacts ClimApi ClimLong ClimKeys ClimKeysApi ClimSeason.
Import ListNotations.
Local Open Scope Z_scope.

Lemma vals_app a b : vals (a ++ b) = vals a ++ vals b.
Proof. unfold vals. rewrite flat_map_app. reflexivity. Qed.
(** removing the mean of the values present leaves values with mean zero *)
Lemma avg_minus (l : list R) (m : R) : l <> [] -> avg (map (fun v => v - m)%R l) = (avg l - m)%R.
Proof.
  intros H. unfold avg. rewrite map_length. assert (E : rsum (map (fun v => v - m)%R l) = (rsum l - INR (List.length l) * m)%R).
  { clear H. induction l as [|v l IH]; [cbn; ring|]. cbn [map List.length]. change (rsum (v - m :: map (fun v => v - m) l))%R with ((v - m) + rsum (map (fun v => v - m)%R l))%R. change (rsum (v :: l)) with (v + rsum l)%R. rewrite IH, S_INR. ring. }
  rewrite E. field. apply not_0_INR. destruct l; [contradiction|discriminate].
Qed.
Lemma vals_minus l m : vals (map (fun v => minus v (Fin m)) l) = map (fun v => v - m)%R (vals l).
Proof. induction l as [|v l IH]; [reflexivity|]. unfold vals in *. cbn [map flat_map]. rewrite IH, map_app. destruct v; reflexivity. Qed.
Lemma mean_minus l m r : mean_present l = Fin r -> mean_present (map (fun v => minus v (Fin m)) l) = Fin (r - m).
Proof.
  unfold mean_present. rewrite vals_minus. destruct (vals l) as [|v vs] eqn:E; [discriminate|]. intros H. injection H as <-. rewrite <- avg_minus by discriminate. reflexivity.
Qed.
Lemma nansum_one v : tidy v -> nansum [v] = Fin (value v).
Proof. intros [->|[r ->]]; unfold nansum; cbn; f_equal; ring. Qed.
Lemma nansum_tidy l : Forall tidy l -> nansum l = Fin (rsum (map value l)).
Proof.
  intros H. unfold nansum. rewrite (map_ext_in _ (fun v => Fin (value v))).
  - rewrite <- (map_map value Fin), nsum_fin. reflexivity.
  - intros v Hv. rewrite Forall_forall in H. destruct (H v Hv) as [->|[r ->]]; reflexivity.
Qed.
Lemma sub_value v r : tidy v -> (v - Fin r)%num = minus v (Fin r).
Proof. intros [->|[x ->]]; reflexivity. Qed.
Lemma filter_one (l : list Z) z : NoDup l -> In z l -> filter (fun k => k =? z) l = [z].
Proof.
  induction l as [|a l IH]; intros ND H; [destruct H|]. inversion ND as [|? ? Na ND']; subst. cbn. destruct (Z.eqb_spec a z) as [->|N].
  - f_equal. apply filter_none. intros x Hx. apply Z.eqb_neq. intros ->. auto.
  - apply IH; auto. destruct H; [contradiction|auto].
Qed.
Lemma Forall2_nth {A B} (P : A -> B -> Prop) l l' : Forall2 P l l' -> forall j a b, (j < List.length l)%nat -> P (nth j l a) (nth j l' b).
Proof. induction 1; intros j a b Hj; cbn in *; [lia|]. destruct j; auto. apply IHForall2. lia. Qed.
Lemma Forall2_map_l {A B C} (f : A -> C) (g : B -> C) l l' : Forall2 (fun a b => f a = g b) l l' -> map f l = map g l'.
Proof. induction 1; cbn; f_equal; auto. Qed.
Lemma Forall2_weaken {A B} (P Q : A -> B -> Prop) l l' : (forall a b, In a l -> P a b -> Q a b) -> Forall2 P l l' -> Forall2 Q l l'.
Proof. intros H F. induction F; constructor; auto. - apply H; [left; auto|auto]. - apply IHF. intros; apply H; [right; auto|auto]. Qed.

Section Anom.
  Variables (c : cal) (infer_freq : list time -> bool) (empty_exc : exc).
  Local Notation CN := (climate_anomaly c infer_freq empty_exc).
  Local Notation CL := (climatology_average c infer_freq empty_exc).
  Local Notation CA := (calendar_average c infer_freq).
  Local Notation smp := (list (time * frame fl)).
  Local Notation D q := (date_of c (pstart c Month q)).

  (** a time axis given by name or found is the same axis *)
  Lemma time_info_again (x : input fl) td n : time_info x td = Ok n -> n <> EmptyString -> time_info x (Some n) = Ok n.
  Proof.
    unfold time_info. intros H N. destruct (String.eqb_spec n "") as [->|]; [contradiction|]. cbn [bind].
    match type of H with (do x <- ?e ;; _) = _ => destruct e as [m|] eqn:E; [|discriminate] end. cbn [bind] in H.
    destruct (lookup x m) as [b|] eqn:L; [|discriminate]. cbn [oget bind] in H. destruct b; [|discriminate]. cbn in H. injection H as <-. rewrite L. reflexivity.
  Qed.
  Definition anom_short (freq : string) (f : per) : Prop := (freq = "day" /\ f = Day \/ freq = "month" /\ f = Month)%string.
  Lemma anom_key_eq freq f t : anom_short freq f -> anom_key freq t = key f t.
  Proof. intros [[-> ->]|[-> ->]]; reflexivity. Qed.

  Lemma anom_out x freq f td y out : anom_short freq f -> all_valid c (samples (inp x)) -> all_tidy (width (inp x)) (samples (inp x)) ->
    label_year (map fst (samples (inp x))) y -> all_exist c f y (map fst (samples (inp x))) -> CN x freq td = Ok out ->
    let xs := samples (inp x) in let w := width (inp x) in
    Forall2 (fun s e => fst e = fst s /\ forall k, (k < w)%nat -> snd e k = minus (snd s k) (mean_present (in_key f (fst s) k xs))) xs out.
  Proof.
    intros Sh V Ti LY A E xs w. unfold climate_anomaly in E. destruct (time_info x td) as [n|] eqn:Et; [|discriminate]. cbn [bind] in E.
    assert (EF : String.eqb freq "year" = false /\ negb (String.eqb freq "day" || String.eqb freq "month" || String.eqb freq "season" || String.eqb freq "year") = false) by (destruct Sh as [[-> _]|[-> _]]; split; reflexivity).
    destruct EF as [EF1 EF2]. rewrite EF2, EF1 in E. cbv zeta in E. fold xs in E.
    destruct (CL x freq [] (Some n)) as [cl|] eqn:EC; [|discriminate]. cbn [bind] in E.
    assert (Sh' : clim_short freq f) by (destruct Sh as [[-> ->]|[-> ->]]; unfold clim_short; tauto).
    assert (Hf : cyclic f) by (destruct Sh as [[_ ->]|[_ ->]]; unfold cyclic; auto).
    destruct (accepted_of_ok _ _ _ _ _ _ _ _ EC) as ((n' & Et') & Eu). pose proof (uniform_nonempty _ _ _ Eu) as NE.
    destruct (clim_eq c infer_freq empty_exc x freq f (Some n) n' y Sh' Et' Eu [] V NE LY) as [C1 C2]. fold xs w in V, Ti, NE, C2, A.
    destruct (Z_lt_ge_dec y 1000) as [Hy|Hy]; [rewrite C1 in EC by auto; discriminate|].
    destruct (ks_nonempty f xs NE) as (k0 & r & K). set (ks := keys (key f) (map fst xs)) in *. destruct (C2 ltac:(lia) A k0 r K) as [C3 C4].
    destruct (list_eq_dec Z.eq_dec (map (pv c f y) ks) (between (pv c f y k0) (pv c f y (last ks k0)))) as [Q|Q]; [|rewrite C4 in EC by auto; discriminate].
    rewrite C3 in EC by auto. injection EC as <-. apply mapM_Ok_iff in E. revert E. apply Forall2_weaken. intros s e Hs Es.
    assert (Vs : forall s, In s xs -> valid c (fst s)) by (unfold all_valid in V; rewrite Forall_forall in V; auto).
    assert (As : forall s, In s xs -> valid c (in_year f y (fst s))) by (intros z Hz; apply A; apply in_map; auto).
    assert (H1 : having (anom_key freq) (anom_key freq (fst s)) (map (fun k => (midpoint c f (pv c f y k), mean_of (having (key f) k xs))) ks) = [(midpoint c f (pv c f y (key f (fst s))), mean_of (having (key f) (key f (fst s)) xs))]).
    { unfold having at 1. rewrite filter_map_swap. cbn [fst]. rewrite (filter_ext_in _ (fun k => k =? key f (fst s))).
      - rewrite filter_one; [reflexivity| |].
        + assert (ST : Sorted.StronglySorted Z.lt ks) by apply keys_strict. clear -ST. induction ST as [|a l S IH H]; constructor; auto. intros Hi. rewrite Forall_forall in H. specialize (H a Hi). lia.
        + apply keys_In. exists (fst s). split; auto. apply in_map. auto.
      - intros k Hk. apply keys_In in Hk. destruct Hk as (t & Ht & <-). apply in_map_iff in Ht. destruct Ht as (s' & <- & Hs'). destruct (label_of c f y (fst s') Hf (Vs s' Hs') (As s' Hs') ltac:(lia)) as (L1 & L2 & L3 & L4).
        rewrite !(anom_key_eq freq f) by auto. apply (key_same c) in L3; auto. rewrite <- L3. reflexivity. }
    rewrite H1 in Es. injection Es as <-. cbn [fst snd]. split; auto. intros k Hk. unfold subtract. cbn [map snd].
    assert (Tm : forall l, tidy (mean_present l)) by (intros l; unfold mean_present; destruct (vals l); [left; auto|right; eauto]).
    rewrite (having_mean c f w xs (fst s)) by auto. rewrite nansum_one by auto. unfold all_tidy in Ti. rewrite Forall_forall in Ti. rewrite sub_value by (apply (Ti s); auto).
    unfold frame in *. destruct (mean_present (in_key f (fst s) k xs)) eqn:M; try reflexivity; unfold mean_present in M; destruct (vals (in_key f (fst s) k xs)) as [|v0 vs] eqn:EV; try discriminate.
    (* the whole group is missing, so this value is missing *)
    destruct (Ti s Hs k Hk) as [->|[v Ev]]; [reflexivity|]. exfalso. assert (Q0 : In v (vals (in_key f (fst s) k xs))). { unfold vals. apply in_flat_map. exists (snd s k). split; [|rewrite Ev; left; auto]. unfold in_key. apply in_map_iff. exists s. split; auto. apply filter_In. split; auto. apply same_key_refl. }
    rewrite EV in Q0. destruct Q0.
  Qed.
  (** the anomalies of a group with any value average to zero *)
  Lemma anom_zero f w xs (out : smp) k t : (k < w)%nat -> Forall2 (fun s e => fst e = fst s /\ forall k, (k < w)%nat -> snd e k = minus (snd s k) (mean_present (in_key f (fst s) k xs))) xs out ->
    (exists r, mean_present (in_key f t k xs) = Fin r) -> mean_present (in_key f t k out) = Fin 0.
  Proof.
    intros Hk F (r & E).
    assert (Q : forall l o : smp, Forall2 (fun s e => fst e = fst s /\ forall k, (k < w)%nat -> snd e k = minus (snd s k) (mean_present (in_key f (fst s) k xs))) l o -> in_key f t k o = map (fun v => minus v (Fin r)) (in_key f t k l)).
    { intros l o Fl. unfold in_key. induction Fl as [|s e l o [H1 H2] Fl IH]; [reflexivity|]. cbn [filter]. rewrite H1. destruct (same_key f t (fst s)) eqn:S; cbn [map]; [|apply IH].
      f_equal; [|apply IH]. rewrite H2 by auto. f_equal. rewrite <- E. f_equal. symmetry. apply in_key_same. auto. }
    rewrite (Q xs out F), (mean_minus _ r r E). f_equal. ring.
  Qed.
  (** *** seasons *)
  Lemma season_name_spells c' t : valid c' t -> In (season_name t) ["DJF"; "JJA"; "MAM"; "SON"]%string /\ exists m, spells (season_name t) m /\ in_season m t = true.
  Proof.
    intros (B & _). unfold season_name, in_season. destruct (Z.eqb_spec (mo t) 12) as [E|N]; cbn [orb].
    - split; [cbn; auto|]. exists 12. split; [split; [lia|reflexivity]|]. apply Z.ltb_lt. lia.
    - destruct (Z.leb_spec (mo t) 2); [|destruct (Z.leb_spec (mo t) 5); [|destruct (Z.leb_spec (mo t) 8)]]; (split; [cbn; auto|]).
      + exists 12. split; [split; [lia|reflexivity]|]. apply Z.ltb_lt. lia.
      + exists 3. split; [split; [lia|reflexivity]|]. apply Z.ltb_lt. lia.
      + exists 6. split; [split; [lia|reflexivity]|]. apply Z.ltb_lt. lia.
      + exists 9. split; [split; [lia|reflexivity]|]. apply Z.ltb_lt. lia.
  Qed.
  Lemma find_name (l : list (string * frame fl)) nm : In nm (map fst l) -> exists e, find (fun p => String.eqb (fst p) nm) l = Some e /\ In e l /\ fst e = nm.
  Proof.
    induction l as [|a l IH]; cbn; intros H; [destruct H|]. destruct (String.eqb_spec (fst a) nm) as [E|N]; [eauto|]. destruct H as [H|H]; [contradiction|]. destruct (IH H) as (e & E1 & E2 & E3). eauto.
  Qed.
  Lemma anom_season x td : all_valid c (samples (inp x)) -> all_tidy (width (inp x)) (samples (inp x)) -> (0 < width (inp x))%nat -> (exists n, n <> EmptyString /\ time_info x td = Ok n) -> check_uniform c infer_freq (map fst (samples (inp x))) = Ok tt ->
    let xs := samples (inp x) in let w := width (inp x) in
    (forall m, m = 12 \/ m = 3 \/ m = 6 \/ m = 9 -> exists u, In u xs /\ in_season m (fst u) = true) ->
    exists out, CN x "season" td = Ok out /\
      Forall2 (fun s e => fst e = fst s /\ exists m ms, (m = 12 \/ m = 3 \/ m = 6 \/ m = 9) /\ in_season m (fst s) = true /\ complete_months c (in_season m) w xs ms /\
                 forall k, (k < w)%nat -> snd e k = minus (snd s k) (match ms with [] => Fin 0 | _ => by_days c k xs ms end)) xs out.
  Proof.
    intros V Ti Hw (n & Nn & Et) Eu xs w Four. pose proof (time_info_again _ _ _ Et Nn) as Et'.
    destruct (clim_season c infer_freq empty_exc x [] (Some n) V Ti Hw (conj (ex_intro _ n Et') Eu)) as [_ CS]. fold xs w in CS, V, Ti, Hw.
    assert (S4 : forall s m, In s ["DJF"; "JJA"; "MAM"; "SON"]%string -> spells s m -> m = 12 \/ m = 3 \/ m = 6 \/ m = 9).
    { intros s m Hs S. destruct Hs as [<-|[<-|[<-|[<-|[]]]]]; [left|right; right; left|right; left|right; right; right]; eapply spells_unique; eauto; (split; [lia|reflexivity]). }
    destruct CS as [_ CS]. { intros s Hs. destruct Hs as [<-|[<-|[<-|[<-|[]]]]]; [exists 12|exists 6|exists 3|exists 9]; (split; [lia|reflexivity]). }
    destruct CS as (l & EC & El & Fl). { intros s m Hs S. apply Four. eapply S4; eauto. }
    assert (Vs : forall s, In s xs -> valid c (fst s)) by (unfold all_valid in V; rewrite Forall_forall in V; auto).
    unfold climate_anomaly. rewrite Et. cbn [bind String.eqb Ascii.eqb Bool.eqb orb negb]. rewrite EC. cbn [bind]. cbv zeta. fold xs.
    assert (Ev : forall s, In s xs -> exists e, find (fun p => String.eqb (fst p) (season_name (fst s))) l = Some e /\ In e l /\ fst e = season_name (fst s)).
    { intros s Hs. apply find_name. rewrite El. apply (season_name_spells c). auto. }
    assert (Ok1 : exists out, mapM (fun s => do fr <- oget KeyError (option_map snd (find (fun p => String.eqb (fst p) (season_name (fst s))) l)) ;; Ok (fst s, subtract (snd s) fr)) xs = Ok out).
    { clear -Ev. induction xs as [|s xs' IH]; [cbn; eauto|]. cbn [mapM]. destruct (Ev s (or_introl eq_refl)) as (e & -> & _). cbn [option_map oget bind]. destruct IH as [out ->]; [intros; apply Ev; right; auto|]. cbn. eauto. }
    destruct Ok1 as (out & EO). exists out. split; auto. apply mapM_Ok_iff in EO. revert EO. apply Forall2_weaken. intros s o Hs Es.
    destruct (Ev s Hs) as (e & Ee & He & Ne). rewrite Ee in Es. cbn [option_map oget bind] in Es. injection Es as <-. cbn [fst snd]. split; auto.
    rewrite Forall_forall in Fl. destruct (Fl e He) as (m & ms & Sm & _ & CM & Fr). rewrite Ne in Sm. destruct (season_name_spells c (fst s) (Vs s Hs)) as (In4 & m' & Sm' & Is). rewrite (spells_unique _ _ _ Sm' Sm) in Is.
    exists m, ms. split; [eapply S4; eauto|]. split; auto. split; auto. intros k Hk. unfold subtract. rewrite Fr by auto. unfold all_tidy in Ti. rewrite Forall_forall in Ti.
    destruct ms; [apply sub_value; apply (Ti s); auto|]. unfold by_days. apply sub_value; apply (Ti s); auto.
  Qed.
  (** *** years *)
  Lemma anom_year x td : all_valid c (samples (inp x)) -> all_tidy (width (inp x)) (samples (inp x)) -> (0 < width (inp x))%nat -> (exists n, n <> EmptyString /\ time_info x td = Ok n) ->
    let xs := samples (inp x) in let w := width (inp x) in
    forall clim, CA x "year" td = Ok clim ->
    ((exists s, In s xs /\ forall e, In e clim -> yr (fst e) mod 100 <> yr (fst s) mod 100) -> CN x "year" td = Err KeyError) /\
    ((forall s, In s xs -> exists e, In e clim /\ yr (fst e) mod 100 = yr (fst s) mod 100) ->
      exists out, CN x "year" td = Ok out /\
      Forall2 (fun s o => fst o = fst s /\ forall k, (k < w)%nat -> snd o k = minus (snd s k) (Fin (rsum (map (fun e => value (snd e k)) (filter (fun e => yr (fst e) mod 100 =? yr (fst s) mod 100) clim))))) xs out).
  Proof.
    intros V Ti Hw (n & Nn & Et) xs w clim EC. pose proof (time_info_again _ _ _ Et Nn) as Et'.
    assert (Tc : Forall (fun e => forall k, (k < w)%nat -> tidy (snd e k)) clim).
    { destruct (calavg_long c infer_freq x "year" Year td clim) as (F & _); auto; [right; auto|]. fold xs w in F. rewrite Forall_forall in F |- *. intros e He k Hk. destruct (F e He) as (_ & ms & _ & Fr). rewrite (Fr k Hk). unfold by_days. destruct ms; [left; auto|right; eauto]. }
    assert (EC' : CA x "year" (Some n) = Ok clim). { rewrite <- EC. unfold calendar_average. rewrite Et, Et'. reflexivity. }
    unfold climate_anomaly. rewrite Et. cbn [bind String.eqb Ascii.eqb Bool.eqb orb negb]. rewrite EC'. cbn [rmap bind]. cbv zeta. fold xs. change (anom_key "year") with (fun t : time => yr t mod 100).
    set (step := fun s : time * frame fl => match having (fun t : time => yr t mod 100) (yr (fst s) mod 100) clim with [] => Err KeyError | g => Ok (fst s, subtract (snd s) (fun k => nansum (map (fun r => snd r k) g))) end).
    assert (ST : forall s, In s xs -> (exists e, In e clim /\ yr (fst e) mod 100 = yr (fst s) mod 100) -> exists o, step s = Ok o /\ fst o = fst s /\ forall k, (k < w)%nat -> snd o k = minus (snd s k) (Fin (rsum (map (fun e => value (snd e k)) (filter (fun e => yr (fst e) mod 100 =? yr (fst s) mod 100) clim))))).
    { intros s Hs (e & He & Ye). unfold step, having. set (g := filter (fun e => yr (fst e) mod 100 =? yr (fst s) mod 100) clim).
      assert (Hg : In e g) by (apply filter_In; split; auto; apply Z.eqb_eq; auto). destruct g as [|e0 g'] eqn:Eg; [destruct Hg|]. rewrite <- Eg.
      eexists. split; [reflexivity|]. split; auto. intros k Hk. cbn [snd]. unfold subtract. rewrite nansum_tidy.
      - rewrite map_map. unfold all_tidy in Ti. fold xs w in Ti. rewrite Forall_forall in Ti. apply sub_value. apply (Ti s); auto.
      - apply Forall_forall. intros v Hv. apply in_map_iff in Hv. destruct Hv as (z & <- & Hz). rewrite Forall_forall in Tc. apply Tc; auto. unfold g in Hz. apply filter_In in Hz. tauto. }
    split.
    - intros (s & Hs & No). assert (Es : step s = Err KeyError). { unfold step, having. rewrite filter_none; auto. intros e He. apply Z.eqb_neq. auto. }
      assert (AL : forall s, In s xs -> step s = Err KeyError \/ exists o, step s = Ok o). { intros z Hz. unfold step. destruct (having _ _ clim); eauto. }
      assert (G : mapM step xs = Err KeyError); [|exact G]. clear -Hs Es AL. induction xs as [|z xs' IH]; [destruct Hs|]. cbn [mapM]. destruct (AL z (or_introl eq_refl)) as [->|[o Eo]]; [reflexivity|]. rewrite Eo. cbn [bind].
      destruct Hs as [->|Hs]; [congruence|]. rewrite IH; auto. intros; apply AL; right; auto.
    - intros All. assert (Ok1 : exists out, mapM step xs = Ok out). { clear -All ST. induction xs as [|z xs' IH]; [cbn; eauto|]. cbn [mapM]. destruct (ST z (or_introl eq_refl) (All z (or_introl eq_refl))) as (o & -> & _). cbn [bind]. destruct IH as [out ->]; [intros; apply ST; auto; right; auto|intros; apply All; right; auto|]. cbn. eauto. }
      destruct Ok1 as (out & EO). exists out. split; auto. apply mapM_Ok_iff in EO. revert EO. apply Forall2_weaken. intros s o Hs Es. destruct (ST s Hs (All s Hs)) as (o' & Eo & Q). rewrite Eo in Es. injection Es as <-. auto.
  Qed.
End Anom.
