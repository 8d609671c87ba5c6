(** Records with the same dates and related data (C137). *)
From Coq Require Import Reals List Bool Arith ZArith Lra Lia String FunctionalExtensionality.
From Verif Require Import PyBase PyFacts Num NumFacts SumFacts ArrFacts ChunkFacts Calendar CalendarFacts SpecClim Climat ClimFacts ClimApi ClimLong ClimKeys ClimKeysApi ClimSeason ClimAnom ClimMore ClimZero
  SpecUnits SpecSuper SpecAffine SpecClimUnits ClimAffine SpecClimSuper.
Import ListNotations.
Local Open Scope R_scope.

(** ** A family of records, processed together *)
Section Fam.
  Variables (c : cal) (infer_freq : list time -> bool) (empty_exc : exc).
  Variables (I : Type) (i0 : I) (P : nat -> (I -> fl) -> Prop).
  Hypothesis P_nan : forall k v i j, P k v -> isnan (v i) = isnan (v j).
  Hypothesis P_missing : forall k, P k (fun _ => NaN).
  Hypothesis P_mean : forall k (l : list (I -> fl)), Forall (P k) l -> P k (fun i => nanmean (map (fun v => v i) l)).
  Hypothesis P_days : forall k A (v : A -> I -> fl) (n : A -> Z) l, (forall x, In x l -> P k (v x) /\ (forall i, isnan (v x i) = false) /\ (0 < n x)%Z) ->
    P k (fun i => nansum (map (fun x => nmul (v x i) (ndiv (ofZ (n x)) (ofZ (zsum (map n l))))) l)).

  Definition fam (L : Type) := list (L * (nat -> I -> fl)).
  Definition pr {L} (i : I) (z : fam L) : list (L * (nat -> fl)) := map (fun s => (fst s, fun k => snd s k i)) z.
  Definition good {L} (w : nat) (z : fam L) : Prop := Forall (fun s => forall k, (k < w)%nat -> P k (snd s k)) z.
  Definition outs {L} (w : nat) (r : I -> res (list (L * (nat -> fl)))) : Prop :=
    (exists e, forall i, r i = Err e) \/ (exists z : fam L, (forall i, r i = Ok (pr i z)) /\ good w z).

  Lemma fst_pr {L} i (z : fam L) : map fst (pr i z) = map fst z.
  Proof. unfold pr. rewrite map_map. reflexivity. Qed.
  Lemma len_pr {L} i (z : fam L) : List.length (pr i z) = List.length z.
  Proof. apply map_length. Qed.
  Lemma filter_pr {L} i (Q : L -> bool) (z : fam L) : filter (fun s => Q (fst s)) (pr i z) = pr i (filter (fun s => Q (fst s)) z).
  Proof. unfold pr. induction z as [|s t IH]; [reflexivity|]. cbn [map filter fst]. destruct (Q (fst s)); cbn [map]; rewrite IH; reflexivity. Qed.
  Lemma good_filter {L} w (Q : L * (nat -> I -> fl) -> bool) (z : fam L) : good w z -> good w (filter Q z).
  Proof. unfold good. rewrite !Forall_forall. intros H s Hs. apply filter_In in Hs. apply H, Hs. Qed.
  Definition zmembers (f : per) (p : Z) (z : fam time) : fam time :=
    filter (fun s => (pstart c f p <=? instant c (fst s))%Z && (instant c (fst s) <? pstart c f (p + 1))%Z) z.
  Lemma members_pr i f p (z : fam time) : members c f p (pr i z) = pr i (zmembers f p z).
  Proof. apply (filter_pr i (fun t => (pstart c f p <=? instant c t)%Z && (instant c t <? pstart c f (p + 1))%Z)). Qed.
  Definition zmean (z : fam time) : nat -> I -> fl := fun k i => nanmean (map (fun s => snd s k i) z).
  Lemma mean_pr i (z : fam time) : mean_of (pr i z) = fun k => zmean z k i.
  Proof. unfold mean_of, zmean, pr. apply functional_extensionality. intros k. rewrite map_map. reflexivity. Qed.
  Lemma good_mean w (z : fam time) k : good w z -> (k < w)%nat -> P k (zmean z k).
  Proof.
    intros H Hk. assert (E : zmean z k = fun i => nanmean (map (fun v => v i) (map (fun s => snd s k) z))) by (apply functional_extensionality; intros i; unfold zmean; rewrite map_map; reflexivity).
    rewrite E. apply P_mean. apply Forall_forall. intros v Hv. apply in_map_iff in Hv. destruct Hv as (s & <- & Hs). unfold good in H. rewrite Forall_forall in H. apply (H s Hs k Hk).
  Qed.
  Definition zres (f : per) (z : fam time) : fam time := map (fun p => (date_of c (pstart c f p), zmean (zmembers f p z))) (bins c f (map fst z)).
  Lemma resampled_pr i f z : resampled c mean_of f (pr i z) = pr i (zres f z).
  Proof. unfold resampled, zres. rewrite fst_pr. unfold pr at 2. rewrite map_map. apply map_ext. intros p. cbn [fst snd]. rewrite members_pr, mean_pr. reflexivity. Qed.
  Lemma good_res w f z : good w z -> good w (zres f z).
  Proof.
    intros H. unfold good, zres. apply Forall_forall. intros s Hs. apply in_map_iff in Hs. destruct Hs as (p & <- & _). cbn [snd]. intros k Hk. apply (good_mean w); auto. apply good_filter, H.
  Qed.
  Definition zdrop (w : nat) (z : fam time) : fam time := filter (fun s => forallb (fun k => negb (isnan (snd s k i0))) (seq 0 w)) z.
  Lemma dropna_pr i w z : good w z -> dropna w (pr i z) = pr i (zdrop w z).
  Proof.
    unfold dropna, zdrop, pr. intros H. induction H as [|s t Hs _ IH]; [reflexivity|]. cbn [map filter fst snd].
    replace (forallb (fun k => negb (isnan (snd s k i))) (seq 0 w)) with (forallb (fun k => negb (isnan (snd s k i0))) (seq 0 w)).
    - destruct (forallb _ (seq 0 w)); cbn [map]; rewrite IH; reflexivity.
    - assert (G : forall l, (forall k, In k l -> (k < w)%nat) -> forallb (fun k => negb (isnan (snd s k i0))) l = forallb (fun k => negb (isnan (snd s k i))) l).
      { induction l as [|k l IHl]; intros B; [reflexivity|]. cbn [forallb]. rewrite (P_nan k (snd s k) i0 i) by (apply Hs, B; left; reflexivity). rewrite IHl; auto. intros; apply B; right; auto. }
      apply G. intros k Hk. apply in_seq in Hk. lia.
  Qed.
  Definition full (w : nat) (z : fam time) : Prop := Forall (fun s => valid c (fst s) /\ forall k, (k < w)%nat -> P k (snd s k) /\ forall i, isnan (snd s k i) = false) z.
  Lemma full_drop w f z : good w z -> full w (zdrop w (zres f z)).
  Proof.
    intros H. pose proof (good_res w f z H) as G. unfold full, good in *. rewrite Forall_forall in *. intros s Hs. apply filter_In in Hs. destruct Hs as [Hs Hn]. split.
    - apply in_map_iff in Hs. destruct Hs as (p & <- & _). cbn [fst]. apply (start_pnum c f p).
    - intros k Hk. split; [apply G; auto|]. intros i. rewrite forallb_forall in Hn. specialize (Hn k). rewrite in_seq in Hn. rewrite (P_nan k _ i i0) by (apply G; auto). apply negb_true_iff, Hn. lia.
  Qed.
  Lemma good_full w z : full w z -> good w z.
  Proof. unfold full, good. rewrite !Forall_forall. intros H s Hs k Hk. apply (H s Hs), Hk. Qed.
  Lemma full_members w f p z : full w z -> full w (zmembers f p z).
  Proof. unfold full. rewrite !Forall_forall. intros H s Hs. apply filter_In in Hs. apply H, Hs. Qed.
  (** day-weighted sums *)
  Definition zdays (l : fam time) : nat -> I -> fl :=
    fun k i => nansum (map (fun s => nmul (snd s k i) (ndiv (ofZ (month_length c (fst s))) (ofZ (zsum (map (fun s' => month_length c (fst s')) l))))) l).
  Lemma good_days w l k : full w l -> (k < w)%nat -> P k (zdays l k).
  Proof.
    intros H Hk. apply (P_days k _ (fun s => snd s k) (fun s => month_length c (fst s)) l). intros s Hs. unfold full in H. rewrite Forall_forall in H. destruct (H s Hs) as [_ N].
    split; [apply N, Hk|]. split; [apply N, Hk|]. unfold month_length. pose proof (mlen_bounds c (yr (fst s)) (mo (fst s))). lia.
  Qed.
  Definition zlong (f : per) (p : Z) (d : fam time) : nat -> I -> fl := fun k i => match zmembers f p d with [] => NaN | l => zdays l k i end.
  Lemma sum_pr i f p d : Forall (fun s => valid c (fst s)) d -> sum_of (members c f p (weighted c f (pr i d))) = fun k => zlong f p d k i.
  Proof.
    intros V. rewrite weighted_members. 2:{ unfold pr. apply Forall_forall. intros s Hs. apply in_map_iff in Hs. destruct Hs as (u & <- & Hu). rewrite Forall_forall in V. apply (V u Hu). }
    rewrite members_pr. unfold zlong. apply functional_extensionality. intros k. generalize (zmembers f p d). intros l. destruct l as [|s0 l0]; [reflexivity|]. unfold zdays. set (l := s0 :: l0).
    change (nansum (map (fun s => snd s k) (map (fun s => (fst s, fun k => nmul (snd s k) (ndiv (ofZ (month_length c (fst s))) (ofZ (zsum (map (fun s' => month_length c (fst s')) (pr i l))))))) (pr i l)))
      = nansum (map (fun s => nmul (snd s k i) (ndiv (ofZ (month_length c (fst s))) (ofZ (zsum (map (fun s' => month_length c (fst s')) l))))) l)).
    unfold pr. rewrite !map_map. reflexivity.
  Qed.
  Lemma good_long w f p d k : full w d -> (k < w)%nat -> P k (zlong f p d k).
  Proof.
    intros H Hk. pose proof (full_members w f p d H) as F. unfold zlong. destruct (zmembers f p d) as [|s l]; [apply P_missing|].
    change (P k (zdays (s :: l) k)). apply (good_days w); auto.
  Qed.
  (** labels *)
  Lemma combine_pr {L} i (ls : list L) (fs : list (nat -> I -> fl)) : combine ls (map (fun F k => F k i) fs) = pr i (combine ls fs).
  Proof. unfold pr. revert fs. induction ls as [|t ls IH]; intros [|x r]; [reflexivity..|]. cbn [map combine fst snd]. rewrite IH. reflexivity. Qed.
  Lemma center_outs w f lo hi (fs : list (nat -> I -> fl)) : Forall (fun F => forall k, (k < w)%nat -> P k (F k)) fs ->
    outs w (fun i => center c f lo hi (map (fun F k => F k i) fs)).
  Proof.
    intros H. unfold center. destruct (Nat.eqb (List.length (between lo hi)) (List.length fs)) eqn:E.
    - right. exists (combine (map (midpoint c f) (between lo hi)) fs). split.
      + intros i. rewrite map_length, E. cbn [negb]. rewrite combine_pr. reflexivity.
      + unfold good. apply Forall_forall. intros [t F] Hs. apply in_combine_r in Hs. rewrite Forall_forall in H. apply (H F Hs).
    - left. exists ValueError. intros i. rewrite map_length, E. reflexivity.
  Qed.
  Lemma last_pr {L} i (d : fam L) s : last (pr i d) (fst s, fun k => snd s k i) = (fst (last d s), fun k => snd (last d s) k i).
  Proof. induction d as [|x [|y r] IH]; [reflexivity|reflexivity|]. exact IH. Qed.
  Lemma snd_pr {L} i (d : fam L) : map snd (pr i d) = map (fun F k => F k i) (map snd d).
  Proof. unfold pr. rewrite !map_map. reflexivity. Qed.
  (** the last step of calendar_average *)
  Definition cal_tail (f : per) (d : list (time * (nat -> fl))) : res (list (time * (nat -> fl))) :=
    match d with [] => Err IndexError | s :: _ => center c f (pnum c f (fst s)) (pnum c f (fst (last d s))) (map snd d) end.
  Lemma cal_tail_outs w f (d : fam time) : good w d -> outs w (fun i => cal_tail f (pr i d)).
  Proof.
    intros G. destruct d as [|s d]; [left; exists IndexError; reflexivity|].
    assert (E : forall i, cal_tail f (pr i (s :: d)) = center c f (pnum c f (fst s)) (pnum c f (fst (last (s :: d) s))) (map (fun F k => F k i) (map snd (s :: d)))).
    { intros i. unfold cal_tail. change (pr i (s :: d)) with ((fst s, fun k => snd s k i) :: pr i d) at 1. cbv iota. cbn [fst].
      change ((fst s, fun k => snd s k i) :: pr i d) with (pr i (s :: d)). rewrite last_pr, snd_pr. reflexivity. }
    destruct (center_outs w f (pnum c f (fst s)) (pnum c f (fst (last (s :: d) s))) (map snd (s :: d))) as [(e & H)|(z & H & Gz)].
    - rewrite Forall_map. exact G.
    - left. exists e. intros i. rewrite E. apply H.
    - right. exists z. split; [intros i; rewrite E; apply H|exact Gz].
  Qed.
  Variables (w : nat) (z : fam time) (lk : string -> option bool) (cf : option string).
  Hypothesis Gz : good w z.
  Definition input_of (i : I) : input fl := mkIn (mkSer w (pr i z)) lk cf.
  Lemma info_of i j td : time_info (input_of i) td = time_info (input_of j) td.
  Proof. reflexivity. Qed.
  Lemma cal_outs freq td : outs w (fun i => calendar_average c infer_freq (input_of i) freq td).
  Proof.
    unfold calendar_average. destruct (oget ValueError (cal_freq freq)) as [f|e]; [|left; exists e; reflexivity]. cbn [bind]. cbv zeta.
    destruct (time_info (input_of i0) td) as [n|e] eqn:En. 2:{ left. exists e. intros i. rewrite (info_of i i0), En. reflexivity. }
    assert (Eu : forall i, map fst (samples (inp (input_of i))) = map fst z) by (intros i; apply fst_pr).
    destruct (check_uniform c infer_freq (map fst z)) as [u|e] eqn:Ec.
    2:{ left. exists e. intros i. rewrite (info_of i i0), En. cbn [bind]. rewrite Eu, Ec. reflexivity. }
    set (D := fun i => let d := dropna w (resampled c mean_of (if String.eqb freq "season" || String.eqb freq "year" then Month else f) (pr i z)) in
                       if String.eqb freq "season" || String.eqb freq "year" then resampled c sum_of f (weighted c f d) else d).
    assert (G : exists d, (forall i, D i = pr i d) /\ good w d).
    { unfold D. cbv zeta. destruct (String.eqb freq "season" || String.eqb freq "year").
      - pose proof (full_drop w Month z Gz) as F. set (d := zdrop w (zres Month z)) in *.
        exists (map (fun p => (date_of c (pstart c f p), zlong f p d)) (bins c f (map fst d))). split.
        + intros i. rewrite resampled_pr, dropna_pr by (apply good_res, Gz). fold d. unfold resampled. unfold pr at 3. rewrite map_map. cbn [fst snd].
          replace (map fst (weighted c f (pr i d))) with (map fst d) by (unfold weighted, pr; rewrite !map_map; reflexivity).
          apply map_ext. intros p. rewrite sum_pr; [reflexivity|]. unfold full in F. rewrite Forall_forall in *. intros s Hs. apply (F s Hs).
        + unfold good. apply Forall_forall. intros s Hs. apply in_map_iff in Hs. destruct Hs as (p & <- & _). cbn [snd]. intros k Hk. apply (good_long w); auto.
      - exists (zdrop w (zres f z)). split; [intros i; rewrite resampled_pr, dropna_pr by (apply good_res, Gz); reflexivity|]. apply good_full, full_drop, Gz. }
    destruct G as (d & Ed & Gd). destruct (cal_tail_outs w f d Gd) as [(e & H)|(o & H & Go)].
    - left. exists e. intros i. rewrite (info_of i i0), En. cbn [bind]. rewrite Eu, Ec. cbn [bind]. change (cal_tail f (D i) = Err e). rewrite Ed. apply H.
    - right. exists o. split; [|exact Go]. intros i. rewrite (info_of i i0), En. cbn [bind]. rewrite Eu, Ec. cbn [bind]. change (cal_tail f (D i) = Ok (pr i o)). rewrite Ed. apply H.
  Qed.

  (** climatology_average *)
  Definition clim_outs (r : I -> res (cout fl)) : Prop :=
    (exists e, forall i, r i = Err e) \/ (exists o : fam time, (forall i, r i = Ok (Times (pr i o))) /\ good w o) \/ (exists o : fam string, (forall i, r i = Ok (Seasons (pr i o))) /\ good w o).
  Definition zseason (ms : Z * Z * Z) : fam time := zdrop w (zres Month (filter (fun s => in_months ms (fst s)) z)).
  Lemma season_pr ms : (exists e, forall i, season_mean c empty_exc Month w ms (pr i z) = Err e) \/
    (forall i, season_mean c empty_exc Month w ms (pr i z) = Ok (fun k => zdays (zseason ms) k i)) /\ (forall k, (k < w)%nat -> P k (zdays (zseason ms) k)).
  Proof.
    unfold season_mean, frame. destruct (Nat.eqb (List.length (filter (fun s => in_months ms (fst s)) z)) 0) eqn:E.
    - left. exists empty_exc. intros i. rewrite (filter_pr i (in_months ms)), len_pr, E. reflexivity.
    - right. assert (Gs : good w (filter (fun s => in_months ms (fst s)) z)) by (apply good_filter, Gz). split.
      + intros i. rewrite (filter_pr i (in_months ms)), len_pr, E. cbv zeta. rewrite resampled_pr, dropna_pr by (apply good_res; exact Gs). fold (zseason ms). f_equal.
        apply functional_extensionality. intros k. unfold zdays, pr. rewrite !map_map. reflexivity.
      + intros k Hk. apply (good_days w); auto. apply full_drop, Gs.
  Qed.
  Lemma seasons_outs l : outs w (fun i => mapM (fun s => do ms <- oget KeyError (find_season s) ;; do fr <- season_mean c empty_exc Month w ms (pr i z) ;; Ok (s, fr)) l).
  Proof.
    induction l as [|s l IH]; [right; exists []; split; [reflexivity|constructor]|]. cbn [mapM]. destruct (find_season s) as [ms|]; cbn [oget bind]; [|left; exists KeyError; reflexivity].
    destruct (season_pr ms) as [(e & H)|[H G]]; [left; exists e; intros i; rewrite H; reflexivity|]. destruct IH as [(e & H')|(o & H' & Go)].
    - left. exists e. intros i. rewrite H. cbn [bind]. rewrite H'. reflexivity.
    - right. exists ((s, zdays (zseason ms)) :: o). split; [intros i; rewrite H; cbn [bind]; rewrite H'; reflexivity|]. constructor; auto.
  Qed.
  Lemma clim_outs_ok freq custom td : clim_outs (fun i => climatology_average c infer_freq empty_exc (input_of i) freq custom td).
  Proof.
    unfold climatology_average. destruct (clim_freq freq) as [f|] eqn:Ef; cbn [oget bind]; [|left; exists ValueError; reflexivity]. cbv zeta.
    destruct (time_info (input_of i0) td) as [n|e] eqn:En. 2:{ left. exists e. intros i. rewrite (info_of i i0), En. reflexivity. }
    assert (Eu : forall i, map fst (samples (inp (input_of i))) = map fst z) by (intros i; apply fst_pr).
    destruct (check_uniform c infer_freq (map fst z)) as [u|e] eqn:Ec.
    2:{ left. exists e. intros i. rewrite (info_of i i0), En. cbn [bind]. rewrite Eu, Ec. reflexivity. }
    destruct (String.eqb freq "season") eqn:Es.
    - apply String.eqb_eq in Es. subst freq. injection Ef as <-. set (ss := match custom with [] => _ | _ => _ end). destruct (negb (forallb _ ss)) eqn:Eb.
      + left. exists ValueError. intros i. rewrite (info_of i i0), En. cbn [bind]. rewrite Eu, Ec. cbn [bind]. reflexivity.
      + destruct (seasons_outs ss) as [(e & H)|(o & H & Go)].
        * left. exists e. intros i. rewrite (info_of i i0), En. cbn [bind]. rewrite Eu, Ec. cbn [bind]. change (samples (inp (input_of i))) with (pr i z). change (width (inp (input_of i))) with w. rewrite H. reflexivity.
        * right. right. exists o. split; [|exact Go]. intros i. rewrite (info_of i i0), En. cbn [bind]. rewrite Eu, Ec. cbn [bind]. change (samples (inp (input_of i))) with (pr i z). change (width (inp (input_of i))) with w. rewrite H. reflexivity.
    - set (y := round_half (median2 (map (fun s => yr (fst s)) z))). set (ks := keys (key f) (map fst z)).
      set (tail := fun i => match ks with [] => Err IndexError | k :: _ => do a <- parse c f y k ;; do b <- parse c f y (last ks k) ;;
        do l <- center c f a b (map (fun F k => F k i) (map (fun k => zmean (filter (fun s => (key f (fst s) =? k)%Z) z)) ks)) ;; Ok (Times l) end).
      assert (E : forall i, (do _ <- time_info (input_of i) td ;; do _ <- check_uniform c infer_freq (map fst (samples (inp (input_of i)))) ;;
         match keys (key f) (map fst (samples (inp (input_of i)))) with [] => Err IndexError | k :: _ =>
           do a <- parse c f (round_half (median2 (map (fun s => yr (fst s)) (samples (inp (input_of i)))))) k ;;
           do b <- parse c f (round_half (median2 (map (fun s => yr (fst s)) (samples (inp (input_of i)))))) (last (keys (key f) (map fst (samples (inp (input_of i))))) k) ;;
           do l <- center c f a b (map (fun k => mean_of (having (key f) k (samples (inp (input_of i))))) (keys (key f) (map fst (samples (inp (input_of i)))))) ;; Ok (Times l) end) = tail i).
      { intros i. rewrite (info_of i i0), En. cbn [bind]. rewrite Eu, Ec. cbn [bind]. fold ks. unfold tail. change (samples (inp (input_of i))) with (pr i z).
        replace (map (fun s : time * frame fl => yr (fst s)) (pr i z)) with (map (fun s => yr (fst s)) z) by (unfold pr; rewrite map_map; reflexivity). fold y.
        replace (map (fun k => mean_of (having (key f) k (pr i z))) ks) with (map (fun F k => F k i) (map (fun k => zmean (filter (fun s => (key f (fst s) =? k)%Z) z)) ks)); [reflexivity|].
        rewrite map_map. apply map_ext. intros k. unfold having, frame. rewrite (filter_pr i (fun t => (key f t =? k)%Z)), mean_pr. reflexivity. }
      assert (T : clim_outs tail).
      { unfold tail. destruct ks as [|k0 kr]; [left; exists IndexError; reflexivity|]. destruct (parse c f y k0) as [a|e]; [|left; exists e; reflexivity]. cbn [bind].
        destruct (parse c f y (last (k0 :: kr) k0)) as [b|e]; [|left; exists e; reflexivity]. cbn [bind].
        destruct (center_outs w f a b (map (fun k => zmean (filter (fun s => (key f (fst s) =? k)%Z) z)) (k0 :: kr))) as [(e & H)|(o & H & Go)].
        - rewrite Forall_map. apply Forall_forall. intros q _ k Hk. apply (good_mean w); auto. apply good_filter, Gz.
        - left. exists e. intros i. rewrite H. reflexivity.
        - right. left. exists o. split; [|exact Go]. intros i. rewrite H. reflexivity. }
      destruct T as [(e & H)|[(o & H & Go)|(o & H & Go)]]; [left; exists e|right; left; exists o|right; right; exists o]; try (split; [|exact Go]); intros i; (etransitivity; [exact (E i)|apply H]).
  Qed.

  (** month_to_season *)
  Lemma removelast_pr {L} i (d : fam L) : removelast (pr i d) = pr i (removelast d).
  Proof. unfold pr. induction d as [|s [|s' r] IH]; [reflexivity|reflexivity|]. cbn [removelast map] in *. rewrite IH. reflexivity. Qed.
  Lemma tl_pr {L} i (d : fam L) : tl (pr i d) = pr i (tl d).
  Proof. destruct d; reflexivity. Qed.
  Lemma good_removelast {L} (d : fam L) : good w d -> good w (removelast d).
  Proof. unfold good. induction d as [|s [|s' r] IH]; intros H; [exact H|constructor|]. cbn [removelast] in *. inversion H; subst. constructor; auto. Qed.
  Lemma m2s_outs season td : outs w (fun i => month_to_season c empty_exc (input_of i) season td).
  Proof.
    unfold month_to_season. destruct (time_info (input_of i0) td) as [n|e] eqn:En. 2:{ left. exists e. intros i. rewrite (info_of i i0), En. reflexivity. }
    destruct (negb (Nat.eqb (List.length z mod 12) 0)) eqn:E12.
    { left. exists ValueError. intros i. rewrite (info_of i i0), En. cbn [bind]. cbv zeta. change (samples (inp (input_of i))) with (pr i z). rewrite len_pr, E12. reflexivity. }
    destruct (oget KeyError (find_season season)) as [ms|e] eqn:Es.
    2:{ left. exists e. intros i. rewrite (info_of i i0), En. cbn [bind]. cbv zeta. change (samples (inp (input_of i))) with (pr i z). rewrite len_pr, E12. reflexivity. }
    set (sel := filter (fun s => in_months ms (fst s)) z).
    set (s1 := if String.eqb season "DJF" then removelast sel else if String.eqb season "NDJ" then tl sel else sel).
    assert (G1 : good w s1).
    { assert (Gs : good w sel) by (apply good_filter, Gz). unfold s1. destruct (String.eqb season "DJF"); [apply good_removelast, Gs|]. destruct (String.eqb season "NDJ"); [|exact Gs]. destruct sel; [exact Gs|]. inversion Gs; auto. }
    assert (E : forall i, (do _ <- time_info (input_of i) td ;; let xs := samples (inp (input_of i)) in guard negb (Nat.eqb (List.length xs mod 12) 0) raise ValueError ;; do ms <- Ok ms ;;
       let sel := filter (fun s => in_months ms (fst s)) xs in let sel := if String.eqb season "DJF" then removelast sel else if String.eqb season "NDJ" then tl sel else sel in m2s_rest c empty_exc ms sel) = m2s_rest c empty_exc ms (pr i s1)).
    { intros i. rewrite (info_of i i0), En. cbn [bind]. cbv zeta. change (samples (inp (input_of i))) with (pr i z). rewrite len_pr, E12. cbn [bind]. rewrite (filter_pr i (in_months ms)). fold sel. f_equal.
      unfold s1. destruct (String.eqb season "DJF"); [apply removelast_pr|]. destruct (String.eqb season "NDJ"); [apply tl_pr|reflexivity]. }
    assert (T : outs w (fun i => m2s_rest c empty_exc ms (pr i s1))).
    { unfold m2s_rest, frame. destruct (Nat.eqb (List.length s1) 0) eqn:E0; [left; exists empty_exc; intros i; rewrite len_pr, E0; reflexivity|]. right. cbv zeta.
      exists (filter (fun s => (mo (fst s) =? middle ms)%Z) (map (fun p => (date_of c (86400 * mstart c (pmonth (quarter ms) p + 1))%Z, zmean (zmembers (quarter ms) p s1))) (bins c (quarter ms) (map fst s1)))). split.
      - intros i. rewrite len_pr, E0. f_equal. rewrite <- (filter_pr i (fun t => (mo t =? middle ms)%Z)). f_equal. rewrite fst_pr. unfold pr at 2. rewrite map_map. apply map_ext. intros p. cbn [fst snd]. rewrite members_pr, mean_pr. reflexivity.
      - apply good_filter. unfold good. apply Forall_forall. intros s Hs. apply in_map_iff in Hs. destruct Hs as (p & <- & _). cbn [snd]. intros k Hk. apply (good_mean w); auto. apply good_filter, G1. }
    destruct T as [(e & H)|(o & H & Go)]; [left; exists e|right; exists o; split; [|exact Go]]; intros i; (etransitivity; [exact (E i)|apply H]).
  Qed.

  (** climate_anomaly *)
  Hypothesis P_sub : forall k u v, P k u -> P k v -> P k (fun i => nsub (u i) (v i)).
  Hypothesis P_sum : forall k (l : list (I -> fl)), Forall (P k) l -> P k (fun i => nansum (map (fun v => v i) l)).
  Lemma mapM_outs {L} (xs : fam L) (F : I -> L * (nat -> fl) -> res (L * (nat -> fl))) : good w xs ->
    (forall s, In s xs -> (forall k, (k < w)%nat -> P k (snd s k)) -> (exists e, forall i, F i (fst s, fun k => snd s k i) = Err e) \/ (exists g, (forall i, F i (fst s, fun k => snd s k i) = Ok (fst s, fun k => g k i)) /\ forall k, (k < w)%nat -> P k (g k))) ->
    outs w (fun i => mapM (F i) (pr i xs)).
  Proof.
    intros G H. induction G as [|s t Gs _ IH]; [right; exists []; split; [reflexivity|constructor]|]. unfold pr. cbn [map mapM].
    destruct (H s (or_introl eq_refl) Gs) as [(e & E)|(g & E & Pg)]; [left; exists e; intros i; rewrite E; reflexivity|].
    destruct IH as [(e & E')|(o & E' & Go)]; [intros; apply H; [right|]; auto| |].
    - left. exists e. intros i. rewrite E. cbn [bind]. unfold pr in E'. rewrite E'. reflexivity.
    - right. exists ((fst s, g) :: o). split; [intros i; rewrite E; cbn [bind]; unfold pr in E'; rewrite E'; reflexivity|]. constructor; auto.
  Qed.
  Lemma find_pr i n (o : fam string) : find (fun p => String.eqb (fst p) n) (pr i o) = option_map (fun s => (fst s, fun k => snd s k i)) (find (fun p => String.eqb (fst p) n) o).
  Proof. unfold pr. induction o as [|s t IH]; [reflexivity|]. cbn [map find fst]. destruct (String.eqb (fst s) n); [reflexivity|exact IH]. Qed.
  Lemma anom_outs freq td : outs w (fun i => climate_anomaly c infer_freq empty_exc (input_of i) freq td).
  Proof.
    unfold climate_anomaly. destruct (time_info (input_of i0) td) as [n|e] eqn:En. 2:{ left. exists e. intros i. rewrite (info_of i i0), En. reflexivity. }
    destruct (negb _) eqn:Ef; [left; exists ValueError; intros i; rewrite (info_of i i0), En; reflexivity|].
    set (C := fun i => if String.eqb freq "year" then rmap Times (calendar_average c infer_freq (input_of i) freq (Some n)) else climatology_average c infer_freq empty_exc (input_of i) freq [] (Some n)).
    assert (K : clim_outs C).
    { unfold C. destruct (String.eqb freq "year"); [|apply clim_outs_ok]. destruct (cal_outs freq (Some n)) as [(e & H)|(o & H & Go)]; [left; exists e|right; left; exists o; split; [|exact Go]]; intros i; rewrite H; reflexivity. }
    set (rest := fun i clim => match clim with
      | Seasons l => mapM (fun s => do fr <- oget KeyError (option_map snd (find (fun p => String.eqb (fst p) (season_name (fst s))) l)) ;; Ok (fst s, subtract (snd s) fr)) (pr i z)
      | Times l => mapM (fun s => match having (anom_key freq) (anom_key freq (fst s)) l with [] => Err KeyError | g => Ok (fst s, subtract (snd s) (fun k => nansum (map (fun r => snd r k) g))) end) (pr i z) end).
    assert (E : forall i, (do n <- time_info (input_of i) td ;; do clim <- (if String.eqb freq "year" then rmap Times (calendar_average c infer_freq (input_of i) freq (Some n)) else climatology_average c infer_freq empty_exc (input_of i) freq [] (Some n)) ;; rest i clim) = (do clim <- C i ;; rest i clim)).
    { intros i. rewrite (info_of i i0), En. reflexivity. }
    assert (T : outs w (fun i => do clim <- C i ;; rest i clim)).
    { destruct K as [(e & H)|[(o & H & Go)|(o & H & Go)]].
      - left. exists e. intros i. rewrite H. reflexivity.
      - assert (X : outs w (fun i => mapM (fun s => match having (anom_key freq) (anom_key freq (fst s)) (pr i o) with [] => Err KeyError | g => Ok (fst s, subtract (snd s) (fun k => nansum (map (fun r => snd r k) g))) end) (pr i z))).
        { apply (mapM_outs z (fun i s => match having (anom_key freq) (anom_key freq (fst s)) (pr i o) with [] => Err KeyError | g => Ok (fst s, subtract (snd s) (fun k => nansum (map (fun r => snd r k) g))) end) Gz). intros s _ Ps. cbn [fst snd].
          set (q := anom_key freq (fst s)). assert (HH : forall i, having (anom_key freq) q (pr i o) = pr i (filter (fun s => (anom_key freq (fst s) =? q)%Z) o)) by (intros i; apply (filter_pr i (fun t => (anom_key freq t =? q)%Z))).
          pose proof (good_filter w (fun s => (anom_key freq (fst s) =? q)%Z) o Go) as Gf. destruct (filter (fun s => (anom_key freq (fst s) =? q)%Z) o) as [|r0 r].
          - left. exists KeyError. intros i. rewrite HH. reflexivity.
          - right. exists (fun k i => nsub (snd s k i) (nansum (map (fun v => v i) (map (fun r => snd r k) (r0 :: r))))). split.
            + intros i. rewrite HH. change (pr i (r0 :: r)) with ((fst r0, fun k => snd r0 k i) :: pr i r) at 1. cbv iota. f_equal. f_equal. unfold subtract. apply functional_extensionality. intros k.
              f_equal. f_equal. change ((fst r0, fun k => snd r0 k i) :: pr i r) with (pr i (r0 :: r)). unfold pr. rewrite !map_map. reflexivity.
            + intros k Hk. apply (P_sub k (snd s k)); [apply Ps, Hk|]. apply P_sum. rewrite Forall_map. unfold good in Gf. rewrite Forall_forall in *. intros x Hx. apply (Gf x Hx k Hk). }
        destruct X as [(e & H')|(o' & H' & Go')]; [left; exists e|right; exists o'; split; [|exact Go']]; intros i; rewrite H; cbn [bind]; apply H'.
      - assert (X : outs w (fun i => mapM (fun s => do fr <- oget KeyError (option_map snd (find (fun p => String.eqb (fst p) (season_name (fst s))) (pr i o))) ;; Ok (fst s, subtract (snd s) fr)) (pr i z))).
        { apply (mapM_outs z (fun i s => do fr <- oget KeyError (option_map snd (find (fun p => String.eqb (fst p) (season_name (fst s))) (pr i o))) ;; Ok (fst s, subtract (snd s) fr)) Gz). intros s _ Ps. cbn [fst snd].
          destruct (find (fun p => String.eqb (fst p) (season_name (fst s))) o) as [r|] eqn:Er.
          - right. exists (fun k i => nsub (snd s k i) (snd r k i)). split; [intros i; rewrite find_pr, Er; reflexivity|]. intros k Hk. apply (P_sub k (snd s k) (snd r k)); [apply Ps, Hk|].
            apply find_some in Er. unfold good in Go. rewrite Forall_forall in Go. apply (Go r (proj1 Er) k Hk).
          - left. exists KeyError. intros i. rewrite find_pr, Er. reflexivity. }
        destruct X as [(e & H')|(o' & H' & Go')]; [left; exists e|right; exists o'; split; [|exact Go']]; intros i; rewrite H; cbn [bind]; apply H'. }
    destruct T as [(e & H)|(o & H & Go)]; [left; exists e|right; exists o; split; [|exact Go]]; intros i; (etransitivity; [exact (E i)|apply H]).
  Qed.
End Fam.
