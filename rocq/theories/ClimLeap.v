(** 29 February in climatologies labelled with a year that lacks it (C118). *)
From Coq Require Import Reals List Bool Arith ZArith Lra Lia String Permutation Sorted.
From Verif Require Import PyBase Num NumFacts SumFacts Calendar CalendarFacts SpecClim Climat ClimFacts ClimApi ClimLong ClimKeys ClimKeysApi ClimDemo.
Import ListNotations.
Local Open Scope Z_scope.

Section Edge.
  Variables (c : cal) (infer_freq : list time -> bool) (empty_exc : exc).
  Local Notation CL := (climatology_average c infer_freq empty_exc).

  Lemma parse_lacks f y t : f = Hour \/ f = Day -> valid c t -> ~ valid c (in_year f y t) -> parse c f y (key f t) = Err ValueError.
  Proof.
    intros H V NV. unfold parse. destruct (y <? 1000); [reflexivity|]. destruct V as (M & D & S). pose proof (mlen_bounds c (yr t) (mo t)).
    assert (L : mlen c y (mo t) < dy t).
    { destruct (Z_lt_ge_dec (mlen c y (mo t)) (dy t)); auto. exfalso. apply NV. destruct H as [->| ->]; unfold valid, in_year; cbn [yr mo dy sec]; lia. }
    destruct H as [->| ->]; cbn [key].
    - assert (0 <= sec t / 3600 < 24) by lia. set (a := sec t / 3600) in *. clearbody a.
      replace ((100 * (100 * mo t + dy t) + a) / 100 mod 100) with (dy t) by lia. replace ((100 * (100 * mo t + dy t) + a) / 10000) with (mo t) by lia.
      destruct (Z.ltb_spec (mlen c y (mo t)) (dy t)); [reflexivity|lia].
    - replace ((100 * mo t + dy t) mod 100) with (dy t) by lia. replace ((100 * mo t + dy t) / 100) with (mo t) by lia.
      destruct (Z.ltb_spec (mlen c y (mo t)) (dy t)); [reflexivity|lia].
  Qed.
  Lemma parse_err f y k e : parse c f y k = Err e -> e = ValueError.
  Proof. unfold parse. destruct (y <? 1000); [congruence|]. destruct f; try discriminate; destruct (_ <? _); congruence. Qed.

  (** the date of [t] comes no later in the calendar year than that of [u] *)
  Definition no_later (t u : time) : Prop := mo t < mo u \/ mo t = mo u /\ dy t <= dy u.
  Lemma key_date f t u : f = Hour \/ f = Day -> valid c t -> valid c u -> key f t <= key f u -> no_later t u.
  Proof.
    intros H (M & D & S) (M' & D' & S') K. pose proof (mlen_bounds c (yr t) (mo t)). pose proof (mlen_bounds c (yr u) (mo u)). unfold no_later.
    destruct H as [->| ->]; cbn [key] in K; [|lia]. assert (0 <= sec t / 3600 < 24) by lia. assert (0 <= sec u / 3600 < 24) by lia.
    set (p := sec t / 3600) in *. set (q := sec u / 3600) in *. clearbody p q. lia.
  Qed.
  Lemma c118_edge x freq f custom td y s : (freq = "hour"%string /\ f = Hour \/ freq = "day"%string /\ f = Day) ->
    all_valid c (samples (inp x)) -> accepted c infer_freq x td -> label_year (map fst (samples (inp x))) y ->
    let xs := samples (inp x) in
    In s xs -> ~ valid c (in_year f y (fst s)) ->
    ((forall u, In u xs -> no_later (fst s) (fst u)) \/ (forall u, In u xs -> no_later (fst u) (fst s))) ->
    CL x freq custom td = Err ValueError.
  Proof.
    intros Sh V ((n & Et) & Eu) LY xs Hs NV Ed. fold xs in V, Eu, LY.
    assert (NE : xs <> []) by (intros Q; rewrite Q in Hs; destruct Hs).
    assert (VT : Forall (valid c) (map fst xs)) by (rewrite Forall_map; exact V).
    assert (NT : map fst xs <> []) by (destruct xs; [contradiction|discriminate]).
    pose proof (proj1 (label_year_iff _ _ NT) LY) as EY.
    destruct (ks_nonempty f xs NE) as (k0 & r & K). set (ks := keys (key f) (map fst xs)) in *.
    assert (E : CL x freq custom td = do a <- parse c f y k0 ;; do b <- parse c f y (last ks k0) ;; do l <- center c f a b (map (fun k => mean_of (having (key f) k xs)) ks) ;; Ok (Times l)).
    { unfold climatology_average. rewrite Et. fold xs. rewrite Eu. cbn [bind].
      assert (E : clim_freq freq = Some f /\ String.eqb freq "season" = false) by (destruct Sh as [[-> ->]|[-> ->]]; split; reflexivity).
      destruct E as [E1 E2]. rewrite E1, E2. cbn [oget bind]. cbv zeta. fold ks. replace (round_half (median2 (map (fun s => yr (fst s)) xs))) with y by (rewrite EY, map_map; reflexivity). rewrite K at 1. reflexivity. }
    assert (HD : f = Hour \/ f = Day) by tauto.
    assert (Vs : forall u, In u xs -> valid c (fst u)) by (unfold all_valid in V; rewrite Forall_forall in V; auto).
    assert (P : forall u, In u xs -> no_later (fst s) (fst u) -> no_later (fst u) (fst s) -> parse c f y (key f (fst u)) = Err ValueError).
    { intros u Hu L1 L2. apply parse_lacks; auto. assert (Q : mo (fst u) = mo (fst s) /\ dy (fst u) = dy (fst s)) by (unfold no_later in *; lia). destruct Q as [Q1 Q2].
      intros (X1 & X2 & X3). apply NV. destruct (Vs s Hs) as (Y1 & Y2 & Y3). destruct HD as [->| ->]; unfold valid, in_year in *; cbn [yr mo dy sec] in *; rewrite Q1, Q2 in *; lia. }
    pose proof (keys_strict (key f) (map fst xs)) as SS. fold ks in SS. rewrite K in SS. pose proof (increasing_last _ _ SS) as R. rewrite Forall_forall in R.
    assert (Ks : In (key f (fst s)) ks) by (apply keys_In; exists (fst s); split; auto; apply in_map; auto).
    assert (KT : forall k, In k ks -> exists s, In s xs /\ key f (fst s) = k). { intros k Hk. apply keys_In in Hk. destruct Hk as (t & Ht & <-). apply in_map_iff in Ht. destruct Ht as (s' & <- & Hs'). eauto. }
    rewrite E. destruct Ed as [Ed|Ed].
    - destruct (KT k0 ltac:(rewrite K; left; auto)) as (u & Hu & EQ). rewrite K in Ks. pose proof (proj1 (R _ Ks)) as L.
      rewrite <- EQ in L. apply key_date in L; auto. rewrite <- EQ, (P u) by auto. reflexivity.
    - assert (LK : In (last ks k0) ks). { rewrite K. destruct (exists_last (l := k0 :: r) ltac:(discriminate)) as (l' & b & EL). rewrite EL, last_last. apply in_or_app. right. left. auto. }
      destruct (KT _ LK) as (u & Hu & EQ). rewrite <- K in R. pose proof (proj2 (R _ Ks)) as L. rewrite <- EQ in L |- *. apply key_date in L; auto.
      rewrite (P u) by auto. destruct (parse c f y k0) as [a|e] eqn:Ep; [reflexivity|]. cbn [bind]. f_equal. eapply parse_err; eauto.
  Qed.
End Edge.

(** ** daily data from 2019-03-02 to 2020-02-29 *)
Definition mar2 : Z := instant Greg (mkTime 2019 3 2 0) / 86400.
Definition feb29 : Z := instant Greg (mkTime 2020 2 29 0) / 86400.
Definition one_year : list Z := between mar2 feb29.
Definition year_dates : list time := map (fun d => date_of Greg (86400 * d)) one_year.
Definition year_list : list time := Eval vm_compute in year_dates.
Lemma year_list_eq : year_dates = year_list.
Proof. vm_compute. reflexivity. Qed.
Definition year_keys_ok (k : list Z) : bool :=
  Nat.eqb (List.length k) 365 && Z.eqb (hd 0 k) 101 && Z.eqb (last k 101) 1231 && Z.eqb (nth 59 k 0) 229.
Lemma year_keys : year_keys_ok (keys (key Day) year_dates) = true.
Proof. rewrite year_list_eq. vm_compute. reflexivity. Qed.
Lemma year_label : round_half (median2 (map yr year_dates)) = 2019.
Proof. rewrite year_list_eq. vm_compute. reflexivity. Qed.
Lemma year_feb29 : filter (fun d => key Day (date_of Greg (86400 * d)) =? 229) one_year = [feb29].
Proof. vm_compute. reflexivity. Qed.
Lemma year_ends : parse Greg Day 2019 101 = Ok (instant Greg (mkTime 2019 1 1 0) / 86400) /\ parse Greg Day 2019 1231 = Ok (instant Greg (mkTime 2019 12 31 0) / 86400).
Proof. split; vm_compute; reflexivity. Qed.
Lemma having_map f z (v : Z -> nat -> fl) l : having (key f) z (map (fun d => (date_of Greg (86400 * d), v d)) l) =
  map (fun d => (date_of Greg (86400 * d), v d)) (filter (fun d => key f (date_of Greg (86400 * d)) =? z) l).
Proof. unfold having. induction l as [|d l IH]; [reflexivity|]. cbn [map filter fst]. destruct (_ =? z); cbn [map]; rewrite IH; reflexivity. Qed.

(** whatever the values, the average labelled 1 March 2019 is the value of 29 February 2020 *)
Lemma c118_mislabelled infer_freq empty_exc x (v : Z -> nat -> fl) custom td :
  samples (inp x) = daily Greg mar2 feb29 v -> accepted Greg infer_freq x td ->
  exists out, climatology_average Greg infer_freq empty_exc x "day" custom td = Ok (Times out) /\ List.length out = 365%nat /\
    fst (nth 59 out (mkTime 0 0 0 0, fun _ => NaN)) = mkTime 2019 3 1 43200 /\
    forall k r, v feb29 k = Fin r -> snd (nth 59 out (mkTime 0 0 0 0, fun _ => NaN)) k = Fin r.
Proof.
  intros Ex ((n & Et) & Eu). unfold climatology_average. cbn [clim_freq String.eqb Ascii.eqb Bool.eqb oget bind]. rewrite Et. cbn [bind]. rewrite Eu. cbn [bind]. cbv zeta. rewrite Ex.
  assert (Ed : map (@fst time (frame fl)) (daily Greg mar2 feb29 v) = year_dates) by (unfold daily, year_dates; rewrite map_map; reflexivity).
  assert (Ey : map (fun s : time * frame fl => yr (fst s)) (daily Greg mar2 feb29 v) = map yr year_dates) by (rewrite <- Ed, map_map; reflexivity).
  rewrite Ed, Ey, year_label. pose proof year_keys as K. unfold year_keys_ok in K. set (ks := keys (key Day) year_dates) in *. clearbody ks.
  rewrite !andb_true_iff, Nat.eqb_eq, !Z.eqb_eq in K. destruct K as (((L & H) & La) & N). destruct ks as [|k0 r]; [discriminate|]. cbn [hd] in H. subst k0.
  rewrite La. destruct year_ends as [-> ->]. cbn [bind]. set (a := instant Greg (mkTime 2019 1 1 0) / 86400). set (b := instant Greg (mkTime 2019 12 31 0) / 86400).
  assert (Lb : List.length (between a b) = 365%nat) by (unfold a, b; rewrite between_length; vm_compute; reflexivity).
  unfold center. cbv zeta. rewrite map_length, L, Lb. cbn [Nat.eqb negb bind]. eexists. split; [reflexivity|].
  split; [rewrite combine_length, !map_length, L, Lb; reflexivity|].
  assert (Nb : nth 59 (between a b) 0 = a + 59) by (unfold a, b; vm_compute; reflexivity).
  rewrite (nth_indep _ _ (midpoint Greg Day 0, mean_of (having (key Day) 0 (daily Greg mar2 feb29 v)))) by (rewrite combine_length, !map_length, L, Lb; apply Nat.ltb_lt; reflexivity).
  rewrite combine_nth by (rewrite !map_length, L, Lb; reflexivity). cbn [fst snd].
  rewrite (map_nth (midpoint Greg Day)), Nb. rewrite (map_nth (fun k => mean_of (having (key Day) k (daily Greg mar2 feb29 v)))), N.
  split; [unfold a; vm_compute; reflexivity|]. intros k w Hv. unfold mean_of, daily. fold one_year. rewrite having_map, year_feb29. cbn [map snd]. rewrite Hv.
  rewrite nanmean_present by (constructor; [right; eauto|constructor]). unfold mean_present, avg. cbn. f_equal. lra.
Qed.
