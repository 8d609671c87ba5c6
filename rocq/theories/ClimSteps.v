(** Averaging in two steps. *)
From Coq Require Import Reals List Bool Arith ZArith Lra Lia String FunctionalExtensionality Permutation.
From Verif Require Import PyBase Num NumFacts Calendar CalendarFacts SpecClim Climat ClimFacts ClimApi ClimLong ClimSeason SpecUnits SpecClimIdem SpecClimB64 SpecClimTwo ClimRel.
Import ListNotations.
Local Open Scope Z_scope.
Local Notation smp := (list (time * (nat -> fl))).

Lemma nanmean1 (v : fl) : nanmean [v] = v.
Proof.
  destruct v; unfold nanmean; cbn; [|destruct (Rlt_dec 1 0); [lra|reflexivity]|destruct (Rlt_dec 1 0); [lra|reflexivity]|reflexivity].
  destruct (Req_EM_T 1 0); [lra|]. f_equal. field.
Qed.
(** two selections from ranges with the same members are the same list *)
Lemma filter_wider (g : Z -> bool) lo hi lo' hi' : lo' <= lo -> hi <= hi' -> filter g (between lo hi) = filter (fun z => g z && (lo <=? z) && (z <=? hi)) (between lo' hi').
Proof.
  intros H1 H2. destruct (Z_le_gt_dec lo hi) as [L|L].
  - rewrite (between_split lo' lo hi') by lia. rewrite (between_split lo (hi + 1) hi') by lia. rewrite !filter_app. replace (hi + 1 - 1) with hi by lia.
    rewrite (filter_none _ (between lo' (lo - 1))). 2:{ intros z Hz. apply between_In in Hz. rewrite (proj2 (Z.leb_gt lo z)) by lia. rewrite andb_false_r. reflexivity. }
    rewrite (filter_none _ (between (hi + 1) hi')). 2:{ intros z Hz. apply between_In in Hz. rewrite (proj2 (Z.leb_gt z hi)) by lia. apply andb_false_r. }
    cbn [app]. rewrite app_nil_r. apply filter_ext_in. intros z Hz. apply between_In in Hz. rewrite (proj2 (Z.leb_le lo z)), (proj2 (Z.leb_le z hi)) by lia. rewrite !andb_true_r. reflexivity.
  - rewrite between_nil by lia. symmetry. apply filter_none. intros z _. destruct (Z.leb_spec lo z), (Z.leb_spec z hi); try lia; rewrite ?andb_false_r; reflexivity.
Qed.
Lemma filter_between_same (g g' : Z -> bool) lo hi lo' hi' : (forall z, (lo <= z <= hi /\ g z = true) <-> (lo' <= z <= hi' /\ g' z = true)) -> filter g (between lo hi) = filter g' (between lo' hi').
Proof.
  intros H. rewrite (filter_wider g lo hi (Z.min lo lo') (Z.max hi hi')), (filter_wider g' lo' hi' (Z.min lo lo') (Z.max hi hi')) by lia.
  apply filter_ext. intros z. apply eq_true_iff_eq. rewrite !andb_true_iff, !Z.leb_le. specialize (H z). tauto.
Qed.

Section Steps.
  Variables (c : cal) (infer_freq : list time -> bool) (empty_exc : exc).
  Local Notation CA := (calendar_average c infer_freq).
  Lemma calavg_ok x freq td out : CA x freq td = Ok out -> exists n, time_info x td = Ok n /\ check_uniform c infer_freq (map fst (samples (inp x))) = Ok tt.
  Proof.
    unfold calendar_average. destruct (oget ValueError (cal_freq freq)); [|discriminate]. cbn [bind]. destruct (time_info x td) as [n|]; [|discriminate]. cbn [bind]. destruct (check_uniform c infer_freq _) as [[]|]; [|discriminate]. eauto.
  Qed.
  Section Out.
    Variables (f : per) (a b : Z) (M : Z -> nat -> fl).
    Hypothesis Hab : a <= b.
    Definition labelled : smp := map (fun p => (midpoint c f p, M p)) (between a b).
    Lemma labelled_valid : all_valid c labelled.
    Proof. unfold all_valid, labelled. rewrite Forall_map. apply Forall_forall. intros p _. apply midpoint_spec. Qed.
    Lemma labelled_members g p : members c g p labelled = map (fun q => (midpoint c f q, M q)) (filter (fun q => pnum c g (midpoint c f q) =? p) (between a b)).
    Proof. unfold frame. rewrite (members_pnum c g p labelled labelled_valid). unfold labelled. apply (filter_map_swap (fun s : time * (nat -> fl) => pnum c g (fst s) =? p)). Qed.
    Lemma labelled_one p : a <= p <= b -> members c f p labelled = [(midpoint c f p, M p)].
    Proof.
      intros Hp. rewrite labelled_members. rewrite (filter_between_same _ (fun _ => true) a b p p).
      - rewrite between_cons, between_nil by lia. reflexivity.
      - intros z. destruct (midpoint_spec c f z) as (_ & _ & ->). rewrite Z.eqb_eq. split; [intros [_ ->]; lia|intros [? _]; split; lia].
    Qed.
    Lemma labelled_none p : ~ a <= p <= b -> members c f p labelled = [].
    Proof. intros Hp. rewrite labelled_members. rewrite (filter_none _ (between a b)); [reflexivity|]. intros z Hz. apply between_In in Hz. destruct (midpoint_spec c f z) as (_ & _ & ->). apply Z.eqb_neq. lia. Qed.
    Lemma labelled_mean p : a <= p <= b -> mean_of (members c f p labelled) = M p.
    Proof. intros Hp. rewrite labelled_one by exact Hp. unfold mean_of. apply functional_extensionality. intros k. cbn [map snd]. apply nanmean1. Qed.
  End Out.
  (** the result of the first step *)
  Lemma first_step x freq f td out : short freq f -> (0 < width (inp x))%nat -> all_valid c (samples (inp x)) -> CA x freq td = Ok out ->
    let xs := samples (inp x) in let w := width (inp x) in
    exists a b, a <= b /\ out = labelled f a b (fun p => mean_of (members c f p xs)) /\ (forall p, good c f w xs p = true <-> a <= p <= b).
  Proof.
    intros S Hw V E xs w. destruct (calavg_ok _ _ _ _ E) as (n & Et & Eu). rewrite (calavg_short_eq c infer_freq x freq f td n S Et Eu) in E. fold xs w in E, V, Hw.
    destruct (filter (good c f w xs) (bins c f (map fst xs))) as [|a r] eqn:F; [discriminate|]. destruct (forallb _ _) eqn:G; [|discriminate]. injection E as <-. rewrite forallb_forall in G.
    destruct (bins_range c f (map fst xs)) as (lo & hi & Hb). rewrite Hb in F. destruct (filter_cut _ lo hi a r F) as (Fab & Hlo & Hhi & _). set (b := last (a :: r) a) in *.
    assert (Ia : In a (filter (good c f w xs) (between a b))) by (rewrite Fab; left; reflexivity). apply filter_In in Ia. destruct Ia as [Ia _]. apply between_In in Ia.
    exists a, b. split; [lia|]. split; [reflexivity|]. intros p. split.
    - intros Gp. destruct (good_sample c f w xs p Hw V Gp) as (s & Hs & Ep). pose proof (bins_all c f xs s Hs) as B. unfold frame in *. rewrite Ep in B.
      assert (Q : In p (filter (good c f w xs) (between lo hi))) by (apply filter_In; split; [rewrite <- Hb; exact B|exact Gp]). rewrite F, <- Fab in Q. apply filter_In in Q. apply between_In. tauto.
    - intros Hp. apply G, between_In, Hp.
  Qed.
  Lemma good_range f w xs : (0 < w)%nat -> all_valid c xs -> forall lo hi, bins c f (map fst xs) = between lo hi -> forall p, good c f w xs p = true -> lo <= p <= hi.
  Proof. intros Hw V lo hi B p G. destruct (good_sample c f w xs p Hw V G) as (s & Hs & <-). apply between_In. rewrite <- B. apply bins_all, Hs. Qed.
  (** averaging the averages over the same periods finds the same periods and means *)
  Lemma drop_again f w (xs : smp) a b : (0 < w)%nat -> all_valid c xs -> a <= b -> (forall p, good c f w xs p = true <-> a <= p <= b) ->
    dropna w (resampled c mean_of f (labelled f a b (fun p => mean_of (members c f p xs)))) = dropna w (resampled c mean_of f xs).
  Proof.
    intros Hw V Hab G. set (d := labelled f a b (fun p => mean_of (members c f p xs))). rewrite !dropna_resampled.
    assert (Gd : forall p, good c f w d p = true <-> a <= p <= b).
    { intros p. split.
      - intros H. destruct (good_sample c f w d p Hw (labelled_valid f a b _) H) as (s & Hs & <-). apply in_map_iff in Hs. destruct Hs as (q & <- & Hq). cbn [fst]. destruct (midpoint_spec c f q) as (_ & _ & ->). apply between_In, Hq.
      - intros H. unfold good. unfold frame in *. unfold d. rewrite (labelled_mean f a b _ p H). apply (proj2 (G p)) in H. exact H. }
    destruct (bins_range c f (map fst xs)) as (lo & hi & B). destruct (bins_range c f (map fst d)) as (lo' & hi' & B'). unfold frame in *. rewrite B, B'.
    rewrite (filter_between_same (good c f w d) (good c f w xs) lo' hi' lo hi).
    - apply map_ext_in. intros p Hp. apply filter_In in Hp. destruct Hp as [_ Hp]. f_equal. apply labelled_mean, G, Hp.
    - intros z. rewrite G, Gd. split; intros [_ H]; (split; [|exact H]).
      + apply (good_range f w xs Hw V lo hi B). apply G, H.
      + apply (good_range f w d Hw (labelled_valid f a b _) lo' hi' B'). apply Gd, H.
  Qed.
  Lemma info_with x out td : time_info (with_data x out) td = time_info x td. Proof. reflexivity. Qed.
  (** hours, days, months: again *)
  Lemma again x freq f td out : short freq f -> (0 < width (inp x))%nat -> all_valid c (samples (inp x)) -> CA x freq td = Ok out ->
    check_uniform c infer_freq (map fst out) = Ok tt -> CA (with_data x out) freq td = Ok out.
  Proof.
    intros S Hw V E U. pose proof E as E0. destruct (first_step x freq f td out S Hw V E) as (a & b & Hab & Eo & G). destruct (calavg_ok _ _ _ _ E) as (n & Et & Eu).
    assert (D := drop_again f (width (inp x)) (samples (inp x)) a b Hw V Hab G). rewrite <- Eo in D.
    rewrite <- E0. unfold calendar_average. rewrite info_with, Et, Eu. cbn [bind]. cbn [with_data inp samples width]. rewrite U. cbn [bind].
    assert (X : cal_freq freq = Some f /\ (String.eqb freq "season" || String.eqb freq "year") = false) by (destruct S as [[-> ->]|[[-> ->]|[-> ->]]]; split; reflexivity).
    destruct X as [X1 X2]. rewrite X1, X2. cbn [oget bind]. cbv zeta. unfold frame in *. rewrite D. reflexivity.
  Qed.
  (** at least three labels of consecutive months pass the spacing check *)
  Lemma month_labels a b M : (3 <= b - a + 1) -> check_uniform c infer_freq (map fst (labelled Month a b M)) = Ok tt.
  Proof.
    intros H. unfold check_uniform. rewrite map_length. unfold labelled at 1. rewrite map_length, between_length. replace (Nat.ltb (Z.to_nat (b - a + 1)) 3) with false by (symmetry; apply Nat.ltb_ge; lia).
    destruct (infer_freq _); [reflexivity|]. rewrite (proj2 (forallb_forall _ _)); [reflexivity|]. intros q Hq. apply Nat.eqb_eq.
    assert (A : a <= q <= b).
    { destruct (bins_spec c Month (map fst (labelled Month a b M))) as (lo & hi & B1 & _ & B2 & B3). { unfold labelled. rewrite between_cons by lia. discriminate. }
      rewrite B1 in Hq. apply between_In in Hq. destruct B2 as (u & Hu & Eu), B3 as (v & Hv & Ev). apply in_map_iff in Hu, Hv. destruct Hu as (u' & <- & Hu), Hv as (v' & <- & Hv). unfold labelled in Hu, Hv. apply in_map_iff in Hu, Hv. destruct Hu as (qu & <- & Hu), Hv as (qv & <- & Hv). cbn [fst] in *. destruct (midpoint_spec c Month qu) as (_ & _ & E1), (midpoint_spec c Month qv) as (_ & _ & E2). apply between_In in Hu, Hv. lia. }
    pose proof (labelled_one Month a b M q A) as L. unfold members in L. rewrite (filter_map_swap (fun t => (pstart c Month q <=? instant c t) && (instant c t <? pstart c Month (q + 1))) fst), map_length. unfold frame in *. rewrite L. reflexivity.
  Qed.
  Lemma month_uniform x td out : (0 < width (inp x))%nat -> all_valid c (samples (inp x)) -> CA x "month" td = Ok out -> (3 <= List.length out)%nat -> check_uniform c infer_freq (map fst out) = Ok tt.
  Proof.
    intros Hw V E L. destruct (first_step x "month" Month td out (or_intror (or_intror (conj eq_refl eq_refl))) Hw V E) as (a & b & Hab & Eo & G). rewrite Eo in *. apply month_labels. unfold labelled in L. rewrite map_length, between_length in L. lia.
  Qed.
  (** seasons and years from months *)
  Lemma months_first x freq td out : freq = "season"%string \/ freq = "year"%string -> (0 < width (inp x))%nat -> all_valid c (samples (inp x)) -> CA x "month" td = Ok out ->
    check_uniform c infer_freq (map fst out) = Ok tt -> CA (with_data x out) freq td = CA x freq td.
  Proof.
    intros Fr Hw V E U. destruct (first_step x "month" Month td out (or_intror (or_intror (conj eq_refl eq_refl))) Hw V E) as (a & b & Hab & Eo & G). destruct (calavg_ok _ _ _ _ E) as (n & Et & Eu).
    assert (D := drop_again Month (width (inp x)) (samples (inp x)) a b Hw V Hab G). rewrite <- Eo in D.
    unfold calendar_average. rewrite info_with, Et, Eu. cbn [bind]. cbn [with_data inp samples width]. rewrite U. cbn [bind]. destruct (oget ValueError (cal_freq freq)); [|reflexivity]. cbn [bind].
    replace (String.eqb freq "season" || String.eqb freq "year") with true by (destruct Fr as [-> | ->]; reflexivity). cbv zeta. unfold frame in *. rewrite D. reflexivity.
  Qed.
  (** season climatologies from months *)
  Definition chosen (ms : Z * Z * Z) (q : Z) : bool := in_months ms (date_of c (pstart c Month q)).
  Lemma in_months_month ms t u : tmonth t = tmonth u -> valid c t -> valid c u -> in_months ms t = in_months ms u.
  Proof.
    intros E Vt Vu. assert (mo t = mo u). { unfold tmonth, mnum in E. unfold valid in *. lia. } unfold in_months. rewrite H. reflexivity.
  Qed.
  Lemma members_sel ms (xs : smp) q : all_valid c xs -> members c Month q (filter (fun s => in_months ms (fst s)) xs) = if chosen ms q then members c Month q xs else [].
  Proof.
    intros V. assert (V' : all_valid c (filter (fun s => in_months ms (fst s)) xs)). { unfold all_valid in *. rewrite Forall_forall in *. intros s Hs. apply filter_In in Hs. apply V; tauto. }
    unfold frame. rewrite (members_pnum c Month q _ V'), (members_pnum c Month q xs V). destruct (D_spec c q) as [VD ED]. unfold all_valid in V. rewrite Forall_forall in V. clear V'. unfold frame in *.
    induction xs as [|s l IH]; [destruct (chosen ms q); reflexivity|]. cbn [filter]. specialize (IH ltac:(intros; apply V; right; auto)).
    assert (Q : pnum c Month (fst s) = q -> in_months ms (fst s) = chosen ms q). { intros E. apply in_months_month; auto; [cbn [pnum] in E; congruence|apply V; left; reflexivity]. }
    destruct (Z.eqb_spec (pnum c Month (fst s)) q) as [E|E].
    - rewrite (Q E). destruct (chosen ms q); [|exact IH]. cbn [filter]. rewrite (proj2 (Z.eqb_eq _ _) E), IH. reflexivity.
    - destruct (in_months ms (fst s)); [|exact IH]. cbn [filter]. rewrite (proj2 (Z.eqb_neq _ _) E). exact IH.
  Qed.
  Lemma sel_valid ms (xs : smp) : all_valid c xs -> all_valid c (filter (fun s => in_months ms (fst s)) xs).
  Proof. unfold all_valid. rewrite !Forall_forall. intros V s Hs. apply filter_In in Hs. apply V; tauto. Qed.
  Lemma good_sel ms w (xs : smp) q : (0 < w)%nat -> all_valid c xs -> good c Month w (filter (fun s => in_months ms (fst s)) xs) q = true <-> chosen ms q = true /\ good c Month w xs q = true.
  Proof.
    intros Hw V. unfold good. unfold frame in *. rewrite (members_sel ms xs q V). destruct (chosen ms q); [tauto|]. split; [|intros [? _]; discriminate].
    intros H. rewrite forallb_forall in H. specialize (H 0%nat). rewrite in_seq in H. specialize (H ltac:(lia)). discriminate.
  Qed.
  Lemma season_again ms w (xs : smp) a b fr : (0 < w)%nat -> all_valid c xs -> a <= b -> (forall p, good c Month w xs p = true <-> a <= p <= b) ->
    let d := labelled Month a b (fun p => mean_of (members c Month p xs)) in
    season_mean c empty_exc Month w ms d = Ok fr -> season_mean c empty_exc Month w ms xs = Ok fr.
  Proof.
    intros Hw V Hab G d. unfold season_mean. cbv zeta. unfold frame. pose proof (labelled_valid Month a b (fun p => mean_of (members c Month p xs))) as Vd. fold d in Vd.
    assert (Gd : forall p, good c Month w d p = true <-> a <= p <= b).
    { intros p. split.
      - intros H. destruct (good_sample c Month w d p Hw Vd H) as (s & Hs & <-). apply in_map_iff in Hs. destruct Hs as (q & <- & Hq). cbn [fst]. destruct (midpoint_spec c Month q) as (_ & _ & ->). apply between_In, Hq.
      - intros H. unfold good. unfold frame in *. unfold d. rewrite (labelled_mean Month a b _ p H). apply (proj2 (G p)) in H. exact H. }
    destruct (Nat.eqb_spec (List.length (filter (fun s => in_months ms (fst s)) d)) 0) as [Z0|Z0]; [discriminate|].
    assert (N0 : filter (fun s => in_months ms (fst s)) xs <> []).
    { destruct (filter (fun s => in_months ms (fst s)) d) as [|s l] eqn:F; [cbn in Z0; lia|]. assert (Hs : In s (filter (fun s => in_months ms (fst s)) d)) by (rewrite F; left; reflexivity). apply filter_In in Hs. destruct Hs as [Hs Im].
      apply in_map_iff in Hs. destruct Hs as (q & <- & Hq). cbn [fst] in Im. apply between_In in Hq. apply (proj2 (G q)) in Hq. destruct (good_sample c Month w xs q Hw V Hq) as (u & Hu & Eu).
      intros N. assert (Q : In u (filter (fun s => in_months ms (fst s)) xs)).
      { apply filter_In. split; [exact Hu|]. rewrite <- Im. destruct (midpoint_spec c Month q) as (VM & _ & EM). apply in_months_month; auto; [cbn [pnum] in *; congruence|]. unfold all_valid in V. rewrite Forall_forall in V. apply V, Hu. }
      rewrite N in Q. destruct Q. }
    destruct (Nat.eqb_spec (List.length (filter (fun s => in_months ms (fst s)) xs)) 0) as [Z1|Z1]; [exfalso; apply N0; apply length_zero_iff_nil; exact Z1|]. cbv zeta.
    assert (D : dropna w (resampled c mean_of Month (filter (fun s => in_months ms (fst s)) d)) = dropna w (resampled c mean_of Month (filter (fun s => in_months ms (fst s)) xs))).
    { rewrite !dropna_resampled. destruct (bins_range c Month (map fst (filter (fun s => in_months ms (fst s)) xs))) as (lo & hi & B). destruct (bins_range c Month (map fst (filter (fun s => in_months ms (fst s)) d))) as (lo' & hi' & B'). unfold frame in *. rewrite B, B'.
      rewrite (filter_between_same (good c Month w (filter (fun s => in_months ms (fst s)) d)) (good c Month w (filter (fun s => in_months ms (fst s)) xs)) lo' hi' lo hi).
      - apply map_ext_in. intros p Hp. apply filter_In in Hp. destruct Hp as [_ Hp]. apply good_sel in Hp; auto. destruct Hp as [C Gp]. f_equal. unfold frame. rewrite (members_sel ms d p Vd), (members_sel ms xs p V), C. apply labelled_mean, G, Gp.
      - intros z. rewrite !good_sel, G, Gd by auto. split; intros (_ & C & H); (split; [|split; [exact C|exact H]]).
        + apply (good_range Month w _ Hw (sel_valid ms xs V) lo hi B). apply good_sel; auto. split; [exact C|apply G, H].
        + apply (good_range Month w _ Hw (sel_valid ms d Vd) lo' hi' B'). apply good_sel; auto. split; [exact C|apply Gd, H]. }
    unfold frame in *. rewrite D. auto.
  Qed.
  Lemma climatology_again x custom td out res : (0 < width (inp x))%nat -> all_valid c (samples (inp x)) -> CA x "month" td = Ok out ->
    climatology_average c infer_freq empty_exc (with_data x out) "season" custom td = Ok res -> climatology_average c infer_freq empty_exc x "season" custom td = Ok res.
  Proof.
    intros Hw V E. destruct (first_step x "month" Month td out (or_intror (or_intror (conj eq_refl eq_refl))) Hw V E) as (a & b & Hab & Eo & G). destruct (calavg_ok _ _ _ _ E) as (n & Et & Eu).
    unfold climatology_average. cbn [oget clim_freq String.eqb Ascii.eqb Bool.eqb bind]. rewrite info_with, Et. cbn [bind]. cbn [with_data inp samples width]. rewrite Eu. destruct (check_uniform c infer_freq (map fst out)); [|discriminate]. cbn [bind]. cbv zeta.
    destruct (negb _); [discriminate|].
    set (ss := match custom with [] => _ | _ => _ end). clearbody ss.
    assert (K : forall l, mapM (fun s => do ms <- oget KeyError (find_season s) ;; do fr <- season_mean c empty_exc Month (width (inp x)) ms out ;; Ok (s, fr)) ss = Ok l ->
      mapM (fun s => do ms <- oget KeyError (find_season s) ;; do fr <- season_mean c empty_exc Month (width (inp x)) ms (samples (inp x)) ;; Ok (s, fr)) ss = Ok l).
    { induction ss as [|s ss IH]; intros l; cbn [mapM]; [auto|]. destruct (oget KeyError (find_season s)) as [ms|]; [|discriminate]. cbn [bind].
      destruct (season_mean c empty_exc Month (width (inp x)) ms out) as [fr|] eqn:SM; [|discriminate]. cbn [bind]. rewrite Eo in SM. rewrite (season_again ms _ _ a b fr Hw V Hab G SM). cbn [bind].
      destruct (mapM _ ss) as [l'|] eqn:EM; [|discriminate]. cbn [bind]. rewrite (IH l' eq_refl). auto. }
    destruct (mapM _ ss) as [l|] eqn:EM; [|discriminate]. rewrite (K l eq_refl). auto.
  Qed.
End Steps.

(** ** equal numbers of values *)
Definition tot {X} (v : X -> R) (l : list X) : R := rsum (map v l).
Lemma tot_cons {X} (v : X -> R) a l : tot v (a :: l) = (v a + tot v l)%R.
Proof. reflexivity. Qed.
Lemma tot_nil {X} (v : X -> R) : tot v [] = 0%R. Proof. reflexivity. Qed.
Lemma tot_plus {X} (u v : X -> R) l : tot (fun a => u a + v a)%R l = (tot u l + tot v l)%R.
Proof. induction l as [|a l IH]; rewrite ?tot_nil, ?tot_cons; [lra|]. rewrite IH. lra. Qed.
Lemma tot_scale {X} (v : X -> R) m l : tot (fun a => m * v a)%R l = (m * tot v l)%R.
Proof. induction l as [|a l IH]; rewrite ?tot_nil, ?tot_cons; [lra|]. rewrite IH. lra. Qed.
Lemma tot_ext {X} (u v : X -> R) l : (forall a, In a l -> u a = v a) -> tot u l = tot v l.
Proof. intros H. unfold tot. f_equal. apply map_ext_in, H. Qed.
Lemma tot_one {X} l : tot (fun _ : X => 1%R) l = INR (List.length l).
Proof. induction l as [|a l IH]; [reflexivity|]. rewrite tot_cons, IH. cbn [List.length]. rewrite S_INR. lra. Qed.
Lemma tot_pick (a : R) z L : NoDup L -> tot (fun q => if z =? q then a else 0%R) L = if existsb (Z.eqb z) L then a else 0%R.
Proof.
  induction 1 as [|q L N _ IH]; [reflexivity|]. rewrite tot_cons. cbn [existsb]. destruct (Z.eqb_spec z q) as [->|H]; cbn [orb]; [|rewrite IH; lra].
  rewrite IH. destruct (existsb (Z.eqb q) L) eqn:E; [|lra]. apply existsb_exists in E. destruct E as (y & Hy & E). apply Z.eqb_eq in E. subst y. contradiction.
Qed.
(** a sum over the parts of a partition *)
Lemma tot_parts {X} (v : X -> R) (pn : X -> Z) (L : list Z) xs : NoDup L -> tot (fun q => tot v (filter (fun s => pn s =? q) xs)) L = tot v (filter (fun s => existsb (Z.eqb (pn s)) L) xs).
Proof.
  intros N. induction xs as [|s xs IH]; [cbn [filter]; rewrite (tot_ext _ (fun q => 0 * 1)%R) by (intros; rewrite tot_nil; lra); rewrite (tot_scale (fun _ => 1%R)), tot_nil; lra|].
  cbn [filter]. rewrite (tot_ext _ (fun q => (if pn s =? q then v s else 0) + tot v (filter (fun s => pn s =? q) xs))%R).
  - rewrite tot_plus, IH, (tot_pick (v s) (pn s) L N). destruct (existsb _ L); [rewrite tot_cons|]; lra.
  - intros q _. destruct (pn s =? q); [rewrite tot_cons|]; lra.
Qed.
Lemma vals_cons v l : vals (v :: l) = (match v with Fin r => [r] | _ => [] end ++ vals l)%list. Proof. reflexivity. Qed.
Definition amount (v : fl) : R := match v with Fin r => r | _ => 0%R end.
Definition one_if (v : fl) : R := match v with Fin r => 1%R | _ => 0%R end.
Lemma vals_sum {X} (F : X -> fl) l : rsum (vals (map F l)) = tot (fun s => amount (F s)) l.
Proof. induction l as [|s l IH]; [reflexivity|]. cbn [map]. rewrite vals_cons, tot_cons, <- IH. destruct (F s); cbn [app amount rsum]; lra. Qed.
Lemma vals_count {X} (F : X -> fl) l : INR (List.length (vals (map F l))) = tot (fun s => one_if (F s)) l.
Proof. induction l as [|s l IH]; [reflexivity|]. cbn [map]. rewrite vals_cons, tot_cons, <- IH, app_length, plus_INR. destruct (F s); cbn; lra. Qed.
(** the periods of f lie in those of g *)
Definition nested (f g : per) : Prop := (f = Hour /\ (g = Day \/ g = Month)) \/ (f = Day /\ g = Month).
Lemma nested_pnum c f g t u : nested f g -> valid c t -> valid c u -> pnum c f t = pnum c f u -> pnum c g t = pnum c g u.
Proof.
  intros N Vt Vu E. symmetry in E. apply (same_period_pnum c f t u Vt Vu) in E. symmetry. apply (same_period_pnum c g t u Vt Vu).
  destruct N as [[-> [-> | ->]]|[-> ->]]; cbn [same_period] in *; rewrite ?andb_true_iff in *; tauto.
Qed.
Section Equal.
  Variables (c : cal) (infer_freq : list time -> bool).
  Local Notation CA := (calendar_average c infer_freq).
  Variables (f g : per) (w m : nat) (xs : smp) (a b : Z).
  Hypotheses (N : nested f g) (Hm : (0 < m)%nat) (V : all_valid c xs) (Ti : all_tidy w xs) (Hab : a <= b) (Hw : (0 < w)%nat).
  Hypothesis G : forall p, good c f w xs p = true <-> a <= p <= b.
  Hypothesis Eq : forall s k, In s xs -> (k < w)%nat -> List.length (vals (in_period f (fst s) k xs)) = m.
  Local Notation d := (labelled c f a b (fun p => mean_of (members c f p xs))).
  Lemma v_in s : In s xs -> valid c (fst s). Proof. intros H. unfold all_valid in V. rewrite Forall_forall in V. apply V, H. Qed.
  Lemma mem_in p k s : In s xs -> pnum c f (fst s) = p -> map (fun s => snd s k) (members c f p xs) = in_period f (fst s) k xs.
  Proof. intros Hs E. unfold in_period. f_equal. apply (members_same c f p (fst s) xs V); [apply v_in, Hs|exact E]. Qed.
  Lemma tidy_mem h p k : (k < w)%nat -> Forall tidy (map (fun s => snd s k) (members c h p xs)).
  Proof. intros Hk. rewrite Forall_map. unfold members. apply Forall_forall. intros s Hs. apply filter_In in Hs. unfold all_tidy in Ti. rewrite Forall_forall in Ti. apply (Ti s); tauto. Qed.
  Lemma part_mean p k : (k < w)%nat -> a <= p <= b -> mean_of (members c f p xs) k = Fin (tot (fun s => amount (snd s k)) (members c f p xs) / INR m)%R /\ tot (fun s => one_if (snd s k)) (members c f p xs) = INR m.
  Proof.
    intros Hk Hp. apply (proj2 (G p)) in Hp. destruct (good_sample c f w xs p Hw V Hp) as (s & Hs & E). pose proof (Eq s k Hs Hk) as L. rewrite <- (mem_in p k s Hs E) in L.
    split.
    - unfold mean_of. rewrite nanmean_present by (apply tidy_mem, Hk). unfold mean_present. unfold frame in *. destruct (vals (map (fun s => snd s k) (members c f p xs))) as [|r l] eqn:EV; [cbn in L; lia|]. rewrite <- EV in *. unfold avg. rewrite L, vals_sum. reflexivity.
    - rewrite <- (vals_count (fun s => snd s k)), L. reflexivity.
  Qed.
  Lemma all_parts s : In s xs -> a <= pnum c f (fst s) <= b.
  Proof.
    intros Hs. apply G. unfold good. apply forallb_forall. intros k Hk. apply in_seq in Hk. pose proof (Eq s k Hs ltac:(lia)) as L. unfold frame in *. unfold mean_of. rewrite nanmean_present by (apply tidy_mem; lia).
    rewrite (mem_in _ k s Hs eq_refl). unfold mean_present. destruct (vals (in_period f (fst s) k xs)); [cbn in L; lia|]. reflexivity.
  Qed.
  (** the parts of the period p of g *)
  Local Notation parts p := (filter (fun q => pnum c g (midpoint c f q) =? p) (between a b)).
  Lemma whole v p : tot (fun q => tot v (members c f q xs)) (parts p) = tot v (members c g p xs).
  Proof.
    rewrite (tot_ext _ (fun q => tot v (filter (fun s => pnum c f (fst s) =? q) xs))). 2:{ intros q _. unfold frame. rewrite (members_pnum c f q xs V). reflexivity. }
    rewrite (tot_parts v (fun s => pnum c f (fst s))) by (apply NoDup_filter, NoDup_between). unfold frame. rewrite (members_pnum c g p xs V). f_equal. apply filter_ext_in. intros s Hs. apply eq_true_iff_eq. rewrite existsb_exists, Z.eqb_eq. split.
    - intros (q & Hq & E). apply Z.eqb_eq in E. apply filter_In in Hq. destruct Hq as [_ Hq]. apply Z.eqb_eq in Hq. rewrite <- Hq. destruct (midpoint_spec c f q) as (VM & _ & EM). apply (nested_pnum c f g); auto; [apply v_in, Hs|]. transitivity q; [exact E|symmetry; exact EM].
    - intros E. exists (pnum c f (fst s)). rewrite Z.eqb_refl. split; [|reflexivity]. apply filter_In. split; [apply between_In, all_parts, Hs|]. apply Z.eqb_eq. rewrite <- E. destruct (midpoint_spec c f (pnum c f (fst s))) as (VM & _ & EM). apply (nested_pnum c f g); auto. apply v_in, Hs.
  Qed.
  Lemma d_mean p k : (k < w)%nat -> mean_of (members c g p d) k = mean_of (members c g p xs) k.
  Proof.
    intros Hk. unfold frame. rewrite (labelled_members c f a b (fun p => mean_of (members c f p xs)) g p). unfold mean_of at 1. rewrite map_map. cbn [snd].
    rewrite (map_ext_in _ (fun q => Fin (tot (fun s => amount (snd s k)) (members c f q xs) / INR m)%R)). 2:{ intros q Hq. apply filter_In in Hq. destruct Hq as [Hq _]. apply between_In in Hq. exact (proj1 (part_mean q k Hk Hq)). }
    rewrite nanmean_present by (rewrite Forall_map; apply Forall_forall; intros; right; eauto).
    unfold mean_of. rewrite nanmean_present by (apply tidy_mem, Hk).
    pose proof (whole (fun s => amount (snd s k)) p) as W1. pose proof (whole (fun s => one_if (snd s k)) p) as W2.
    rewrite (tot_ext _ (fun q => INR m * 1)%R (parts p)) in W2. 2:{ intros q Hq. apply filter_In in Hq. destruct Hq as [Hq _]. apply between_In in Hq. transitivity (INR m); [exact (proj2 (part_mean q k Hk Hq))|lra]. }
    rewrite (tot_scale (fun _ => 1%R)), tot_one in W2. unfold frame in *. rewrite <- (vals_count (fun s => snd s k)) in W2. rewrite <- (vals_sum (fun s => snd s k)) in W1.
    unfold mean_present, avg. set (P := parts p) in *. set (A := vals (map (fun s => snd s k) (members c g p xs))) in *.
    assert (EL : vals (map (fun q => Fin (tot (fun s => amount (snd s k)) (members c f q xs) / INR m)) P) = map (fun q => tot (fun s => amount (snd s k)) (members c f q xs) / INR m)%R P).
    { clear. induction P as [|q P IH]; [reflexivity|]. cbn [map]. rewrite vals_cons, IH. reflexivity. }
    rewrite EL. assert (HM : (0 < INR m)%R) by (apply lt_0_INR, Hm).
    assert (EA : rsum (map (fun q => tot (fun s => amount (snd s k)) (members c f q xs) / INR m)%R P) = (rsum A / INR m)%R).
    { change (tot (fun q => tot (fun s => amount (snd s k)) (members c f q xs) / INR m)%R P = (rsum A / INR m)%R). rewrite <- W1. unfold Rdiv. rewrite Rmult_comm, <- tot_scale. apply tot_ext. intros; lra. }
    destruct P as [|q P'] eqn:EP.
    - destruct A as [|r A']; [reflexivity|]. cbn [List.length] in W2. rewrite S_INR in W2. pose proof (pos_INR (List.length A')). cbn [INR] in W2. lra.
    - destruct A as [|r A'].
      { cbn [List.length] in W2. rewrite S_INR in W2. cbn [INR] in W2. pose proof (pos_INR (List.length P')). assert (0 < INR m * (INR (List.length P') + 1))%R by (apply Rmult_lt_0_compat; lra). lra. }
      cbn [map]. cbn [map] in EA. rewrite EA. cbn [List.length]. rewrite map_length. change (S (List.length P')) with (List.length (q :: P')). change (S (List.length A')) with (List.length (r :: A')).
      rewrite <- W2. f_equal. assert (0 < INR (List.length (q :: P')))%R by (apply lt_0_INR; cbn; lia). field. split; lra.
  Qed.
  Lemma good_parts p : good c g w d p = good c g w xs p.
  Proof. unfold good. apply eq_true_iff_eq. rewrite !forallb_forall. split; intros H k Hk; specialize (H k Hk); apply in_seq in Hk; (rewrite d_mean in * by lia); exact H. Qed.
  Lemma drop_parts : rows w eq (dropna w (resampled c mean_of g d)) (dropna w (resampled c mean_of g xs)).
  Proof.
    rewrite !dropna_resampled. destruct (bins_range c g (map fst xs)) as (lo & hi & B). destruct (bins_range c g (map fst d)) as (lo' & hi' & B'). unfold frame in *. rewrite B, B'.
    rewrite (filter_between_same (good c g w d) (good c g w xs) lo' hi' lo hi).
    - apply rows_map. intros p k _ Hk. apply d_mean, Hk.
    - intros z. rewrite good_parts. split; intros [_ H]; (split; [|exact H]).
      + apply (good_range c g w xs Hw V lo hi B _ H).
      + apply (good_range c g w d Hw (labelled_valid c f a b _) lo' hi' B'). rewrite good_parts. exact H.
  Qed.
End Equal.
(** each variant of the second step *)
Section Apply.
  Variables (c : cal) (infer_freq : list time -> bool).
  Local Notation CA := (calendar_average c infer_freq).
  Lemma days_eq (ms : list Z) (l l' : list fl) : Forall2 eq l l' -> nansum (map (fun p => nmul (snd p) (ndiv (ofZ (fst p)) (ofZ (zsum ms)))) (combine ms l)) = nansum (map (fun p => nmul (snd p) (ndiv (ofZ (fst p)) (ofZ (zsum ms)))) (combine ms l')).
  Proof. intros H. replace l' with l; [reflexivity|]. induction H; congruence. Qed.
  Lemma equal_steps x freq f freq' td m out : short freq f -> coarser f freq' -> even f (width (inp x)) m (samples (inp x)) -> (0 < width (inp x))%nat -> all_valid c (samples (inp x)) -> all_tidy (width (inp x)) (samples (inp x)) ->
    CA x freq td = Ok out -> check_uniform c infer_freq (map fst out) = Ok tt -> outcomes (rows (width (inp x)) eq) (CA (with_data x out) freq' td) (CA x freq' td).
  Proof.
    intros S Co [Hm Eq] Hw V Ti E U. destruct (first_step c infer_freq x freq f td out S Hw V E) as (a & b & Hab & Eo & G). destruct (calavg_ok c infer_freq _ _ _ _ E) as (n & Et & Eu).
    assert (D : forall g, nested f g -> rows (width (inp x)) eq (dropna (width (inp x)) (resampled c mean_of g out)) (dropna (width (inp x)) (resampled c mean_of g (samples (inp x))))).
    { intros g N. rewrite Eo. apply (drop_parts c f g (width (inp x)) m (samples (inp x)) a b); auto. }
    unfold calendar_average. rewrite info_with, Et, Eu. cbn [bind]. cbn [with_data inp samples width]. rewrite U. cbn [bind]. cbv zeta.
    destruct Co as [[-> ->]|[Fr Hf]].
    - cbn [oget cal_freq String.eqb Ascii.eqb Bool.eqb bind orb]. apply tail_rows, D. left. auto.
    - assert (NM : nested f Month) by (destruct Hf as [-> | ->]; unfold nested; auto). specialize (D Month NM). destruct Fr as [-> | Fr].
      + cbn [oget cal_freq String.eqb Ascii.eqb Bool.eqb bind orb]. apply tail_rows, D.
      + destruct (oget ValueError (cal_freq freq')) as [h|]; [|reflexivity]. cbn [bind]. replace (String.eqb freq' "season" || String.eqb freq' "year") with true by (destruct Fr as [-> | ->]; reflexivity). apply tail_rows.
        set (w := width (inp x)) in *. pose proof (drop_full c w Month out) as F. revert D F. generalize (dropna w (resampled c mean_of Month out)) (dropna w (resampled c mean_of Month (samples (inp x)))). intros d d' D F. unfold resampled.
        replace (map fst (weighted c h d)) with (map fst d) by (unfold weighted; rewrite map_map; reflexivity). replace (map fst (weighted c h d')) with (map fst d') by (unfold weighted; rewrite map_map; reflexivity).
        unfold frame in *. rewrite (rows_fst w eq d d' D). apply rows_map. intros p k _ Hk. apply (rows_long c (List.length d) eq eq eq_refl) with (w := w); auto. intros; apply days_eq; auto.
  Qed.
End Apply.
