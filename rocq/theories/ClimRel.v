(** The climatology functions on two records with related values, possibly of different number types. *)
From Coq Require Import List Bool Arith ZArith Lia String FunctionalExtensionality.
From Verif Require Import PyBase Num Calendar CalendarFacts SpecClim Climat ClimFacts ClimLong SpecUnits SpecClimB64.
Import ListNotations.

Lemma F2_len {A B} (Q : A -> B -> Prop) l l' : Forall2 Q l l' -> List.length l = List.length l'.
Proof. induction 1; cbn [List.length]; congruence. Qed.
Section Rows.
  Context {L A B : Type}.
  Variables (w : nat) (Q : A -> B -> Prop).
  Lemma rows_fst (l : list (L * (nat -> A))) (l' : list (L * (nat -> B))) : rows w Q l l' -> map fst l' = map fst l.
  Proof. induction 1 as [|e e' l l' [H _] _ IH]; [reflexivity|]. cbn [map]. congruence. Qed.
  Lemma rows_len (l : list (L * (nat -> A))) (l' : list (L * (nat -> B))) : rows w Q l l' -> List.length l' = List.length l.
  Proof. intros H. symmetry. exact (F2_len _ _ _ H). Qed.
  Lemma rows_filter (p : L -> bool) (l : list (L * (nat -> A))) (l' : list (L * (nat -> B))) : rows w Q l l' -> rows w Q (filter (fun s => p (fst s)) l) (filter (fun s => p (fst s)) l').
  Proof. induction 1 as [|e e' l l' [H K] _ IH]; [constructor|]. cbn [filter]. rewrite H. destruct (p (fst e)); [constructor; [split; auto|exact IH]|exact IH]. Qed.
  Lemma rows_col (l : list (L * (nat -> A))) (l' : list (L * (nat -> B))) k : rows w Q l l' -> (k < w)%nat -> Forall2 Q (map (fun s => snd s k) l) (map (fun s => snd s k) l').
  Proof. intros H Hk. induction H as [|e e' l l' [_ K] _ IH]; constructor; auto. Qed.
  Lemma rows_snd (l : list (L * (nat -> A))) (l' : list (L * (nat -> B))) : rows w Q l l' -> Forall2 (fun F F' => forall k, (k < w)%nat -> Q (F k) (F' k)) (map snd l) (map snd l').
  Proof. induction 1 as [|e e' l l' [_ K] _ IH]; constructor; auto. Qed.
  Lemma rows_last (l : list (L * (nat -> A))) (l' : list (L * (nat -> B))) s s' : rows w Q l l' -> fst s' = fst s -> fst (last l' s') = fst (last l s).
  Proof. intros H E. induction H as [|e e' l l' [K _] H IH]; [exact E|]. destruct H; [exact K|]. exact IH. Qed.
  Lemma rows_removelast (l : list (L * (nat -> A))) (l' : list (L * (nat -> B))) : rows w Q l l' -> rows w Q (removelast l) (removelast l').
  Proof. induction 1 as [|e e' l l' K H IH]; [constructor|]. destruct H; [constructor|]. cbn [removelast] in *. constructor; auto. Qed.
  Lemma rows_tl (l : list (L * (nat -> A))) (l' : list (L * (nat -> B))) : rows w Q l l' -> rows w Q (tl l) (tl l').
  Proof. intros H. destruct H; [constructor|assumption]. Qed.
End Rows.

Section WM.
  Context {T : Type} {N : Num T}.
  Variable (c : cal).
  Local Notation smp := (list (time * (nat -> T))).
  Lemma members_num f p (xs : smp) : Forall (fun s => valid c (fst s)) xs -> members c f p xs = filter (fun s => (pnum c f (fst s) =? p)%Z) xs.
  Proof.
    intros V. unfold members. apply filter_ext_in. intros s Hs. rewrite Forall_forall in V. apply eq_true_iff_eq. rewrite andb_true_iff, Z.leb_le, Z.ltb_lt, Z.eqb_eq. symmetry. apply (period_iff c f (fst s) p). auto.
  Qed.
  Definition dsum (l : smp) : nat -> T := fun k => nansum (map (fun s => nmul (snd s k) (ndiv (ofZ (month_length c (fst s))) (ofZ (zsum (map (fun s' => month_length c (fst s')) l))))) l).
  Lemma weighted_num f p (ms : smp) : Forall (fun s => valid c (fst s)) ms -> sum_of (members c f p (weighted c f ms)) = fun k => match members c f p ms with [] => nnan | l => dsum l k end.
  Proof.
    intros V. assert (VW : Forall (fun s => valid c (fst s)) (weighted c f ms)) by (unfold weighted; apply Forall_forall; intros s Hs; apply in_map_iff in Hs; destruct Hs as (u & <- & Hu); cbn [fst]; rewrite Forall_forall in V; auto).
    rewrite (members_num f p (weighted c f ms) VW), (members_num f p ms V). unfold weighted.
    assert (G : forall l, (forall s, In s l -> In s ms) ->
      filter (fun s => (pnum c f (fst s) =? p)%Z) (map (fun s => let tot := zsum (map (fun s' => month_length c (fst s')) (members c f (pnum c f (fst s)) ms)) in
        (fst s, fun k => nmul (snd s k) (ndiv (ofZ (month_length c (fst s))) (ofZ tot)))) l)
      = map (fun s => (fst s, fun k => nmul (snd s k) (ndiv (ofZ (month_length c (fst s))) (ofZ (zsum (map (fun s' => month_length c (fst s')) (filter (fun s => (pnum c f (fst s) =? p)%Z) ms)))))))
        (filter (fun s => (pnum c f (fst s) =? p)%Z) l)).
    { induction l as [|s t IH]; intros I; [reflexivity|]. cbn [map filter fst]. cbv zeta in IH |- *. rewrite IH by (intros; apply I; right; auto).
      destruct (Z.eqb_spec (pnum c f (fst s)) p) as [E|E]; [|reflexivity]. cbn [map]. f_equal. rewrite E, (members_num f p ms V). reflexivity. }
    unfold frame in *. rewrite (G ms) by auto. clear G. apply functional_extensionality. intros k. generalize (filter (fun s => (pnum c f (fst s) =? p)%Z) ms). intros l. destruct l as [|s0 l0]; [reflexivity|].
    unfold sum_of, dsum. set (l := s0 :: l0). change (nansum (map (fun s => snd s k) (map (fun s => (fst s, fun k => nmul (snd s k) (ndiv (ofZ (month_length c (fst s))) (ofZ (zsum (map (fun s' => month_length c (fst s')) l)))))) l)) = nansum (map (fun s => nmul (snd s k) (ndiv (ofZ (month_length c (fst s))) (ofZ (zsum (map (fun s' => month_length c (fst s')) l))))) l)).
    rewrite map_map. reflexivity.
  Qed.
End WM.

Section Rel.
  Context {A B : Type} {NA : Num A} {NB : Num B}.
  Variables (c : cal) (infer_freq : list time -> bool) (empty_exc : exc) (n : nat) (Q0 Q1 Q2 : A -> B -> Prop).
  Hypothesis mean_ok : forall l l', Forall2 Q0 l l' -> (List.length l <= n)%nat -> Q1 (nanmean l) (nanmean l').
  Hypothesis isnan_ok : forall a b, Q1 a b -> isnan b = isnan a.
  Hypothesis nan_ok : isnan (nnan : A) = true.
  Hypothesis missing_ok : Q2 nnan nnan.
  Hypothesis days_ok : forall (ms : list Z) (l : list A) (l' : list B), List.length ms = List.length l -> (List.length l <= n)%nat -> Forall (fun m => 1 <= m <= 31)%Z ms -> Forall2 Q1 l l' -> Forall (fun a => isnan a = false) l ->
    Q2 (nansum (map (fun p => nmul (snd p) (ndiv (ofZ (fst p)) (ofZ (zsum ms)))) (combine ms l))) (nansum (map (fun p => nmul (snd p) (ndiv (ofZ (fst p)) (ofZ (zsum ms)))) (combine ms l'))).
  Local Notation SA := (list (time * (nat -> A))). Local Notation SB := (list (time * (nat -> B))).

  Lemma rows_map {P L} w (Q : A -> B -> Prop) (t : P -> L) (f : P -> nat -> A) (g : P -> nat -> B) l : (forall p k, In p l -> (k < w)%nat -> Q (f p k) (g p k)) -> rows w Q (map (fun p => (t p, f p)) l) (map (fun p => (t p, g p)) l).
  Proof. induction l as [|p l IH]; intros H; constructor; [split; [reflexivity|intros k Hk; apply H; [left; reflexivity|exact Hk]]|]. apply IH. intros q k Hq. apply H. right. exact Hq. Qed.
  Lemma filter_len {X} (p : X -> bool) l : (List.length (filter p l) <= List.length l)%nat.
  Proof. induction l as [|x l IH]; [auto|]. cbn [filter]. destruct (p x); cbn [List.length]; lia. Qed.
  Lemma rows_members w f p (xs : SA) (ys : SB) : rows w Q0 xs ys -> rows w Q0 (members c f p xs) (members c f p ys).
  Proof. apply (rows_filter w Q0 (fun t => (pstart c f p <=? instant c t)%Z && (instant c t <? pstart c f (p + 1))%Z)). Qed.
  Lemma rows_mean w (xs : SA) (ys : SB) k : rows w Q0 xs ys -> (List.length xs <= n)%nat -> (k < w)%nat -> Q1 (mean_of xs k) (mean_of ys k).
  Proof. intros H Hn Hk. apply mean_ok; [apply (rows_col w Q0); auto|]. rewrite map_length. exact Hn. Qed.
  Lemma rows_res w f (xs : SA) (ys : SB) : rows w Q0 xs ys -> (List.length xs <= n)%nat -> rows w Q1 (resampled c mean_of f xs) (resampled c mean_of f ys).
  Proof.
    intros H Hn. unfold resampled, frame. rewrite (rows_fst _ _ _ _ H). apply rows_map. intros p k _ Hk. apply (rows_mean w); [apply rows_members, H| |exact Hk]. pose proof (filter_len (fun s : time * frame A => (pstart c f p <=? instant c (fst s))%Z && (instant c (fst s) <? pstart c f (p + 1))%Z) xs) as F. unfold members. unfold frame in *. lia.
  Qed.
  Lemma rows_drop w (d : SA) (d' : SB) : rows w Q1 d d' -> rows w Q1 (dropna w d) (dropna w d').
  Proof.
    induction 1 as [|e e' l l' [H K] _ IH]; [constructor|]. unfold dropna in *. cbn [filter].
    assert (E : forallb (fun k => negb (isnan (snd e' k))) (seq 0 w) = forallb (fun k => negb (isnan (snd e k))) (seq 0 w)).
    { apply eq_true_iff_eq. rewrite !forallb_forall. split; intros F k Hk; specialize (F k Hk); apply in_seq in Hk; [rewrite <- (isnan_ok _ _ (K k ltac:(lia)))|rewrite (isnan_ok _ _ (K k ltac:(lia)))]; exact F. }
    rewrite E. destruct (forallb (fun k => negb (isnan (snd e k))) (seq 0 w)); [constructor; [split; auto|exact IH]|exact IH].
  Qed.
  Definition full (w : nat) (d : SA) : Prop := Forall (fun s => valid c (fst s) /\ forall k, (k < w)%nat -> isnan (snd s k) = false) d.
  Lemma drop_full w f (xs : SA) : full w (dropna w (resampled c mean_of f xs)).
  Proof.
    unfold full, dropna. apply Forall_forall. intros s Hs. apply filter_In in Hs. destruct Hs as [Hs Hn]. split.
    - apply in_map_iff in Hs. destruct Hs as (p & <- & _). apply (start_pnum c f p).
    - intros k Hk. rewrite forallb_forall in Hn. specialize (Hn k). rewrite in_seq in Hn. apply negb_true_iff, Hn. lia.
  Qed.
  Lemma full_filter w p (d : SA) : full w d -> full w (filter p d).
  Proof. unfold full. rewrite !Forall_forall. intros H s Hs. apply filter_In in Hs. apply H, Hs. Qed.
  (** at most as many months as samples *)
  Lemma drop_len w f (xs : SA) : (0 < w)%nat -> (List.length (dropna w (resampled c mean_of f xs)) <= List.length xs)%nat.
  Proof.
    intros Hw. unfold dropna, resampled.
    assert (E : filter (fun s => forallb (fun k => negb (isnan (snd s k))) (seq 0 w)) (map (fun p => (date_of c (pstart c f p), mean_of (members c f p xs))) (bins c f (map fst xs)))
      = map (fun p => (date_of c (pstart c f p), mean_of (members c f p xs))) (filter (fun p => forallb (fun k => negb (isnan (mean_of (members c f p xs) k))) (seq 0 w)) (bins c f (map fst xs)))).
    { generalize (bins c f (map fst xs)). intros l. induction l as [|p l IH]; [reflexivity|]. cbn [map filter snd]. destruct (forallb _ _); [cbn [map]; f_equal|]; exact IH. }
    unfold frame in *. rewrite E, map_length. set (g := fun p => forallb _ _).
    assert (I : forall p, g p = true -> exists s, In s xs /\ (pstart c f p <= instant c (fst s) < pstart c f (p + 1))%Z).
    { intros p G. unfold g in G. rewrite forallb_forall in G. specialize (G 0%nat). rewrite in_seq in G. specialize (G ltac:(lia)). destruct (members c f p xs) as [|s l] eqn:EM.
      - cbn in G. unfold mean_of, nanmean in G. cbn in G. rewrite nan_ok in G. discriminate.
      - exists s. assert (Hs : In s (members c f p xs)) by (rewrite EM; left; reflexivity). unfold members in Hs. apply filter_In in Hs. destruct Hs as [Hs B0]. split; [exact Hs|]. apply andb_true_iff in B0. rewrite Z.leb_le, Z.ltb_lt in B0. exact B0. }
    assert (ND : NoDup (bins c f (map fst xs))). { unfold bins. destruct (map (pnum c f) (map fst xs)); [constructor|]. apply NoDup_between. }
    assert (IN : incl (filter g (bins c f (map fst xs))) (map (fun s => pnum c f (date_of c (instant c (fst s)))) xs)).
    { intros p Hp. apply filter_In in Hp. destruct Hp as [_ G]. destruct (I p G) as (s & Hs & Bs). apply in_map_iff. exists s. split; [|exact Hs]. destruct (date_of_spec c (instant c (fst s))) as [V EI]. apply (period_iff c f _ p V). rewrite EI. exact Bs. }
    rewrite <- (map_length (fun s => pnum c f (date_of c (instant c (fst s)))) xs). apply NoDup_incl_length; [apply NoDup_filter, ND|exact IN].
  Qed.
  Lemma rows_days w (d : SA) (d' : SB) k : rows w Q1 d d' -> full w d -> (List.length d <= n)%nat -> (k < w)%nat -> Q2 (dsum c d k) (dsum c d' k).
  Proof.
    intros H F Hn Hk. unfold dsum.
    assert (EC : forall X (f : time * (nat -> X) -> Z) (l : list (time * (nat -> X))) (tot : Z) (op : X -> Z -> X), map (fun s => op (snd s k) (f s)) l = map (fun p => op (snd p) (fst p)) (combine (map f l) (map (fun s => snd s k) l))).
    { intros X f l tot op. induction l as [|s l IH]; [reflexivity|]. cbn [map combine fst snd]. f_equal. exact IH. }
    assert (EM : map (fun s => month_length c (fst s)) d' = map (fun s => month_length c (fst s)) d). { rewrite <- (map_map fst (month_length c) d'), <- (map_map fst (month_length c) d). f_equal. apply (rows_fst w Q1 d d' H). }
    pose proof (days_ok (map (fun s => month_length c (fst s)) d) (map (fun s => snd s k) d) (map (fun s => snd s k) d')) as D. rewrite !map_length in D. specialize (D eq_refl Hn).
    assert (D1 : Forall (fun m => 1 <= m <= 31)%Z (map (fun s => month_length c (fst s)) d)). { rewrite Forall_map. apply Forall_forall. intros s _. unfold month_length. pose proof (mlen_bounds c (yr (fst s)) (mo (fst s))). lia. }
    assert (D2 : Forall (fun a => isnan a = false) (map (fun s => snd s k) d)). { rewrite Forall_map. unfold full in F. rewrite Forall_forall in *. intros s Hs. apply (F s Hs), Hk. }
    specialize (D D1 (rows_col w Q1 d d' k H Hk) D2). rewrite EM.
    pose (tot := zsum (map (fun s => month_length c (fst s)) d)). fold tot in D |- *.
    rewrite (EC A (fun s => month_length c (fst s)) d tot (fun a m => nmul a (ndiv (ofZ m) (ofZ tot)))), (EC B (fun s => month_length c (fst s)) d' tot (fun a m => nmul a (ndiv (ofZ m) (ofZ tot)))). rewrite EM. exact D.
  Qed.
  Lemma rows_long w f p (d : SA) (d' : SB) k : rows w Q1 d d' -> full w d -> (List.length d <= n)%nat -> (k < w)%nat -> Q2 (sum_of (members c f p (weighted c f d)) k) (sum_of (members c f p (weighted c f d')) k).
  Proof.
    intros H F Hn Hk. assert (V : Forall (fun s => valid c (fst s)) d) by (unfold full in F; rewrite Forall_forall in *; intros s Hs; apply (F s Hs)).
    assert (V' : Forall (fun s => valid c (fst s)) d'). { pose proof (rows_fst w Q1 d d' H) as E. apply Forall_forall. intros s Hs. apply (in_map fst) in Hs. rewrite E in Hs. apply in_map_iff in Hs. destruct Hs as (u & <- & Hu). rewrite Forall_forall in V. apply V, Hu. }
    rewrite (weighted_num c f p d V), (weighted_num c f p d' V').
    assert (R : rows w Q1 (members c f p d) (members c f p d')) by (apply (rows_filter w Q1 (fun t => (pstart c f p <=? instant c t)%Z && (instant c t <? pstart c f (p + 1))%Z)); exact H).
    assert (FM : full w (members c f p d)) by (apply full_filter, F). assert (LM : (List.length (members c f p d) <= n)%nat) by (pose proof (filter_len (fun s : time * frame A => (pstart c f p <=? instant c (fst s))%Z && (instant c (fst s) <? pstart c f (p + 1))%Z) d) as G; unfold members; unfold frame in *; lia).
    revert R FM LM. generalize (members c f p d) (members c f p d'). intros m m' R FM LM. destruct R as [|e e' l l' K R]; [exact missing_ok|].
    apply (rows_days w (e :: l) (e' :: l') k); auto. constructor; auto.
  Qed.
  Lemma center_rows w (Q : A -> B -> Prop) f lo hi (fs : list (nat -> A)) (gs : list (nat -> B)) : Forall2 (fun F G => forall k, (k < w)%nat -> Q (F k) (G k)) fs gs -> outcomes (rows w Q) (center c f lo hi fs) (center c f lo hi gs).
  Proof.
    intros H. unfold center, frame. rewrite <- (F2_len _ _ _ H). destruct (negb _); [reflexivity|]. cbn [outcomes]. generalize (map (midpoint c f) (between lo hi)). intros ts. revert ts.
    induction H as [|F G fs gs K _ IH]; intros [|t ts]; try constructor; [split; auto|apply IH].
  Qed.
  Lemma tail_rows w (Q : A -> B -> Prop) f (d : SA) (d' : SB) : rows w Q d d' ->
    outcomes (rows w Q) (match d with [] => Err IndexError | s :: _ => center c f (pnum c f (fst s)) (pnum c f (fst (last d s))) (map snd d) end)
      (match d' with [] => Err IndexError | s :: _ => center c f (pnum c f (fst s)) (pnum c f (fst (last d' s))) (map snd d') end).
  Proof.
    intros H. destruct H as [|e e' l l' [K1 K2] H]; [reflexivity|]. assert (R : rows w Q (e :: l) (e' :: l')) by (constructor; auto).
    rewrite (rows_last w Q (e :: l) (e' :: l') e e' R K1), K1. apply center_rows, rows_snd, R.
  Qed.
  (** the functions; frequencies other than seasons and years only take means *)
  Variables (x : input A) (y : input B).
  Hypothesis R : records Q0 x y.
  Hypothesis Hn : (List.length (samples (inp x)) <= n)%nat.
  Lemma info_xy td : time_info y td = time_info x td.
  Proof. destruct R as (_ & E1 & E2 & _). unfold time_info. rewrite E1, E2. reflexivity. Qed.
  Lemma cal_short freq td : freq <> "season"%string -> freq <> "year"%string -> outcomes (rows (width (inp x)) Q1) (calendar_average c infer_freq x freq td) (calendar_average c infer_freq y freq td).
  Proof.
    intros N1 N2. unfold calendar_average. rewrite info_xy. destruct R as (Ew & _ & _ & RR). unfold frame in *. rewrite Ew, (rows_fst _ _ _ _ RR).
    destruct (oget ValueError (cal_freq freq)) as [f|e]; [|reflexivity]. cbn [bind]. cbv zeta. destruct (time_info x td); [|reflexivity]. cbn [bind]. destruct (check_uniform c infer_freq _); [|reflexivity]. cbn [bind].
    destruct (String.eqb_spec freq "season"); [contradiction|]. destruct (String.eqb_spec freq "year"); [contradiction|]. cbn [orb]. apply tail_rows, rows_drop, rows_res; auto.
  Qed.
  Lemma rows_nil_w {L} (Q : A -> B -> Prop) (l : list (L * (nat -> A))) (l' : list (L * (nat -> B))) (Q' : A -> B -> Prop) : rows 0 Q l l' -> rows 0 Q' l l'.
  Proof. induction 1 as [|e e' l l' [H _] _ IH]; constructor; auto. split; auto. intros k Hk. lia. Qed.
  Lemma cal_long freq td : freq = "season"%string \/ freq = "year"%string -> outcomes (rows (width (inp x)) Q2) (calendar_average c infer_freq x freq td) (calendar_average c infer_freq y freq td).
  Proof.
    intros Fr. unfold calendar_average. rewrite info_xy. destruct R as (Ew & _ & _ & RR). unfold frame in *. rewrite Ew, (rows_fst _ _ _ _ RR).
    destruct (oget ValueError (cal_freq freq)) as [f|e]; [|reflexivity]. cbn [bind]. cbv zeta. destruct (time_info x td); [|reflexivity]. cbn [bind]. destruct (check_uniform c infer_freq _); [|reflexivity]. cbn [bind].
    replace (String.eqb freq "season" || String.eqb freq "year") with true by (destruct Fr as [-> | ->]; reflexivity). apply tail_rows.
    set (w := width (inp x)) in *. pose proof (rows_drop w _ _ (rows_res w Month _ _ RR Hn)) as RD. pose proof (drop_full w Month (samples (inp x))) as F.
    assert (LD : (0 < w)%nat -> (List.length (dropna w (resampled c mean_of Month (samples (inp x)))) <= n)%nat) by (intros Hw; pose proof (drop_len w Month (samples (inp x)) Hw); unfold frame in *; lia).
    revert RD F LD. generalize (dropna w (resampled c mean_of Month (samples (inp x)))) (dropna w (resampled c mean_of Month (samples (inp y)))). intros d d' RD F LD. unfold resampled.
    replace (map fst (weighted c f d)) with (map fst d) by (unfold weighted; rewrite map_map; reflexivity). replace (map fst (weighted c f d')) with (map fst d') by (unfold weighted; rewrite map_map; reflexivity).
    unfold frame in *. rewrite (rows_fst w Q1 d d' RD). apply rows_map. intros p k _ Hk. apply (rows_long w); auto. apply LD. lia.
  Qed.
  Lemma season_rows ms : outcomes (fun F G => forall k, (k < width (inp x))%nat -> Q2 (F k) (G k)) (season_mean c empty_exc Month (width (inp x)) ms (samples (inp x))) (season_mean c empty_exc Month (width (inp x)) ms (samples (inp y))).
  Proof.
    destruct R as (Ew & _ & _ & RR). unfold season_mean. set (w := width (inp x)) in *. pose proof (rows_filter w Q0 (in_months ms) _ _ RR) as RF. unfold frame in *. rewrite (rows_len w Q0 _ _ RF). destruct (Nat.eqb _ 0); [reflexivity|]. cbv zeta. cbn [outcomes]. intros k Hk.
    assert (LF : (List.length (filter (fun s => in_months ms (fst s)) (samples (inp x))) <= n)%nat) by (pose proof (filter_len (fun s => in_months ms (fst s)) (samples (inp x))); unfold frame in *; lia).
    apply (rows_days w); [apply rows_drop, rows_res; auto|apply drop_full| |exact Hk]. pose proof (drop_len w Month (filter (fun s => in_months ms (fst s)) (samples (inp x))) ltac:(lia)). unfold frame in *. lia.
  Qed.
  Lemma clim_short freq custom td : freq <> "season"%string -> outcomes (crows (width (inp x)) Q1) (climatology_average c infer_freq empty_exc x freq custom td) (climatology_average c infer_freq empty_exc y freq custom td).
  Proof.
    intros N1. unfold climatology_average. rewrite info_xy. destruct R as (Ew & _ & _ & RR). unfold frame in *. rewrite Ew, (rows_fst _ _ _ _ RR). set (w := width (inp x)) in *.
    destruct (oget ValueError (clim_freq freq)) as [f|e]; [|reflexivity]. cbn [bind]. cbv zeta. destruct (time_info x td); [|reflexivity]. cbn [bind]. destruct (check_uniform c infer_freq _); [|reflexivity]. cbn [bind].
    destruct (String.eqb_spec freq "season"); [contradiction|].
    assert (EY : map (fun s : time * (nat -> B) => yr (fst s)) (samples (inp y)) = map (fun s : time * (nat -> A) => yr (fst s)) (samples (inp x))).
    { pose proof (f_equal (map yr) (rows_fst w Q0 _ _ RR)) as E. rewrite !map_map in E. exact E. }
    rewrite EY.
    destruct (keys (key f) (map (@fst time (nat -> A)) (samples (inp x)))) as [|k0 ks]; [reflexivity|].
    destruct (parse c f _ k0) as [p1|]; [|reflexivity]. cbn [bind]. destruct (parse c f _ _) as [p2|]; [|reflexivity]. cbn [bind].
    match goal with |- outcomes _ (bind (center _ _ _ _ ?fa) _) (bind (center _ _ _ _ ?fb) _) => assert (C : outcomes (rows w Q1) (center c f p1 p2 fa) (center c f p1 p2 fb)) end.
    { apply center_rows. generalize (k0 :: ks). intros l. induction l as [|z l IH]; constructor; auto. intros k Hk. apply (rows_mean w); [apply (rows_filter w Q0 (fun t => (key f t =? z)%Z)), RR| |exact Hk].
      pose proof (filter_len (fun s : time * frame A => (key f (fst s) =? z)%Z) (samples (inp x))) as G. unfold having. unfold frame in *. lia. }
    destruct (center c f p1 p2 _) as [o|e], (center c f p1 p2 _) as [o'|e']; cbn [bind outcomes] in *; auto.
  Qed.
  Lemma clim_long custom td : outcomes (crows (width (inp x)) Q2) (climatology_average c infer_freq empty_exc x "season" custom td) (climatology_average c infer_freq empty_exc y "season" custom td).
  Proof.
    unfold climatology_average. rewrite info_xy. pose proof R as (Ew & _ & _ & RR). unfold frame in *. rewrite Ew, (rows_fst _ _ _ _ RR).
    cbn [clim_freq oget bind]. change (clim_freq "season") with (Some Month). cbn [oget bind]. cbv zeta. destruct (time_info x td); [|reflexivity]. cbn [bind]. destruct (check_uniform c infer_freq _); [|reflexivity]. cbn [bind].
    change (String.eqb "season" "season") with true. cbv iota. destruct (negb _); [reflexivity|].
    generalize (match custom with [] => ["DJF"; "JJA"; "MAM"; "SON"]%string | _ => custom end). intros ss.
    match goal with |- outcomes _ (bind (mapM ?fa ?l) _) (bind (mapM ?fb ?l) _) => assert (C : outcomes (rows (width (inp x)) Q2) (mapM fa l) (mapM fb l)) end.
    { induction ss as [|s ss IH]; [constructor|]. cbn [mapM]. destruct (find_season s) as [ms|]; cbn [oget bind]; [|reflexivity]. pose proof (season_rows ms) as SR.
      destruct (season_mean c empty_exc Month (width (inp x)) ms (samples (inp x))) as [F|e], (season_mean c empty_exc Month (width (inp x)) ms (samples (inp y))) as [G|e']; cbn [outcomes bind] in *; try contradiction; auto.
      destruct (mapM _ ss) as [o|], (mapM _ ss) as [o'|]; cbn [outcomes bind] in *; auto. constructor; auto. }
    destruct (mapM _ ss) as [o|], (mapM _ ss) as [o'|]; cbn [outcomes bind] in *; auto.
  Qed.
  Lemma m2s_rows season td : outcomes (rows (width (inp x)) Q1) (month_to_season c empty_exc x season td) (month_to_season c empty_exc y season td).
  Proof.
    unfold month_to_season. rewrite info_xy. destruct R as (Ew & _ & _ & RR). set (w := width (inp x)) in *. unfold frame in *. rewrite (rows_len _ _ _ _ RR). destruct (time_info x td); [|reflexivity]. cbn [bind]. cbv zeta. destruct (negb _); [reflexivity|].
    destruct (oget KeyError (find_season season)) as [ms|]; [|reflexivity]. cbn [bind].
    pose proof (rows_filter w Q0 (in_months ms) _ _ RR) as RF. pose proof (filter_len (fun s : time * (nat -> A) => in_months ms (fst s)) (samples (inp x))) as LF.
    revert RF LF. generalize (filter (fun s : time * (nat -> A) => in_months ms (fst s)) (samples (inp x))) (filter (fun s : time * (nat -> B) => in_months ms (fst s)) (samples (inp y))). intros sel sel' RF LF.
    set (s1 := if String.eqb season "DJF" then removelast sel else if String.eqb season "NDJ" then tl sel else sel). set (s1' := if String.eqb season "DJF" then removelast sel' else if String.eqb season "NDJ" then tl sel' else sel').
    assert (R1 : rows w Q0 s1 s1') by (unfold s1, s1'; destruct (String.eqb season "DJF"); [apply rows_removelast, RF|]; destruct (String.eqb season "NDJ"); [apply rows_tl, RF|exact RF]).
    assert (L1 : (List.length s1 <= n)%nat). { unfold s1. assert (List.length (removelast sel) <= List.length sel)%nat by (clear; induction sel as [|a [|b l] IH]; cbn in *; lia). assert (List.length (tl sel) <= List.length sel)%nat by (destruct sel; cbn; lia). destruct (String.eqb season "DJF"); [lia|]. destruct (String.eqb season "NDJ"); lia. }
    rewrite (rows_len w Q0 _ _ R1). destruct (Nat.eqb _ 0); [reflexivity|]. cbn [outcomes]. apply (rows_filter w Q1 (fun t => (mo t =? middle ms)%Z)). rewrite (rows_fst w Q0 _ _ R1). apply rows_map. intros p k _ Hk.
    apply (rows_mean w); [apply rows_members, R1| |exact Hk]. pose proof (filter_len (fun s : time * frame A => (pstart c (quarter ms) p <=? instant c (fst s))%Z && (instant c (fst s) <? pstart c (quarter ms) (p + 1))%Z) s1) as G. unfold members. unfold frame in *. lia.
  Qed.
End Rel.
