(** climatology_average by hour, day and month of the year: the theorems. *)
From Coq Require Import Reals List Bool Arith ZArith Lra Lia String Permutation Sorted.
From Verif Require Import PyBase Num NumFacts SumFacts Calendar CalendarFacts SpecClim Climat ClimFacts ClimApi ClimLong ClimKeys.
Import ListNotations.
Local Open Scope Z_scope.

Section KeysApi.
  Variables (c : cal) (infer_freq : list time -> bool) (empty_exc : exc).
  Local Notation CL := (climatology_average c infer_freq empty_exc).
  Local Notation smp := (list (time * frame fl)).

  Lemma sp_key f y l t : cyclic f -> same_period f l (in_year f y t) = true <-> yr l = y /\ same_key f l t = true.
  Proof. intros H. destruct H as [->|[->| ->]]; cbn; rewrite ?andb_true_iff, ?Z.eqb_eq; tauto. Qed.
  Lemma same_key_trans f t u v : same_key f t u = true -> same_key f t v = same_key f u v.
  Proof. destruct f; cbn; rewrite ?andb_true_iff, ?Z.eqb_eq; intuition; congruence. Qed.
  Lemma same_key_sym f t u : same_key f t u = same_key f u t.
  Proof. destruct f; cbn; rewrite ?(Z.eqb_sym (mo t)), ?(Z.eqb_sym (dy t)), ?(Z.eqb_sym (sec t / 3600)); reflexivity. Qed.
  Lemma ks_nonempty f (xs : smp) : xs <> [] -> exists k0 r, keys (key f) (map fst xs) = k0 :: r.
  Proof.
    intros NE. destruct (keys (key f) (map fst xs)) as [|k0 r] eqn:E; eauto. exfalso. destruct xs as [|s xs]; [contradiction|].
    assert (Q : In (key f (fst s)) (keys (key f) (map fst (s :: xs)))) by (apply keys_In; exists (fst s); split; [left|]; auto). rewrite E in Q. destruct Q.
  Qed.
  Lemma label_year_ex ts : ts <> [] -> exists y, label_year ts y.
  Proof. intros H. eexists. apply label_year_iff; eauto. Qed.
  (** the mean of a group *)
  Lemma having_mean f w (xs : smp) t k : cyclic f -> all_valid c xs -> all_tidy w xs -> valid c t -> (k < w)%nat -> forall z, z = key f t ->
    mean_of (having (key f) z xs) k = mean_present (in_key f t k xs).
  Proof.
    intros H V Ti Vt Hk z ->. unfold mean_of, in_key, having. unfold all_valid, all_tidy in *. rewrite Forall_forall in V, Ti.
    rewrite (filter_ext_in (fun s => key f (fst s) =? key f t) (fun s => same_key f t (fst s))).
    - apply nanmean_present. apply Forall_forall. intros v Hv. apply in_map_iff in Hv. destruct Hv as (s & <- & Hs). apply filter_In in Hs. apply Ti; tauto.
    - intros s Hs. apply eq_true_iff_eq. rewrite Z.eqb_eq. symmetry. apply (key_same c); auto.
  Qed.
  Lemma in_key_same f t u k (xs : smp) : same_key f t u = true -> in_key f t k xs = in_key f u k xs.
  Proof. intros S. unfold in_key. f_equal. apply filter_ext. intros s. apply same_key_trans. auto. Qed.
  Lemma accepted_of_ok x freq custom td r : CL x freq custom td = Ok r -> accepted c infer_freq x td.
  Proof.
    intros E. unfold climatology_average in E. destruct (oget ValueError (clim_freq freq)) as [f0|] eqn:Ef0; [|discriminate]. cbn [bind] in E. destruct (time_info x td) as [n|] eqn:Et; [|discriminate]. cbn [bind] in E.
    destruct (check_uniform c infer_freq (map fst (samples (inp x)))) as [[]|] eqn:Eu; [|discriminate]. split; eauto.
  Qed.
  Lemma uniform_nonempty (xs : smp) : check_uniform c infer_freq (map fst xs) = Ok tt -> xs <> [].
  Proof. intros U ->. discriminate. Qed.
  Definition clim_entry (f : per) (y : Z) (w : nat) (xs : smp) (e : time * frame fl) : Prop :=
    centred c f (fst e) /\ yr (fst e) = y /\ (exists s, In s xs /\ same_key f (fst e) (fst s) = true) /\
    forall k, (k < w)%nat -> snd e k = mean_present (in_key f (fst e) k xs).
  (** the label of the group of t *)
  Lemma label_of f y t : cyclic f -> valid c t -> valid c (in_year f y t) -> 1000 <= y ->
    valid c (midpoint c f (pv c f y (key f t))) /\ yr (midpoint c f (pv c f y (key f t))) = y /\ same_key f (midpoint c f (pv c f y (key f t))) t = true /\ pnum c f (midpoint c f (pv c f y (key f t))) = pnum c f (in_year f y t).
  Proof.
    intros H V V' Hy. unfold pv. rewrite parse_year by auto. destruct (midpoint_spec c f (pnum c f (in_year f y t))) as (M1 & M2 & M3). split; auto.
    assert (Q : same_period f (midpoint c f (pnum c f (in_year f y t))) (in_year f y t) = true) by (apply (same_period_pnum c); auto). apply sp_key in Q; auto. tauto.
  Qed.
  Lemma clim_out x freq f custom td y res : clim_short freq f -> all_valid c (samples (inp x)) -> all_tidy (width (inp x)) (samples (inp x)) ->
    label_year (map fst (samples (inp x))) y -> all_exist c f y (map fst (samples (inp x))) -> CL x freq custom td = Ok res ->
    let xs := samples (inp x) in let w := width (inp x) in
    exists out, res = Times out /\ Forall (clim_entry f y w xs) out /\
      (forall j d, (S j < List.length out)%nat -> adjacent c f (fst (nth j out d)) (fst (nth (S j) out d))) /\
      (forall s, In s xs -> exists j, (j < List.length out)%nat /\ forall d, same_key f (fst (nth j out d)) (fst s) = true) /\
      (forall t i j d, valid c t -> (i < List.length out)%nat -> (j < List.length out)%nat -> same_key f (fst (nth i out d)) t = true -> same_key f (fst (nth j out d)) t = true -> i = j).
  Proof.
    intros Sh V Ti LY A E xs w. destruct (accepted_of_ok _ _ _ _ _ E) as ((n & Et) & Eu). pose proof (uniform_nonempty _ Eu) as NE.
    assert (Hf : cyclic f) by (destruct Sh as [[_ ->]|[[_ ->]|[_ ->]]]; unfold cyclic; auto).
    destruct (clim_eq c infer_freq empty_exc x freq f td n y Sh Et Eu custom V NE LY) as [C1 C2]. fold xs w in V, Ti, NE, C2, A.
    destruct (Z_lt_ge_dec y 1000) as [Hy|Hy]; [rewrite C1 in E by auto; discriminate|].
    destruct (ks_nonempty f xs NE) as (k0 & r & K). set (ks := keys (key f) (map fst xs)) in *. destruct (C2 ltac:(lia) A k0 r K) as [C3 C4].
    destruct (list_eq_dec Z.eq_dec (map (pv c f y) ks) (between (pv c f y k0) (pv c f y (last ks k0)))) as [Q|Q]; [|rewrite C4 in E by auto; discriminate].
    rewrite C3 in E by auto. injection E as <-. eexists. split; [reflexivity|].
    assert (KT : forall k, In k ks -> exists s, In s xs /\ key f (fst s) = k). { intros k Hk. apply keys_In in Hk. destruct Hk as (t & Ht & <-). apply in_map_iff in Ht. destruct Ht as (s & <- & Hs). eauto. }
    assert (Vs : forall s, In s xs -> valid c (fst s)) by (unfold all_valid in V; rewrite Forall_forall in V; auto).
    assert (As : forall s, In s xs -> valid c (in_year f y (fst s))) by (intros s Hs; apply A; apply in_map; auto).
    set (g := fun k => (midpoint c f (pv c f y k), mean_of (having (key f) k xs))).
    assert (Nth : forall j d, (j < List.length ks)%nat -> fst (nth j (map g ks) d) = midpoint c f (pv c f y k0 + Z.of_nat j)).
    { intros j d Hj. rewrite (nth_indep _ d (g 0)) by (rewrite map_length; auto). rewrite map_nth. unfold g. cbn [fst]. f_equal. rewrite <- (map_nth (pv c f y)), Q. apply nth_between. rewrite <- between_length, <- Q, map_length. auto. }
    split; [|split; [|split]].
    - apply Forall_forall. intros e He. apply in_map_iff in He. destruct He as (k & <- & Hk). unfold clim_entry, g. cbn [fst snd]. destruct (KT k Hk) as (s & Hs & <-).
      destruct (label_of f y (fst s) Hf (Vs s Hs) (As s Hs) ltac:(lia)) as (L1 & L2 & L3 & L4). split; [|split; [|split]]; auto.
      + split; auto. destruct (midpoint_spec c f (pv c f y (key f (fst s)))) as (M1 & M2 & M3). eexists _, _. split; [apply bounds_pstart; auto|]. rewrite M3. auto.
      + eauto.
      + intros k Hk'. rewrite (having_mean f w xs (fst s)) by auto. f_equal. symmetry. apply in_key_same. auto.
    - intros j d Hj. rewrite map_length in Hj. rewrite !Nth by lia. set (a := pv c f y k0).
      destruct (midpoint_spec c f (a + Z.of_nat j)) as (M1 & M2 & M3). destruct (midpoint_spec c f (a + Z.of_nat (S j))) as (M1' & M2' & M3').
      exists (pstart c f (a + Z.of_nat j)), (pstart c f (a + Z.of_nat (S j))), (pstart c f (a + Z.of_nat (S j) + 1)). split.
      + rewrite <- M3 at 2. replace (a + Z.of_nat (S j)) with (pnum c f (midpoint c f (a + Z.of_nat j)) + 1) by lia. apply bounds_pstart; auto.
      + rewrite <- M3' at 2 3. apply bounds_pstart; auto.
    - intros s Hs. assert (Hk : In (key f (fst s)) ks) by (apply keys_In; exists (fst s); split; auto; apply in_map; auto).
      destruct (In_nth _ _ 0 Hk) as (j & Hj & Ej). exists j. rewrite map_length. split; auto. intros d. rewrite (nth_indep _ d (g 0)) by (rewrite map_length; auto). rewrite map_nth, Ej. unfold g. cbn [fst].
      apply (label_of f y (fst s)); auto. lia.
    - intros t i j d Vt Hi Hj Ei Ej. rewrite map_length in Hi, Hj. rewrite Nth in Ei, Ej by auto.
      assert (YR : forall j, (j < List.length ks)%nat -> yr (midpoint c f (pv c f y k0 + Z.of_nat j)) = y).
      { intros i' Hi'. rewrite <- (Nth i' (g 0)) by auto. rewrite map_nth. unfold g. cbn [fst]. destruct (KT (nth i' ks 0) (nth_In _ _ Hi')) as (s & Hs & <-). apply (label_of f y (fst s)); auto. lia. }
      assert (SP : same_period f (midpoint c f (pv c f y k0 + Z.of_nat i)) (midpoint c f (pv c f y k0 + Z.of_nat j)) = true).
      { assert (SK : same_key f (midpoint c f (pv c f y k0 + Z.of_nat i)) (midpoint c f (pv c f y k0 + Z.of_nat j)) = true). { rewrite (same_key_trans f _ t) by auto. rewrite same_key_sym. auto. }
        pose proof (YR i Hi) as Y1. pose proof (YR j Hj) as Y2. revert SK Y1 Y2. generalize (midpoint c f (pv c f y k0 + Z.of_nat i)) (midpoint c f (pv c f y k0 + Z.of_nat j)). intros l l' SK Y1 Y2. destruct Hf as [->|[->| ->]]; cbn in *; rewrite Y1, Y2, Z.eqb_refl; auto. }
      destruct (midpoint_spec c f (pv c f y k0 + Z.of_nat i)) as (M1 & M2 & M3). destruct (midpoint_spec c f (pv c f y k0 + Z.of_nat j)) as (M1' & M2' & M3').
      apply (same_period_pnum c) in SP; auto. lia.
  Qed.
  Lemma clim_outcome x freq f custom td y : clim_short freq f -> all_valid c (samples (inp x)) -> accepted c infer_freq x td -> label_year (map fst (samples (inp x))) y ->
    let xs := samples (inp x) in
    (y < 1000 -> CL x freq custom td = Err ValueError) /\
    (1000 <= y -> all_exist c f y (map fst xs) ->
      (forall s u t, In s xs -> In u xs -> valid c t -> yr t = y -> instant c (in_year f y (fst s)) <= instant c t <= instant c (in_year f y (fst u)) -> (forall v, In v xs -> same_key f t (fst v) = false) -> CL x freq custom td = Err ValueError) /\
      ((forall s u t, In s xs -> In u xs -> valid c t -> yr t = y -> instant c (in_year f y (fst s)) <= instant c t <= instant c (in_year f y (fst u)) -> exists v, In v xs /\ same_key f t (fst v) = true) -> exists out, CL x freq custom td = Ok (Times out))).
  Proof.
    intros Sh V ((n & Et) & Eu) LY xs. pose proof (uniform_nonempty _ Eu) as NE.
    assert (Hf : cyclic f) by (destruct Sh as [[_ ->]|[[_ ->]|[_ ->]]]; unfold cyclic; auto).
    destruct (clim_eq c infer_freq empty_exc x freq f td n y Sh Et Eu custom V NE LY) as [C1 C2]. fold xs in V, NE, C2. split; auto. intros Hy A.
    destruct (ks_nonempty f xs NE) as (k0 & r & K). set (ks := keys (key f) (map fst xs)) in *. destruct (C2 Hy A k0 r K) as [C3 C4]. clear C1 C2.
    assert (Vs : forall s, In s xs -> valid c (fst s)) by (unfold all_valid in V; rewrite Forall_forall in V; auto).
    assert (As : forall s, In s xs -> valid c (in_year f y (fst s))) by (intros s Hs; apply A; apply in_map; auto).
    assert (VT : Forall (valid c) (map fst xs)) by (rewrite Forall_map; exact V).
    assert (KT : forall k, In k ks -> exists s, In s xs /\ key f (fst s) = k). { intros k Hk. apply keys_In in Hk. destruct Hk as (t & Ht & <-). apply in_map_iff in Ht. destruct Ht as (s & <- & Hs). eauto. }
    assert (TK : forall s, In s xs -> In (key f (fst s)) ks) by (intros s Hs; apply keys_In; exists (fst s); split; auto; apply in_map; auto).
    assert (PV : forall s, In s xs -> pv c f y (key f (fst s)) = pnum c f (in_year f y (fst s))) by (intros s Hs; unfold pv; rewrite parse_year; auto).
    pose proof (pv_sorted c f y _ Hf VT A Hy) as SS. fold ks in SS.
    assert (RG : Forall (fun z => pv c f y k0 <= z <= pv c f y (last ks k0)) (map (pv c f y) ks)).
    { rewrite K in SS |- *. cbn [map] in *. pose proof (increasing_last _ _ SS) as Q. replace (pv c f y (last (k0 :: r) k0)) with (last (pv c f y k0 :: map (pv c f y) r) (pv c f y k0)); auto. apply (last_map (pv c f y)). }
    rewrite Forall_forall in RG.
    assert (LK : In (last ks k0) ks). { rewrite K. destruct (exists_last (l := k0 :: r) ltac:(discriminate)) as (l' & b & EL). rewrite EL, last_last. apply in_or_app. right. left. auto. }
    split.
    - intros s u t Hs Hu Vt Yt Ht Nt. apply C4. intros Q.
      assert (In (pnum c f t) (map (pv c f y) ks)) as Hp.
      { rewrite Q. apply between_In. pose proof (RG _ (in_map (pv c f y) _ _ (TK s Hs))) as R1. pose proof (RG _ (in_map (pv c f y) _ _ (TK u Hu))) as R2. rewrite PV in R1, R2 by auto.
        pose proof (pnum_mono c f _ _ (As s Hs) Vt ltac:(lia)). pose proof (pnum_mono c f _ _ Vt (As u Hu) ltac:(lia)). lia. }
      apply in_map_iff in Hp. destruct Hp as (k & Ek & Hk). destruct (KT k Hk) as (v & Hv & <-). rewrite PV in Ek by auto.
      assert (SP : same_period f t (in_year f y (fst v)) = true) by (apply (same_period_pnum c); auto). apply sp_key in SP; auto. rewrite (Nt v Hv) in SP. destruct SP. discriminate.
    - intros H. eexists. apply C3.
      destruct (KT k0 ltac:(rewrite K; left; auto)) as (s & Hs & Es). destruct (KT _ LK) as (u & Hu & Eu').
      assert (RG' : Forall (fun z => pv c f y k0 <= z <= pv c f y (last ks k0)) (map (pv c f y) ks)) by (apply Forall_forall; exact RG).
      destruct (increasing_range _ SS _ _ RG') as [L1 L2]. apply L2. apply Nat.le_antisymm; auto. rewrite <- between_length. apply NoDup_incl_length; [apply NoDup_between|].
      intros p Hp. apply between_In in Hp. destruct (midpoint_spec c f p) as (M1 & M2 & M3).
      rewrite <- Eu', <- Es, !PV in Hp by auto.
      destruct (Z.eq_dec p (pnum c f (in_year f y (fst s)))) as [->|N1]; [rewrite <- PV by auto; apply in_map; auto|].
      destruct (Z.eq_dec p (pnum c f (in_year f y (fst u)))) as [->|N2]; [rewrite <- PV by auto; apply in_map; auto|].
      set (l := midpoint c f p) in *.
      assert (B : instant c (in_year f y (fst s)) <= instant c l <= instant c (in_year f y (fst u))).
      { split.
        * destruct (Z_le_gt_dec (instant c (in_year f y (fst s))) (instant c l)) as [|L]; auto. pose proof (pnum_mono c f l _ M1 (As s Hs) ltac:(lia)). lia.
        * destruct (Z_le_gt_dec (instant c l) (instant c (in_year f y (fst u)))) as [|L]; auto. pose proof (pnum_mono c f _ l (As u Hu) M1 ltac:(lia)). lia. }
      assert (Yl : yr l = y).
      { assert (Year1 : forall a b, valid c a -> valid c b -> instant c a <= instant c b -> yr a <= yr b). { intros a b Va Vb L. pose proof (pnum_mono c Year a b Va Vb L) as Q. cbn [pnum] in Q. rewrite (proj1 (tmonth_div c a Va)), (proj1 (tmonth_div c b Vb)) in Q. auto. }
        pose proof (Year1 _ l (As s Hs) M1 ltac:(lia)) as Q1. pose proof (Year1 l _ M1 (As u Hu) ltac:(lia)) as Q2. change (yr (in_year f y (fst s))) with y in Q1. change (yr (in_year f y (fst u))) with y in Q2. lia. }
      destruct (H s u l Hs Hu M1 Yl B) as (v & Hv & Sv). assert (SP : same_period f l (in_year f y (fst v)) = true) by (apply sp_key; auto). apply (same_period_pnum c) in SP; auto.
      rewrite <- M3, <- SP, <- PV by auto. apply in_map. auto.
  Qed.
  (** data that covers the label year and has a date which that year lacks *)
  Lemma clim_leap x freq f custom td y : (freq = "hour"%string /\ f = Hour \/ freq = "day"%string /\ f = Day) -> all_valid c (samples (inp x)) -> accepted c infer_freq x td -> label_year (map fst (samples (inp x))) y ->
    let xs := samples (inp x) in
    (forall t, valid c t -> yr t = y -> exists s, In s xs /\ same_key f t (fst s) = true) ->
    (exists s, In s xs /\ ~ valid c (in_year f y (fst s))) ->
    CL x freq custom td = Err ValueError.
  Proof.
    intros Sh V ((n & Et) & Eu) LY xs Cov (s9 & Hs9 & N9). pose proof (uniform_nonempty _ Eu) as NE. fold xs in V, NE, Eu, LY.
    assert (Sh' : clim_short freq f) by (destruct Sh as [[-> ->]|[-> ->]]; unfold clim_short; tauto).
    assert (Hf : cyclic f) by (destruct Sh as [[_ ->]|[_ ->]]; unfold cyclic; auto).
    assert (VT : Forall (valid c) (map fst xs)) by (rewrite Forall_map; exact V).
    assert (NT : map fst xs <> []) by (destruct xs; [contradiction|discriminate]).
    pose proof (proj1 (label_year_iff _ _ NT) LY) as EY.
    destruct (ks_nonempty f xs NE) as (k0 & r & K). set (ks := keys (key f) (map fst xs)) in *.
    assert (E : CL x freq custom td = do a <- parse c f y k0 ;; do b <- parse c f y (last ks k0) ;; do l <- center c f a b (map (fun k => mean_of (having (key f) k xs)) ks) ;; Ok (Times l)).
    { unfold climatology_average. rewrite Et. fold xs. rewrite Eu. cbn [bind].
      assert (E : clim_freq freq = Some f /\ String.eqb freq "season" = false) by (destruct Sh as [[-> ->]|[-> ->]]; split; reflexivity).
      destruct E as [E1 E2]. rewrite E1, E2. cbn [oget bind]. cbv zeta. fold ks. replace (round_half (median2 (map (fun s => yr (fst s)) xs))) with y by (rewrite EY, map_map; reflexivity). rewrite K at 1. reflexivity. }
    rewrite E. destruct (Z_lt_ge_dec y 1000) as [Hy|Hy]; [unfold parse at 1; destruct (Z.ltb_spec y 1000); [reflexivity|lia]|].
    assert (Vs : forall s, In s xs -> valid c (fst s)) by (unfold all_valid in V; rewrite Forall_forall in V; auto).
    assert (KT : forall k, In k ks -> exists s, In s xs /\ key f (fst s) = k). { intros k Hk. apply keys_In in Hk. destruct Hk as (t & Ht & <-). apply in_map_iff in Ht. destruct Ht as (s & <- & Hs). eauto. }
    assert (TK : forall s, In s xs -> In (key f (fst s)) ks) by (intros s Hs; apply keys_In; exists (fst s); split; auto; apply in_map; auto).
    assert (CK : forall t, valid c t -> yr t = y -> In (key f t) ks). { intros t Vt Yt. destruct (Cov t Vt Yt) as (s & Hs & Sk). apply (key_same c) in Sk; auto. rewrite <- Sk. auto. }
    (* first and last day of the year *)
    set (j1 := mkTime y 1 1 0). set (d31 := mkTime y 12 (mlen c y 12) 86399).
    assert (V1 : valid c j1). { pose proof (mlen_bounds c y 1). unfold valid, j1. cbn. lia. }
    assert (V31 : valid c d31). { pose proof (mlen_bounds c y 12). unfold valid, d31. cbn [mo dy sec yr]. lia. }
    assert (L12 : forall z, mlen c z 12 = mlen c y 12) by (intros; unfold mlen; destruct c; reflexivity).
    pose proof (keys_strict (key f) (map fst xs)) as SS. fold ks in SS.
    assert (F1 : k0 = key f j1).
    { assert (Q1 : key f j1 <= k0). { destruct (KT k0 ltac:(rewrite K; left; auto)) as (s & Hs & <-). destruct (Vs s Hs) as (B1 & B2 & B3). destruct Hf as [->|[->| ->]]; cbn -[Z.mul Z.div]; lia. }
      assert (Q2 : k0 <= key f j1). { pose proof (CK j1 V1 eq_refl) as Q. rewrite K in Q, SS. pose proof (increasing_last _ _ SS) as R. rewrite Forall_forall in R. specialize (R _ Q). lia. }
      lia. }
    assert (LK : In (last ks k0) ks). { rewrite K. destruct (exists_last (l := k0 :: r) ltac:(discriminate)) as (l' & b & EL). rewrite EL, last_last. apply in_or_app. right. left. auto. }
    assert (F2 : last ks k0 = key f d31).
    { assert (Q1 : last ks k0 <= key f d31). { destruct (KT _ LK) as (s & Hs & <-). destruct (Vs s Hs) as (B1 & B2 & B3). pose proof (L12 (yr (fst s))) as L. pose proof (mlen_bounds c (yr (fst s)) (mo (fst s))). pose proof (mlen_bounds c y 12).
        assert (mo (fst s) = 12 /\ dy (fst s) <= mlen c y 12 \/ mo (fst s) <= 11) as Q. { destruct (Z.eq_dec (mo (fst s)) 12) as [E12|]; [|lia]. left. rewrite E12 in B2. rewrite L in B2. lia. }
        destruct Sh as [[_ ->]|[_ ->]]; cbn [key mo dy sec d31]; [|lia]. assert (0 <= sec (fst s) / 3600 < 24) by lia. change (86399 / 3600) with 23. lia. }
      assert (Q2 : key f d31 <= last ks k0). { pose proof (CK d31 V31 eq_refl) as Q. rewrite K in Q, SS |- *. pose proof (increasing_last _ _ SS) as R. rewrite Forall_forall in R. specialize (R _ Q). lia. }
      lia. }
    assert (IY : forall t, yr t = y -> (f = Hour \/ f = Day) -> in_year f y t = t). { intros [a b d e] <- H. destruct H as [->| ->]; reflexivity. }
    assert (HD : f = Hour \/ f = Day) by tauto.
    assert (P1 : parse c f y k0 = Ok (pnum c f j1)). { rewrite F1, parse_year, IY by (auto; try lia; rewrite IY; auto). reflexivity. }
    assert (P2 : parse c f y (last ks k0) = Ok (pnum c f d31)). { rewrite F2, parse_year, IY by (auto; try lia; rewrite IY; auto). reflexivity. }
    rewrite P1, P2. cbn [bind]. unfold center. cbv zeta. rewrite map_length.
    set (a := pnum c f j1). set (b := pnum c f d31).
    (* keys of the periods of the year, plus the extra one *)
    assert (YM : forall p, a <= p <= b -> yr (midpoint c f p) = y).
    { intros p Hp. destruct (midpoint_spec c f p) as (M1 & M2 & M3). set (l := midpoint c f p) in *.
      assert (PS : forall q, q < p -> pstart c f (q + 1) <= pstart c f p) by (intros q Hq; destruct (Z.eq_dec (q + 1) p) as [->|]; [lia|]; pose proof (pstart_mono c f (q + 1) p); lia).
      assert (PS' : forall q, p < q -> pstart c f (p + 1) <= pstart c f q) by (intros q Hq; destruct (Z.eq_dec (p + 1) q) as [->|]; [lia|]; pose proof (pstart_mono c f (p + 1) q); lia).
      pose proof (proj1 (period_iff c f l p M1) M3) as I1. pose proof (proj1 (period_iff c f j1 a V1) eq_refl) as I2. pose proof (proj1 (period_iff c f d31 b V31) eq_refl) as I3.
      (* instants of the year *)
      assert (A1 : instant c j1 = 86400 * ystart c y). { unfold instant, j1, tmonth. cbn [yr mo dy sec]. rewrite mstart_year. lia. }
      assert (A2 : instant c d31 = 86400 * ystart c (y + 1) - 1). { unfold instant, d31, tmonth. cbn [yr mo dy sec]. rewrite <- (mstart_year c (y + 1)). replace (mnum (y + 1) 1) with (mnum y 12 + 1) by (unfold mnum; lia). rewrite mstart_next. pose proof (qlen_tmonth c d31 V31) as QL. unfold d31, tmonth in QL. cbn [yr mo] in QL. rewrite QL. lia. }
      assert (B1 : pstart c f a = instant c j1). { destruct HD as [->| ->]; cbn [pstart] in *; unfold a; cbn [pnum]; rewrite A1; lia. }
      assert (B2 : pstart c f (b + 1) = instant c d31 + 1). { destruct HD as [->| ->]; cbn [pstart] in *; unfold b; cbn [pnum]; rewrite A2; lia. }
      assert (I : instant c j1 <= instant c l < instant c d31 + 1). { rewrite <- B1, <- B2. split.
        - destruct (Z.eq_dec p a) as [->|]; [lia|]. pose proof (pstart_mono c f a p ltac:(lia)). lia.
        - destruct (Z.eq_dec p b) as [->|]; [lia|]. pose proof (pstart_mono c f (p + 1) (b + 1) ltac:(lia)). lia. }
      pose proof (pnum_mono c Year j1 l V1 M1 ltac:(lia)) as Y1. pose proof (pnum_mono c Year l d31 M1 V31 ltac:(lia)) as Y2. cbn [pnum] in Y1, Y2. rewrite (proj1 (tmonth_div c _ V1)), (proj1 (tmonth_div c _ M1)) in Y1. rewrite (proj1 (tmonth_div c _ V31)), (proj1 (tmonth_div c _ M1)) in Y2. unfold j1 in Y1. unfold d31 in Y2. cbn [yr] in Y1, Y2. lia. }
    set (ext := key f (fst s9) :: map (fun p => key f (midpoint c f p)) (between a b)).
    assert (ND : NoDup ext).
    { constructor.
      - intros H. apply in_map_iff in H. destruct H as (p & Ep & Hp). apply between_In in Hp. destruct (midpoint_spec c f p) as (M1 & M2 & M3). specialize (YM p Hp). symmetry in Ep. apply (key_same c) in Ep; auto.
        apply N9. destruct (Vs s9 Hs9) as (X1 & X2 & X3). destruct M1 as (X4 & X5 & X6). rewrite YM in X5. destruct HD as [->| ->]; cbn in Ep; rewrite ?andb_true_iff, ?Z.eqb_eq in Ep; unfold valid, in_year; cbn [yr mo dy sec]; repeat split; try lia; destruct Ep as [Ep1 Ep2]; try destruct Ep1 as [Ep1 Ep3]; rewrite <- ?Ep1; lia.
      - pose proof (NoDup_between a b) as NB. assert (HB : forall p, In p (between a b) -> a <= p <= b) by (intros; apply between_In; auto). revert NB HB. generalize (between a b) as l. induction l as [|p l IH]; intros NB HB; cbn; constructor; inversion NB as [|? ? Np NB']; subst.
        + intros H. apply in_map_iff in H. destruct H as (q & Eq & Hq). apply Np. destruct (midpoint_spec c f p) as (M1 & M2 & M3). destruct (midpoint_spec c f q) as (M1' & M2' & M3').
          symmetry in Eq. apply (key_same c) in Eq; auto. assert (SP : same_period f (midpoint c f q) (midpoint c f p) = true). { pose proof (YM p (HB p ltac:(left; auto))) as Y1. pose proof (YM q (HB q ltac:(right; auto))) as Y2. revert Eq Y1 Y2. generalize (midpoint c f p) (midpoint c f q). intros u u' Eq Y1 Y2. destruct HD as [->| ->]; cbn in *; rewrite Y1, Y2, Z.eqb_refl; auto. }
          apply (same_period_pnum c) in SP; auto. rewrite M3, M3' in SP. subst q. auto.
        + apply IH; auto. intros; apply HB; right; auto. }
    assert (IN : incl ext ks).
    { intros k [<-|Hk]; [auto|]. apply in_map_iff in Hk. destruct Hk as (p & <- & Hp). apply between_In in Hp. apply CK; [apply midpoint_spec|auto]. }
    pose proof (NoDup_incl_length ND IN) as LL. unfold ext in LL. cbn [List.length] in LL. rewrite map_length in LL.
    destruct (Nat.eqb_spec (List.length (between a b)) (List.length ks)) as [Q|Q]; [lia|reflexivity].
  Qed.
End KeysApi.
