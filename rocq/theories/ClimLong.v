(** calendar_average for seasons and years. *)
From Coq Require Import Reals List Bool Arith ZArith Lra Lia String FinFun.
From Verif Require Import PyBase Num NumFacts SumFacts Calendar CalendarFacts SpecClim Climat ClimFacts ClimApi.
Import ListNotations.
Local Open Scope Z_scope.

Lemma nansum_fins l : nansum (map Fin l) = Fin (rsum l).
Proof. unfold nansum. rewrite map_map. cbn [isnan NumFl fl_isnan]. apply nsum_fin. Qed.
Lemma zsum_rsum l : IZR (zsum l) = rsum (map IZR l).
Proof.
  unfold zsum. assert (Q : forall a, IZR (fold_left Z.add l a) = (IZR a + rsum (map IZR l))%R).
  { induction l as [|x l IH]; intros a; cbn [fold_left map rsum fold_right]; [rewrite Rplus_0_r; reflexivity|]. rewrite IH, plus_IZR. change (rsum (IZR x :: map IZR l)) with (IZR x + rsum (map IZR l))%R. ring. }
  rewrite Q. ring.
Qed.
Lemma rsum_pos l : l <> [] -> Forall (fun r => 0 < r)%R l -> (0 < rsum l)%R.
Proof.
  intros H F. destruct l as [|a l]; [contradiction|]. inversion F as [|? ? Ha Hl]; subst. change (rsum (a :: l)) with (a + rsum l)%R.
  assert (0 <= rsum l)%R; [|lra]. clear -Hl. induction Hl as [|x l Hx Hl IH]; [apply Rle_refl|]. change (rsum (x :: l)) with (x + rsum l)%R. lra.
Qed.
(** the weighted sum, once the weights are normalised *)
Lemma weighted_sum (A : Type) (v : A -> R) (n : A -> Z) l : l <> [] -> (forall a, In a l -> 0 < n a) ->
  nansum (map (fun a => (Fin (v a) * (ofZ (n a) / ofZ (zsum (map n l))))%num) l) = Fin (wavg (map (fun a => (IZR (n a), v a)) l)).
Proof.
  intros H P. set (S := zsum (map n l)). assert (HS : (0 < IZR S)%R).
  { unfold S. rewrite zsum_rsum, map_map. apply rsum_pos; [destruct l; [contradiction|discriminate]|]. apply Forall_forall. intros r Hr. apply in_map_iff in Hr. destruct Hr as (a & <- & Ha). apply IZR_lt. auto. }
  rewrite (map_ext_in _ (fun a => Fin (v a * (IZR (n a) / IZR S))%R)).
  - rewrite <- (map_map (fun a => (v a * (IZR (n a) / IZR S))%R) Fin), nansum_fins. f_equal. unfold wavg. rewrite !map_map. cbn [fst snd].
    assert (E : rsum (map (fun a => IZR (n a)) l) = IZR S) by (unfold S; rewrite zsum_rsum, map_map; reflexivity). rewrite E.
    unfold Rdiv at 2. rewrite Rmult_comm, <- rsum_scal. apply rsum_ext. intros a _. field. lra.
  - intros a Ha. flsimpl. change (@ndiv fl NumFl) with fl_div. rewrite fdiv_fin by lra. reflexivity.
Qed.

Section Long.
  Variables (c : cal) (infer_freq : list time -> bool) (empty_exc : exc).
  Local Notation CA := (calendar_average c infer_freq).
  Local Notation smp := (list (time * frame fl)).

  Definition long (freq : string) (f : per) : Prop := (freq = "season" /\ f = Quarter 12 \/ freq = "year" /\ f = Year)%string.
  Local Notation D q := (date_of c (pstart c Month q)).
  Lemma D_spec q : valid c (D q) /\ tmonth (D q) = q.
  Proof. destruct (start_pnum c Month q) as [E V]. split; auto. Qed.
  Lemma month_length_D q : month_length c (D q) = qlen c q.
  Proof. destruct (D_spec q) as [V E]. unfold month_length. rewrite <- (qlen_tmonth c _ V), E. reflexivity. Qed.

  Lemma filter_map_swap {A B} (g : B -> bool) (h : A -> B) l : filter g (map h l) = map h (filter (fun a => g (h a)) l).
  Proof. induction l as [|a l IH]; [reflexivity|]. cbn. destruct (g (h a)); cbn; rewrite IH; reflexivity. Qed.
  Lemma members_D f p (W : Z -> frame fl) l : members c f p (map (fun q => (D q, W q)) l) = map (fun q => (D q, W q)) (filter (fun q => pnum c f (D q) =? p) l).
  Proof.
    rewrite members_pnum.
    - rewrite filter_map_swap. reflexivity.
    - apply Forall_forall. intros s Hs. apply in_map_iff in Hs. destruct Hs as (q & <- & _). apply D_spec.
  Qed.
  Definition total (f : per) (l : list Z) (p : Z) : Z := zsum (map (qlen c) (filter (fun q => pnum c f (D q) =? p) l)).
  Lemma weighted_D f (M : Z -> frame fl) l : weighted c f (map (fun q => (D q, M q)) l) =
    map (fun q => (D q, fun k => (M q k * (ofZ (qlen c q) / ofZ (total f l (pnum c f (D q)))))%num)) l.
  Proof.
    unfold weighted. rewrite map_map. apply map_ext. intros q. cbn [fst snd]. f_equal. rewrite members_D, !map_map. cbn [fst].
    rewrite (map_ext _ (qlen c)) by (intros; apply month_length_D). rewrite month_length_D. reflexivity.
  Qed.
  Definition surv (w : nat) (xs : smp) : list Z := filter (good c Month w xs) (bins c Month (map fst xs)).
  Definition W (f : per) (w : nat) (xs : smp) : smp :=
    map (fun q => (D q, fun k => (mean_of (members c Month q xs) k * (ofZ (qlen c q) / ofZ (total f (surv w xs) (pnum c f (D q)))))%num)) (surv w xs).
  Lemma calavg_long_eq x freq f td n : long freq f -> time_info x td = Ok n -> check_uniform c infer_freq (map fst (samples (inp x))) = Ok tt ->
    let xs := samples (inp x) in let w := width (inp x) in
    (surv w xs = [] -> CA x freq td = Err IndexError) /\
    (surv w xs <> [] -> exists lo hi, lo <= hi /\ bins c f (map fst (W f w xs)) = between lo hi /\
       CA x freq td = Ok (map (fun p => (midpoint c f p, sum_of (members c f p (W f w xs)))) (between lo hi))).
  Proof.
    intros S Ti U xs w.
    assert (E : CA x freq td = match resampled c sum_of f (W f w xs) with [] => Err IndexError | s :: _ => center c f (pnum c f (fst s)) (pnum c f (fst (last (resampled c sum_of f (W f w xs)) s))) (map snd (resampled c sum_of f (W f w xs))) end).
    { unfold calendar_average. rewrite Ti, U. cbn [bind].
      assert (E : cal_freq freq = Some f /\ (String.eqb freq "season" || String.eqb freq "year") = true) by (destruct S as [[-> ->]|[-> ->]]; split; reflexivity).
      destruct E as [E1 E2]. rewrite E1, E2. cbn [oget bind]. cbv zeta. fold xs w. rewrite dropna_resampled. fold (surv w xs). rewrite weighted_D. reflexivity. }
    split.
    - intros H. rewrite E. unfold W. rewrite H. reflexivity.
    - intros H. destruct (bins_spec c f (map fst (W f w xs))) as (lo & hi & B1 & B2 & (t & Ht & E1) & _). { unfold W. destruct (surv w xs); [contradiction|discriminate]. }
      exists lo, hi. pose proof (B2 t Ht). split; [lia|]. split; auto. rewrite E. unfold resampled. rewrite B1. set (G := fun p => (date_of c (pstart c f p), sum_of (members c f p (W f w xs)))).
      rewrite (between_cons lo hi) by lia. change (map G (lo :: between (lo + 1) hi)) with (G lo :: map G (between (lo + 1) hi)) at 1. cbv iota beta. rewrite (last_map G).
      rewrite <- (between_cons lo hi) by lia. assert (L : last (between lo hi) lo = hi). { rewrite between_snoc by lia. apply last_last. } rewrite L. unfold G at 1 2. cbn [fst].
      rewrite !(proj1 (start_pnum c f _)). rewrite map_map. unfold G. cbn [snd].
      rewrite (center_surv c f (fun _ => true) (fun p => sum_of (members c f p (W f w xs)))).
      + replace (forallb (fun _ => true) (between lo hi)) with true; auto. symmetry. apply forallb_forall. auto.
      + symmetry. apply filter_id. auto.
  Qed.
  Lemma NoDup_between lo hi : NoDup (between lo hi).
  Proof. unfold between, zrange. apply FinFun.Injective_map_NoDup; [intros a b; lia|apply seq_NoDup]. Qed.
  Lemma NoDup_surv w xs : NoDup (surv w xs).
  Proof. unfold surv. destruct (bins_range c Month (map fst xs)) as (lo & hi & ->). apply NoDup_filter, NoDup_between. Qed.
  Lemma In_surv w xs t : (0 < w)%nat -> all_valid c xs -> all_tidy w xs -> valid c t -> In (tmonth t) (surv w xs) <-> complete Month w xs t.
  Proof.
    intros Hw V Ti Vt. rewrite <- (good_complete c Month) by auto. unfold surv. rewrite filter_In. cbn [pnum]. split; [tauto|]. intros G. split; auto.
    destruct (good_sample c Month w xs _ Hw V G) as (s & Hs & E). cbn [pnum] in E. rewrite <- E. apply (bins_all c Month). auto.
  Qed.
  Lemma pnum_month f t u : match f with Hour | Day => False | _ => True end -> tmonth t = tmonth u -> pnum c f t = pnum c f u.
  Proof. destruct f; cbn [pnum]; intros H E; try tauto; rewrite E; reflexivity. Qed.
  Lemma sum_months f w xs p k : (0 < w)%nat -> all_valid c xs -> all_tidy w xs -> (k < w)%nat ->
    let ms := map (fun q => D q) (filter (fun q => pnum c f (D q) =? p) (surv w xs)) in
    sum_of (members c f p (W f w xs)) k = by_days c k xs ms.
  Proof.
    intros Hw V Ti Hk ms. unfold W. rewrite members_D. unfold ms. destruct (filter (fun q => pnum c f (D q) =? p) (surv w xs)) as [|q0 l0] eqn:F; [reflexivity|].
    rewrite <- F. assert (NE : filter (fun q => pnum c f (D q) =? p) (surv w xs) <> []) by (rewrite F; discriminate). clear F. set (l := filter (fun q => pnum c f (D q) =? p) (surv w xs)) in *.
    unfold sum_of, by_days. destruct (map (fun q => D q) l) eqn:F1; [destruct l; [contradiction|discriminate]|]. rewrite <- F1.
    match goal with |- (match map ?g l with [] => _ | _ => _ end) = _ => destruct (map g l) eqn:F2; [destruct l; [contradiction|discriminate]|]; rewrite <- F2 end.
    rewrite !map_map. cbn [snd]. set (v := fun q => value (mean_present (in_period Month (D q) k xs))).
    rewrite (map_ext_in _ (fun q => (Fin (v q) * (ofZ (qlen c q) / ofZ (zsum (map (qlen c) l))))%num)).
    - rewrite weighted_sum; auto; [|intros q _; pose proof (qlen_bounds c q); lia]. f_equal. f_equal. apply map_ext. intros q. unfold v, days. f_equal. f_equal. symmetry. apply month_length_D.
    - intros q Hq. unfold l in Hq. apply filter_In in Hq. destruct Hq as [Hq Ep]. rewrite Z.eqb_eq in Ep. rewrite Ep. fold l. f_equal.
      destruct (D_spec q) as [VD ED]. assert (Q : complete Month w xs (D q)) by (apply In_surv; auto; rewrite ED; auto). destruct (Q k Hk) as [r Er]. unfold v. rewrite Er. cbn [value].
      rewrite <- Er, <- (mean_of_present c Month _ w) by auto. cbn [pnum]. rewrite ED. reflexivity.
  Qed.
  Lemma months_of_period f w xs l : match f with Hour | Day => False | _ => True end -> (0 < w)%nat -> all_valid c xs -> all_tidy w xs -> valid c l ->
    complete_months c (same_period f l) w xs (map (fun q => D q) (filter (fun q => pnum c f (D q) =? pnum c f l) (surv w xs))).
  Proof.
    intros Hf Hw V Ti Vl. split.
    - apply Forall_forall. intros t Ht. apply in_map_iff in Ht. destruct Ht as (q & <- & _). apply D_spec.
    - apply Forall_forall. intros t Ht. apply in_map_iff in Ht. destruct Ht as (q & <- & Hq). apply filter_In in Hq. destruct Hq as [Hq E]. rewrite Z.eqb_eq in E. destruct (D_spec q) as [VD ED]. split.
      + apply (same_period_pnum c); auto.
      + apply In_surv; auto. rewrite ED. auto.
    - intros t Vt Sp Ct. destruct (D_spec (tmonth t)) as [VD ED]. exists (D (tmonth t)). split.
      + apply in_map_iff. exists (tmonth t). split; auto. apply filter_In. split; [apply In_surv; auto|]. apply Z.eqb_eq. rewrite (pnum_month f (D (tmonth t)) t); auto. apply (same_period_pnum c); auto.
      + apply (same_period_pnum c); auto.
    - pose proof (NoDup_filter (fun q => pnum c f (D q) =? pnum c f l) (NoDup_surv w xs)) as ND. induction ND as [|q l' Nq ND IH]; cbn [map]; constructor; auto.
      apply Forall_forall. intros t Ht. apply in_map_iff in Ht. destruct Ht as (q' & <- & Hq'). destruct (D_spec q) as [V1 E1]. destruct (D_spec q') as [V2 E2].
      destruct (same_period Month (D q) (D q')) eqn:S; auto. exfalso. apply (same_period_pnum c) in S; auto. cbn [pnum] in S. apply Nq. rewrite <- E1, <- S, E2. auto.
  Qed.
  Lemma calavg_long x freq f td out : long freq f -> all_valid c (samples (inp x)) -> all_tidy (width (inp x)) (samples (inp x)) -> (0 < width (inp x))%nat ->
    CA x freq td = Ok out ->
    let xs := samples (inp x) in let w := width (inp x) in
    Forall (fun e => centred c f (fst e) /\ exists ms, complete_months c (same_period f (fst e)) w xs ms /\ forall k, (k < w)%nat -> snd e k = by_days c k xs ms) out /\
    (forall j d, (S j < List.length out)%nat -> adjacent c f (fst (nth j out d)) (fst (nth (S j) out d))) /\
    (forall t, valid c t -> complete Month w xs t -> exists j, (j < List.length out)%nat /\ forall d, same_period f (fst (nth j out d)) t = true) /\
    (forall t i j d, valid c t -> (i < List.length out)%nat -> (j < List.length out)%nat -> same_period f (fst (nth i out d)) t = true -> same_period f (fst (nth j out d)) t = true -> i = j) /\
    (out <> [] /\ forall d, exists t u, valid c t /\ complete Month w xs t /\ same_period f (fst (nth 0 out d)) t = true /\
                                     valid c u /\ complete Month w xs u /\ same_period f (fst (last out d)) u = true).
  Proof.
    intros Lg V Ti Hw E xs w.
    assert (E' := E). unfold calendar_average in E'. destruct (oget ValueError (cal_freq freq)) as [f0|] eqn:Ef0; [|discriminate]. cbn [bind] in E'. destruct (time_info x td) as [n|] eqn:Et; [|discriminate]. cbn [bind] in E'.
    destruct (check_uniform c infer_freq (map fst (samples (inp x)))) as [[]|] eqn:Eu; [|discriminate]. clear E'.
    destruct (calavg_long_eq x freq f td n Lg Et Eu) as [E1 E2]. fold xs w in E1, E2, V, Ti, Hw.
    destruct (surv w xs) as [|q0 l0] eqn:F; [rewrite E1 in E by auto; discriminate|]. rewrite <- F in *. destruct E2 as (lo & hi & Hlh & B & E2); [rewrite F; discriminate|]. rewrite E2 in E. injection E as <-. clear E1 E2.
    assert (Hf : match f with Hour | Day => False | _ => True end) by (destruct Lg as [[_ ->]|[_ ->]]; exact I).
    assert (Nth : forall j d, (j < List.length (between lo hi))%nat -> nth j (map (fun p => (midpoint c f p, sum_of (members c f p (W f w xs)))) (between lo hi)) d = (midpoint c f (lo + Z.of_nat j), sum_of (members c f (lo + Z.of_nat j) (W f w xs)))).
    { intros j d Hj. set (g := fun p => (midpoint c f p, sum_of (members c f p (W f w xs)))). rewrite (nth_indep _ d (g 0)) by (rewrite map_length; auto). rewrite map_nth, nth_between by (rewrite <- between_length; auto). reflexivity. }
    assert (WF : map fst (W f w xs) = map (fun q => D q) (surv w xs)) by (unfold W; rewrite map_map; reflexivity).
    destruct (bins_spec c f (map fst (W f w xs))) as (lo' & hi' & B1 & B2 & (t1 & Ht1 & P1) & (t2 & Ht2 & P2)). { rewrite WF, F. discriminate. }
    assert (lo' = lo /\ hi' = hi) as [-> ->].
    { rewrite B in B1. assert (lo' <= hi') by (pose proof (B2 t1 Ht1); lia). assert (L1 := f_equal (fun l => nth 0 l 0) B1). assert (L2 := f_equal (@List.length Z) B1). cbv beta in L1. rewrite !nth_between in L1 by lia. rewrite !between_length in L2. lia. }
    rewrite WF in Ht1, Ht2, B2. apply in_map_iff in Ht1, Ht2. destruct Ht1 as (q1 & <- & Hq1). destruct Ht2 as (q2 & <- & Hq2).
    split; [|split; [|split; [|split]]].
    - apply Forall_forall. intros e He. apply in_map_iff in He. destruct He as (p & <- & Hp). cbn [fst snd]. destruct (midpoint_spec c f p) as (M1 & M2 & M3). split.
      + split; auto. eexists _, _. split; [apply bounds_pstart; auto|]. rewrite M3. auto.
      + eexists. split; [apply months_of_period; auto|]. intros k Hk. rewrite M3. apply sum_months; auto.
    - intros j d Hj. rewrite map_length in Hj. rewrite !Nth by lia. cbn [fst].
      destruct (midpoint_spec c f (lo + Z.of_nat j)) as (M1 & M2 & M3). destruct (midpoint_spec c f (lo + Z.of_nat (S j))) as (M1' & M2' & M3').
      exists (pstart c f (lo + Z.of_nat j)), (pstart c f (lo + Z.of_nat (S j))), (pstart c f (lo + Z.of_nat (S j) + 1)). split.
      + rewrite <- M3 at 2. replace (lo + Z.of_nat (S j)) with (pnum c f (midpoint c f (lo + Z.of_nat j)) + 1) by lia. apply bounds_pstart; auto.
      + rewrite <- M3' at 2 3. apply bounds_pstart; auto.
    - intros t Vt Ct. apply In_surv in Ct; auto. destruct (D_spec (tmonth t)) as [VD ED].
      assert (R : lo <= pnum c f t <= hi). { rewrite <- (pnum_month f (D (tmonth t)) t) by auto. apply B2. apply (in_map (fun q => D q)). auto. }
      exists (Z.to_nat (pnum c f t - lo)). rewrite map_length, between_length. split; [lia|].
      intros d. rewrite Nth by (rewrite between_length; lia). cbn [fst]. destruct (midpoint_spec c f (lo + Z.of_nat (Z.to_nat (pnum c f t - lo)))) as (M1 & M2 & M3). apply (same_period_pnum c); auto. rewrite M3. lia.
    - intros t i j d Vt Hi Hj Ei Ej. rewrite map_length in Hi, Hj. rewrite Nth in Ei, Ej by auto. cbn [fst] in Ei, Ej.
      destruct (midpoint_spec c f (lo + Z.of_nat i)) as (M1 & M2 & M3). destruct (midpoint_spec c f (lo + Z.of_nat j)) as (M1' & M2' & M3').
      apply (same_period_pnum c) in Ei; auto. apply (same_period_pnum c) in Ej; auto. lia.
    - split. { rewrite between_cons by lia. discriminate. }
      intros d. exists (D q1), (D q2). destruct (D_spec q1) as [V1 E1]. destruct (D_spec q2) as [V2 E2]. destruct (midpoint_spec c f lo) as (M1 & M2 & M3). destruct (midpoint_spec c f hi) as (M1' & M2' & M3').
      split; [auto|split; [|split; [|split; [auto|split]]]].
      + apply In_surv; auto. rewrite E1. auto.
      + rewrite Nth by (rewrite between_length; lia). cbn [fst]. rewrite Z.add_0_r. apply (same_period_pnum c); auto. rewrite M3. auto.
      + apply In_surv; auto. rewrite E2. auto.
      + rewrite between_snoc, map_app by lia. cbn [map]. rewrite last_last. cbn [fst]. apply (same_period_pnum c); auto. rewrite M3'. auto.
  Qed.
  Lemma calavg_long_outcome x freq f td : long freq f -> all_valid c (samples (inp x)) -> all_tidy (width (inp x)) (samples (inp x)) -> (0 < width (inp x))%nat -> accepted c infer_freq x td ->
    let xs := samples (inp x) in let w := width (inp x) in
    ((forall s, In s xs -> ~ complete Month w xs (fst s)) -> CA x freq td = Err IndexError) /\
    (forall s, In s xs -> complete Month w xs (fst s) -> exists out, CA x freq td = Ok out).
  Proof.
    intros Lg V Ti Hw ((n & Et) & Eu) xs w. destruct (calavg_long_eq x freq f td n Lg Et Eu) as [E1 E2]. fold xs w in E1, E2, V, Ti, Hw.
    assert (Vs : forall s, In s xs -> valid c (fst s)) by (unfold all_valid in V; rewrite Forall_forall in V; auto). split.
    - intros H. apply E1. destruct (surv w xs) as [|q l] eqn:F; auto. exfalso. assert (Hq : In q (surv w xs)) by (rewrite F; left; auto). unfold surv in Hq. apply filter_In in Hq. destruct Hq as [_ G].
      destruct (good_sample c Month w xs q Hw V G) as (s & Hs & E). apply (H s Hs). apply (proj1 (good_complete c Month w xs (fst s) V Ti (Vs s Hs))). rewrite E. auto.
    - intros s Hs Cs. destruct E2 as (lo & hi & _ & _ & E). { intros F. apply In_surv in Cs; auto. rewrite F in Cs. destruct Cs. } eauto.
  Qed.
End Long.

(** a weighted average of equal values is that value, and lies between bounds of its values *)
Lemma wavg_const l v : l <> [] -> Forall (fun p => 0 < fst p)%R l -> Forall (fun p => snd p = v) l -> wavg l = v.
Proof.
  intros H P E. unfold wavg. assert (Q : (0 < rsum (map fst l))%R) by (apply rsum_pos; [destruct l; [contradiction|discriminate]|]; rewrite Forall_map; auto).
  rewrite (map_ext_in _ (fun p => v * fst p)%R). - rewrite rsum_scal. field. lra. - intros p Hp. rewrite Forall_forall in E. rewrite (E p Hp). ring.
Qed.
Lemma wavg_range l a b : l <> [] -> Forall (fun p => 0 < fst p)%R l -> Forall (fun p => a <= snd p <= b)%R l -> (a <= wavg l <= b)%R.
Proof.
  intros H P E. unfold wavg. assert (Q : (0 < rsum (map fst l))%R) by (apply rsum_pos; [destruct l; [contradiction|discriminate]|]; rewrite Forall_map; auto).
  assert (R : (a * rsum (map fst l) <= rsum (map (fun p => fst p * snd p) l) <= b * rsum (map fst l))%R).
  { clear H Q. induction l as [|p l IH]; [cbn; lra|]. inversion P as [|? ? P1 P2]; subst. inversion E as [|? ? E1 E2]; subst. specialize (IH P2 E2). cbn [map].
    change (rsum (fst p :: map fst l)) with (fst p + rsum (map fst l))%R. change (rsum (fst p * snd p :: map (fun p => fst p * snd p) l))%R with (fst p * snd p + rsum (map (fun p => fst p * snd p) l))%R.
    assert (fst p * a <= fst p * snd p <= fst p * b)%R by (split; apply Rmult_le_compat_l; lra). lra. }
  set (A := rsum (map (fun p => fst p * snd p)%R l)) in *. set (B := rsum (map fst l)) in *.
  split; apply (Rmult_le_reg_r B); auto; replace (A / B * B)%R with A by (field; lra); lra.
Qed.
