(** Sample records for the examples, and yearly anomalies of records longer than a century. *)
From Coq Require Import Reals List Bool Arith ZArith Lra Lia String Ascii Permutation Sorted.
From Verif Require Import PyBase Num NumFacts SumFacts ArrFacts Calendar CalendarFacts SpecClim Climat ClimFacts ClimApi ClimLong ClimKeys ClimKeysApi ClimSeason ClimM2S ClimAnom ClimMore.
Import ListNotations.
Local Open Scope Z_scope.
Local Notation smp := (list (time * (nat -> fl))).

(** a value in a period makes it complete *)
Lemma present_complete f w (xs : smp) s : In s xs -> (forall k, (k < w)%nat -> exists r, snd s k = Fin r) -> forall t, same_period f t (fst s) = true -> complete f w xs t.
Proof.
  intros Hs H t Sp k Hk. destruct (H k Hk) as [r Er]. unfold mean_present. destruct (vals (in_period f t k xs)) eqn:EV; [exfalso|eauto].
  assert (Q : In r (vals (in_period f t k xs))). { unfold vals. apply in_flat_map. exists (Fin r). split; [|left; auto]. unfold in_period. apply in_map_iff. exists s. split; auto. apply filter_In. auto. } rewrite EV in Q. destruct Q.
Qed.

Section Century.
  Variables (c : cal) (infer_freq : list time -> bool) (empty_exc : exc).
  Local Notation CN := (climate_anomaly c infer_freq empty_exc).
  Lemma filter_mod_two lo hi y : lo <= y <= hi -> 100 <= hi - lo < 200 -> 
    rsum (map (fun _ => 1%R) (filter (fun p => p mod 100 =? y mod 100) (between lo hi))) = if (y + 100 <=? hi) || (lo + 100 <=? y) then 2%R else 1%R.
  Proof.
    intros H L. assert (Q : forall a b, (forall p, a <= p <= b -> p mod 100 = y mod 100 -> p = y) -> a <= y <= b -> filter (fun p => p mod 100 =? y mod 100) (between a b) = [y]).
    { intros a b U I. rewrite (filter_ext_in _ (fun p => p =? y)); [apply filter_one; [apply NoDup_between|apply between_In; auto]|]. intros p Hp. apply between_In in Hp. apply eq_true_iff_eq. rewrite !Z.eqb_eq. split; [apply U; auto|congruence]. }
    assert (Q' : forall a b z, z mod 100 = y mod 100 -> (forall p, a <= p <= b -> p mod 100 = y mod 100 -> p = z) -> a <= z <= b -> filter (fun p => p mod 100 =? y mod 100) (between a b) = [z]).
    { intros a b z E U I. rewrite (filter_ext_in _ (fun p => p =? z)); [apply filter_one; [apply NoDup_between|apply between_In; auto]|]. intros p Hp. apply between_In in Hp. apply eq_true_iff_eq. rewrite !Z.eqb_eq. split; [apply U; auto|congruence]. }
    destruct (Z.leb_spec (y + 100) hi) as [A|A]; [|destruct (Z.leb_spec (lo + 100) y) as [B|B]]; cbn [orb].
    - rewrite (between_split lo (y + 100) hi) by lia. rewrite filter_app. rewrite (Q lo), (Q' _ hi (y + 100)) by lia. cbn. lra.
    - rewrite (between_split lo y hi) by lia. rewrite filter_app. rewrite (Q y hi), (Q' lo _ (y - 100)) by lia. cbn. lra.
    - rewrite Q by lia. cbn. lra.
  Qed.
  Lemma rsum_const {A} (l : list A) r : rsum (map (fun _ => r) l) = (r * rsum (map (fun _ => 1) l))%R.
  Proof. induction l as [|a l IH]; [cbn; ring|]. unfold rsum in *. cbn. rewrite IH. ring. Qed.
  (** constant monthly data r over 101 to 200 years: the anomaly is -r, not 0, in every year that has another one 100 years away *)
  Lemma anom_century x td y0 n r : all_valid c (samples (inp x)) -> (0 < width (inp x))%nat -> (exists n, n <> EmptyString /\ time_info x td = Ok n) -> check_uniform c infer_freq (map fst (samples (inp x))) = Ok tt ->
    let xs : smp := samples (inp x) in let w := width (inp x) in
    whole_years y0 n xs -> (100 < n <= 200)%nat -> Forall (fun s => forall k, (k < w)%nat -> snd s k = Fin r) xs ->
    exists out, CN x "year" td = Ok out /\
      Forall2 (fun s o => fst o = fst s /\ forall k, (k < w)%nat -> snd o k = if (yr (fst s) + 100 <? y0 + Z.of_nat n) || (y0 + 100 <=? yr (fst s)) then Fin (- r) else Fin 0) xs out.
  Proof.
    intros V Hw (nm & Nn & Et) Eu xs w WY Hn Cst. fold xs w in V, Hw.
    assert (Ti : all_tidy w xs). { unfold all_tidy. rewrite Forall_forall in Cst |- *. intros s Hs k Hk. right. exists r. apply Cst; auto. }
    assert (Vs : forall s, In s xs -> valid c (fst s)) by (unfold all_valid in V; rewrite Forall_forall in V; auto).
    assert (CV : forall s, In s xs -> complete Month w xs (fst s)). { intros s Hs. apply (present_complete Month w xs s Hs); [intros k Hk; exists r; rewrite Forall_forall in Cst; apply Cst; auto|]. cbn [same_period]. rewrite !Z.eqb_refl. reflexivity. }
    assert (SQ : forall q, 12 * y0 <= q <= 12 * (y0 + Z.of_nat n) - 1 <-> exists s, In s xs /\ tmonth (fst s) = q).
    { intros q. rewrite <- between_In. destruct WY as [_ <-]. rewrite in_map_iff. split; intros (s & A & B); exists s; auto. }
    assert (SY : forall s, In s xs -> y0 <= yr (fst s) < y0 + Z.of_nat n). { intros s Hs. assert (Q : 12 * y0 <= tmonth (fst s) <= 12 * (y0 + Z.of_nat n) - 1) by (apply SQ; eauto). destruct (tmonth_div c (fst s) (Vs s Hs)) as [<- _]. lia. }
    assert (SV : forall q, In q (surv c w xs) <-> 12 * y0 <= q <= 12 * (y0 + Z.of_nat n) - 1).
    { intros q. rewrite SQ. split.
      - intros Hq. unfold surv in Hq. apply filter_In in Hq. destruct Hq as [_ G]. destruct (good_sample c Month w xs q Hw V G) as (s & Hs & Es). exists s. auto.
      - intros (s & Hs & <-). apply (In_surv c w xs (fst s)); auto. }
    destruct (calavg_long_eq c infer_freq x "year" Year td nm (or_intror (conj eq_refl eq_refl)) Et Eu) as [_ C]. fold xs w in C.
    assert (NS : surv c w xs <> []) by (intros Q; assert (H := proj2 (SV (12 * y0)) ltac:(lia)); rewrite Q in H; destruct H).
    destruct (C NS) as (lo & hi & Hlh & B & E). clear C.
    assert (WF : map fst (W c Year w xs) = map (fun q => date_of c (pstart c Month q)) (surv c w xs)) by (unfold W; rewrite map_map; reflexivity).
    assert (YQ : forall q, pnum c Year (date_of c (pstart c Month q)) = q / 12). { intros q. cbn [pnum]. rewrite (proj2 (D_spec c q)). reflexivity. }
    destruct (bins_spec c Year (map fst (W c Year w xs))) as (lo' & hi' & B1 & B2 & (t1 & Ht1 & P1) & (t2 & Ht2 & P2)). { rewrite WF. destruct (surv c w xs); [contradiction|discriminate]. }
    assert (EQ : lo' = lo /\ hi' = hi).
    { rewrite B in B1. assert (lo' <= hi') by (pose proof (B2 t1 Ht1); lia). assert (L1 := f_equal (fun l => nth 0 l 0) B1). assert (L2 := f_equal (@List.length Z) B1). cbv beta in L1. rewrite !nth_between in L1 by lia. rewrite !between_length in L2. lia. }
    destruct EQ as [-> ->]. rewrite WF in Ht1, Ht2, B2. apply in_map_iff in Ht1, Ht2. destruct Ht1 as (q1 & <- & Hq1). destruct Ht2 as (q2 & <- & Hq2). rewrite YQ in P1, P2. apply SV in Hq1, Hq2.
    assert (LO : lo = y0). { pose proof (B2 _ (in_map (fun q => date_of c (pstart c Month q)) _ _ (proj2 (SV (12 * y0)) ltac:(lia)))) as Q. rewrite YQ in Q. lia. }
    assert (HI : hi = y0 + Z.of_nat n - 1). { pose proof (B2 _ (in_map (fun q => date_of c (pstart c Month q)) _ _ (proj2 (SV (12 * (y0 + Z.of_nat n) - 1)) ltac:(lia)))) as Q. rewrite YQ in Q. lia. }
    clear B B1 B2 P1 P2.
    assert (ML : forall p, yr (midpoint c Year p) = p). { intros p. destruct (midpoint_spec c Year p) as (M1 & _ & M3). cbn [pnum] in M3. rewrite <- M3 at 2. symmetry. apply (tmonth_div c); auto. }
    assert (SM : forall p k, (k < w)%nat -> lo <= p <= hi -> sum_of (members c Year p (W c Year w xs)) k = Fin r).
    { intros p k Hk Hp. rewrite (sum_months c infer_freq Year w xs p k Hw V Ti Hk).
      pose proof (months_of_period c Year w xs (midpoint c Year p) I Hw V Ti (proj1 (midpoint_spec c Year p))) as CM. assert (PM : pnum c Year (midpoint c Year p) = p) by apply midpoint_spec. rewrite PM in CM.
      assert (NE : In (12 * p) (filter (fun q => pnum c Year (date_of c (pstart c Month q)) =? p) (surv c w xs))). { apply filter_In. split; [apply SV; lia|]. rewrite YQ. apply Z.eqb_eq. lia. }
      set (ms := map (fun q => date_of c (pstart c Month q)) (filter (fun q => pnum c Year (date_of c (pstart c Month q)) =? p) (surv c w xs))) in *.
      assert (BW : within r r (by_days c k xs ms)). { eapply by_days_within; eauto. rewrite Forall_forall in Cst |- *. intros s Hs. right. exists r. rewrite (Cst s Hs k Hk). split; auto; lra. }
      destruct BW as [BW|(r' & BW & Hr)].
      - exfalso. unfold by_days in BW. destruct ms eqn:Em; [|discriminate]. apply (in_map (fun q => date_of c (pstart c Month q))) in NE. fold ms in NE. rewrite Em in NE. destruct NE.
      - rewrite BW. f_equal. lra. }
    destruct (anom_year c infer_freq empty_exc x td V Ti Hw (ex_intro _ nm (conj Nn Et)) _ E) as [_ AN]. fold w in AN. change (samples (inp x)) with xs in AN.
    destruct AN as (out & EO & F). { intros s Hs. exists (midpoint c Year (yr (fst s)), sum_of (members c Year (yr (fst s)) (W c Year w xs))). split; [|cbn [fst]; rewrite ML; auto]. apply (in_map (fun p => (midpoint c Year p, sum_of (members c Year p (W c Year w xs))))). apply between_In. pose proof (SY s Hs) as Q. unfold frame in *. lia. }
    exists out. split; auto. revert F. apply Forall2_weaken. intros s o Hs [F1 F2]. split; auto. intros k Hk. rewrite (F2 k Hk).
    rewrite Forall_forall in Cst. rewrite (Cst s Hs k Hk). rewrite filter_map_swap. cbn [fst]. rewrite (filter_ext _ (fun p => p mod 100 =? yr (fst s) mod 100)) by (intros p; rewrite ML; reflexivity).
    rewrite map_map. cbn [snd]. rewrite (map_ext_in _ (fun _ => r)). 2:{ intros p Hp. apply filter_In in Hp. destruct Hp as [Hp _]. apply between_In in Hp. rewrite SM; auto. }
    pose proof (SY s Hs). rewrite rsum_const, filter_mod_two by lia. rewrite LO, HI.
    replace (yr (fst s) + 100 <=? y0 + Z.of_nat n - 1) with (yr (fst s) + 100 <? y0 + Z.of_nat n) by (apply eq_true_iff_eq; rewrite Z.ltb_lt, Z.leb_le; lia).
    destruct ((yr (fst s) + 100 <? y0 + Z.of_nat n) || (y0 + 100 <=? yr (fst s))); cbn [minus]; f_equal; ring.
  Qed.
End Century.

(** ** monthly records: one value on the first of every month of n years *)
Definition first_of (q : Z) : time := mkTime (q / 12) (q mod 12 + 1) 1 0.
Definition monthly (y0 : Z) (n : nat) (v : Z -> nat -> fl) : smp := map (fun q => (first_of q, v q)) (between (12 * y0) (12 * (y0 + Z.of_nat n) - 1)).
Lemma first_valid c q : valid c (first_of q).
Proof. unfold valid, first_of. cbn [yr mo dy sec]. pose proof (mlen_bounds c (q / 12) (q mod 12 + 1)). lia. Qed.
Lemma first_month q : tmonth (first_of q) = q.
Proof. unfold tmonth, mnum, first_of. cbn [yr mo]. lia. Qed.
Lemma monthly_valid c y0 n v : all_valid c (monthly y0 n v).
Proof. unfold all_valid, monthly. rewrite Forall_map. apply Forall_forall. intros. apply first_valid. Qed.
Lemma monthly_tidy w y0 n v : (forall q k, tidy (v q k)) -> all_tidy w (monthly y0 n v).
Proof. intros H. unfold all_tidy, monthly. rewrite Forall_map. apply Forall_forall. intros q _ k _. apply H. Qed.
Lemma monthly_whole y0 n v : (0 < n)%nat -> whole_years y0 n (monthly y0 n v).
Proof. intros H. split; auto. unfold monthly. rewrite map_map. cbn [fst]. rewrite (map_ext _ (fun q => q)) by (intros; apply first_month). apply map_id. Qed.
Lemma monthly_In y0 n v q : 12 * y0 <= q <= 12 * (y0 + Z.of_nat n) - 1 -> In (first_of q, v q) (monthly y0 n v).
Proof. intros H. apply (in_map (fun q => (first_of q, v q))). apply between_In. auto. Qed.
Lemma monthly_inv y0 n v s : In s (monthly y0 n v) -> exists q, 12 * y0 <= q <= 12 * (y0 + Z.of_nat n) - 1 /\ s = (first_of q, v q).
Proof. unfold monthly. intros H. apply in_map_iff in H. destruct H as (q & <- & H). apply between_In in H. eauto. Qed.
(** a DataArray of w elements with a time axis called time; infer_freq finds a frequency *)
Definition as_input (w : nat) (xs : smp) : input fl := mkIn (mkSer w xs) (fun n => if String.eqb n "time" then Some true else None) (Some "time"%string).
Definition regular : list time -> bool := fun _ => true.
Lemma as_input_accepted c w xs td : (3 <= List.length xs)%nat -> td = None \/ td = Some "time"%string -> accepted c regular (as_input w xs) td.
Proof.
  intros L H. split.
  - exists "time"%string. destruct H as [-> | ->]; reflexivity.
  - unfold check_uniform. cbn [inp as_input samples]. unfold frame in *. rewrite map_length. assert (Q : Nat.ltb (List.length xs) 3 = false) by (apply Nat.ltb_ge; auto). rewrite Q. reflexivity.
Qed.
Lemma monthly_length y0 n v : List.length (monthly y0 n v) = (12 * n)%nat.
Proof. unfold monthly. rewrite map_length, between_length. lia. Qed.
Lemma monthly_complete c w y0 n v t : (forall q k, exists r, v q k = Fin r) -> valid c t -> 12 * y0 <= tmonth t <= 12 * (y0 + Z.of_nat n) - 1 -> complete Month w (monthly y0 n v) t.
Proof.
  intros H V B. apply (present_complete Month w _ (first_of (tmonth t), v (tmonth t))); [apply monthly_In; auto|intros k _; apply H|]. cbn [fst]. apply (same_period_pnum c Month); auto; [apply first_valid|]. cbn [pnum]. apply first_month.
Qed.
(** ** daily records *)
Definition daily (c : cal) (d0 d1 : Z) (v : Z -> nat -> fl) : smp := map (fun d => (date_of c (86400 * d), v d)) (between d0 d1).
Lemma daily_valid c d0 d1 v : all_valid c (daily c d0 d1 v).
Proof. unfold all_valid, daily. rewrite Forall_map. apply Forall_forall. intros. apply date_of_spec. Qed.
Lemma daily_year c y v : forall s, In s (daily c (ystart c y) (ystart c (y + 1) - 1) v) -> yr (fst s) = y.
Proof.
  intros s Hs. unfold daily in Hs. apply in_map_iff in Hs. destruct Hs as (d & <- & Hd). apply between_In in Hd. cbn [fst]. destruct (date_of_spec c (86400 * d)) as [V I].
  assert (Q : pnum c Year (date_of c (86400 * d)) = y). { apply period_iff; auto. rewrite I. cbn [pstart pmonth]. pose proof (mstart_year c y) as M1. pose proof (mstart_year c (y + 1)) as M2. unfold mnum in *. replace (12 * y + (1 - 1)) with (12 * y) in M1 by lia. replace (12 * (y + 1) + (1 - 1)) with (12 * (y + 1)) in M2 by lia. rewrite M1, M2. lia. }
  rewrite <- Q. symmetry. apply (tmonth_div c). auto.
Qed.
