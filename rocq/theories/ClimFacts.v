(** Facts about resampling and grouping. *)
From Coq Require Import Reals List Bool Arith ZArith Lra Lia String.
From Verif Require Import PyBase Num NumFacts Calendar CalendarFacts SpecClim Climat.
Import ListNotations.
Local Open Scope Z_scope.

(** ** the mean of the values present *)
Lemma nanmean_present l : Forall tidy l -> nanmean l = mean_present l.
Proof.
  intros H. unfold nanmean, mean_present. assert (E : filter (fun x => negb (isnan x)) l = map Fin (vals l)).
  { induction l as [|v l IH]; [reflexivity|]. inversion H as [|? ? Hv Hl]; subst. cbn [filter vals flat_map]. destruct Hv as [->|[r ->]]; cbn [isnan NumFl fl_isnan negb app map]; [|f_equal]; apply IH; auto. }
  rewrite E. destruct (vals l) as [|r rs]; [reflexivity|]. cbn [map]. change (Fin r :: map Fin rs) with (map Fin (r :: rs)). rewrite nsum_fin, map_length.
  change (@ndiv fl NumFl) with fl_div. change (ofZ (Z.of_nat (List.length (r :: rs)))) with (Fin (IZR (Z.of_nat (List.length (r :: rs))))). rewrite <- INR_IZR_INZ, fdiv_fin.
  - reflexivity.
  - apply not_0_INR. discriminate.
Qed.
Lemma mean_present_notnan l v : mean_present l = Fin v -> vals l <> [].
Proof. unfold mean_present. destruct (vals l); [discriminate|]. intros _ E. discriminate. Qed.

(** ** periods by fields and by number *)
Lemma same_period_pnum c f t u : valid c t -> valid c u -> same_period f t u = true <-> pnum c f u = pnum c f t.
Proof.
  intros V V'. destruct f; cbn [same_period pnum].
  - rewrite !andb_true_iff, !Z.eqb_eq. split.
    + intros (((H1 & H2) & H3) & H4). unfold instant, tmonth. rewrite H1, H2, H3. lia.
    + intros E. assert (D : instant c u / 86400 = instant c t / 86400) by lia.
      assert (Q : tmonth u = tmonth t) by (apply (mstart_between c _ _ (instant c u / 86400)); [apply day_in_month; auto|rewrite D; apply day_in_month; auto]).
      destruct (tmonth_div c t V) as [A B]. destruct (tmonth_div c u V') as [A' B']. destruct V as (_ & _ & S). destruct V' as (_ & _ & S'). unfold instant in D, E. rewrite Q in *. lia.
  - rewrite !andb_true_iff, !Z.eqb_eq. split.
    + intros ((H1 & H2) & H3). destruct V as (_ & _ & S). destruct V' as (_ & _ & S'). unfold instant, tmonth. rewrite H1, H2, H3. lia.
    + intros D. assert (Q : tmonth u = tmonth t) by (apply (mstart_between c _ _ (instant c u / 86400)); [apply day_in_month; auto|rewrite D; apply day_in_month; auto]).
      destruct (tmonth_div c t V) as [A B]. destruct (tmonth_div c u V') as [A' B']. destruct V as (_ & _ & S). destruct V' as (_ & _ & S'). unfold instant in D. rewrite Q in *. lia.
  - rewrite andb_true_iff, !Z.eqb_eq. destruct V as (V & _). destruct V' as (V' & _). unfold tmonth, mnum. lia.
  - rewrite Z.eqb_eq. unfold tmonth, mnum. replace (12 * yr t + (mo t - 1) - (anchor - 1)) with (12 * yr t + mo t - anchor) by lia. replace (12 * yr u + (mo u - 1) - (anchor - 1)) with (12 * yr u + mo u - anchor) by lia. split; congruence.
  - rewrite Z.eqb_eq. destruct (tmonth_div c t V) as [-> _]. destruct (tmonth_div c u V') as [-> _]. split; congruence.
Qed.
Lemma bounds_pstart c f t : valid c t -> bounds c f t (pstart c f (pnum c f t)) (pstart c f (pnum c f t + 1)).
Proof. intros V u Vu. rewrite (same_period_pnum c f t u V Vu). apply period_iff. auto. Qed.
(** bounds determine *)
Lemma start_pnum c f p : pnum c f (date_of c (pstart c f p)) = p /\ valid c (date_of c (pstart c f p)).
Proof. destruct (date_of_spec c (pstart c f p)) as [V E]. split; auto. apply period_iff; auto. rewrite E. pose proof (pstart_lt c f p). lia. Qed.
Lemma midpoint_spec c f p : valid c (midpoint c f p) /\ 2 * instant c (midpoint c f p) = pstart c f p + pstart c f (p + 1) /\ pnum c f (midpoint c f p) = p.
Proof.
  unfold midpoint. destruct (date_of_spec c ((pstart c f p + pstart c f (p + 1)) / 2)) as [V E]. pose proof (pstart_even c f p). pose proof (pstart_lt c f p).
  split; auto. split; [rewrite E; lia|]. apply period_iff; auto. rewrite E. lia.
Qed.

(** ** integer ranges *)
Lemma zrange_In lo n z : In z (zrange lo n) <-> lo <= z < lo + Z.of_nat n.
Proof.
  unfold zrange. rewrite in_map_iff. split.
  - intros (i & <- & H). apply in_seq in H. lia.
  - intros H. exists (Z.to_nat (z - lo)). split; [lia|]. apply in_seq. lia.
Qed.
Lemma between_In lo hi z : In z (between lo hi) <-> lo <= z <= hi.
Proof. unfold between. rewrite zrange_In. lia. Qed.
Lemma between_length lo hi : List.length (between lo hi) = Z.to_nat (hi - lo + 1).
Proof. unfold between, zrange. rewrite map_length, seq_length. auto. Qed.
Lemma zrange_S lo n : zrange lo (S n) = lo :: zrange (lo + 1) n.
Proof.
  unfold zrange. cbn [seq map]. f_equal; [lia|]. rewrite <- seq_shift, map_map. apply map_ext. intros. lia.
Qed.
Lemma between_cons lo hi : lo <= hi -> between lo hi = lo :: between (lo + 1) hi.
Proof. intros H. unfold between. replace (Z.to_nat (hi - lo + 1)) with (S (Z.to_nat (hi - (lo + 1) + 1))) by lia. apply zrange_S. Qed.
Lemma between_nil lo hi : hi < lo -> between lo hi = [].
Proof. intros H. unfold between. replace (Z.to_nat (hi - lo + 1)) with 0%nat by lia. reflexivity. Qed.
Lemma between_snoc lo hi : lo <= hi -> between lo hi = between lo (hi - 1) ++ [hi].
Proof.
  intros H. unfold between, zrange. replace (Z.to_nat (hi - lo + 1)) with (S (Z.to_nat (hi - 1 - lo + 1))) by lia. rewrite seq_S, map_app. cbn [map]. f_equal. f_equal. lia.
Qed.
Lemma between_split lo a hi : lo <= a <= hi + 1 -> between lo hi = between lo (a - 1) ++ between a hi.
Proof.
  intros H. remember (Z.to_nat (a - lo)) as n eqn:E. revert lo H E. induction n as [|n IH]; intros lo H E.
  - replace lo with a by lia. rewrite (between_nil a (a - 1)) by lia. reflexivity.
  - rewrite (between_cons lo hi), (between_cons lo (a - 1)) by lia. cbn [app]. f_equal. apply IH; lia.
Qed.
Lemma nth_between lo hi j d : (j < Z.to_nat (hi - lo + 1))%nat -> nth j (between lo hi) d = lo + Z.of_nat j.
Proof.
  intros H. unfold between, zrange. rewrite (nth_indep _ d (lo + Z.of_nat 0)) by (rewrite map_length, seq_length; auto).
  rewrite (map_nth (fun i => lo + Z.of_nat i)), seq_nth by auto. lia.
Qed.
Lemma filter_none {A} (g : A -> bool) l : (forall x, In x l -> g x = false) -> filter g l = [].
Proof. induction l as [|a l IH]; cbn; intros H; auto. rewrite (H a) by (left; auto). apply IH. intros; apply H; right; auto. Qed.
Lemma filter_full {A} (g : A -> bool) l : List.length (filter g l) = List.length l -> forall x, In x l -> g x = true.
Proof.
  induction l as [|a l IH]; cbn; intros H x Hx; [destruct Hx|]. assert (Q : (List.length (filter g l) <= List.length l)%nat) by (clear; induction l; cbn; auto; destruct (g a); cbn; lia).
  destruct (g a) eqn:E; cbn in H; [|lia]. destruct Hx as [->|Hx]; auto.
Qed.
Lemma filter_id {A} (g : A -> bool) l : (forall x, In x l -> g x = true) -> filter g l = l.
Proof. induction l as [|a l IH]; cbn; intros H; auto. rewrite (H a) by (left; auto). f_equal. apply IH. intros; apply H; right; auto. Qed.
(** survivors of a range, cut to their own range *)
Lemma filter_cut (g : Z -> bool) lo hi a r : filter g (between lo hi) = a :: r ->
  let b := last (a :: r) a in filter g (between a b) = a :: r /\ lo <= a <= b /\ b <= hi /\ g a = true /\ g b = true.
Proof.
  intros E b. assert (Ha : In a (filter g (between lo hi))) by (rewrite E; left; auto).
  assert (Hb : In b (filter g (between lo hi))). { rewrite E. unfold b. clear. destruct (exists_last (l := a :: r) ltac:(discriminate)) as (l & x & ->). rewrite last_last. apply in_app_iff. right; left; auto. }
  apply filter_In in Ha. apply filter_In in Hb. destruct Ha as [Ha Ga]. destruct Hb as [Hb Gb]. apply between_In in Ha. apply between_In in Hb.
  assert (Fa : forall z, lo <= z < a -> g z = false).
  { intros z Hz. destruct (g z) eqn:Gz; auto. exfalso.
    rewrite (between_split lo a hi) in E by lia. rewrite filter_app in E. assert (Hin : In z (filter g (between lo (a - 1)))) by (apply filter_In; split; auto; apply between_In; lia).
    destruct (filter g (between lo (a - 1))) as [|z' l] eqn:F; [destruct Hin|]. cbn in E. injection E as -> _. assert (Hq : In a (filter g (between lo (a - 1)))) by (rewrite F; left; auto). apply filter_In in Hq. destruct Hq as [Hq _]. apply between_In in Hq. lia. }
  assert (Fb : forall z, b < z <= hi -> g z = false).
  { intros z Hz. destruct (g z) eqn:Gz; auto. exfalso.
    rewrite (between_split lo (b + 1) hi) in E by lia. rewrite filter_app in E. assert (Hin : In z (filter g (between (b + 1) hi))) by (apply filter_In; split; auto; apply between_In; lia).
    destruct (exists_last (l := filter g (between (b + 1) hi))) as (l & x & F). { intros Q. rewrite Q in Hin. destruct Hin. }
    rewrite F, app_assoc in E. assert (Eb : b = x). { unfold b. rewrite <- E. apply last_last. }
    assert (Hq : In x (filter g (between (b + 1) hi))) by (rewrite F; apply in_app_iff; right; left; auto). apply filter_In in Hq. destruct Hq as [Hq _]. apply between_In in Hq. lia. }
  assert (Hab : a <= b). { destruct (Z_le_gt_dec a b); auto. specialize (Fb a ltac:(lia)). congruence. }
  split; [|auto with zarith].
  rewrite (between_split lo a hi) in E by lia. rewrite filter_app, (filter_none g (between lo (a - 1))) in E by (intros z Hz; apply between_In in Hz; apply Fa; lia). cbn [app] in E.
  rewrite (between_split a (b + 1) hi) in E by lia. rewrite filter_app, (filter_none g (between (b + 1) hi)), app_nil_r in E by (intros z Hz; apply between_In in Hz; apply Fb; lia).
  replace (b + 1 - 1) with b in E by lia. auto.
Qed.
(** ** bins *)
Lemma fold_min l a : fold_left Z.min l a <= a /\ (forall z, In z l -> fold_left Z.min l a <= z) /\ (fold_left Z.min l a = a \/ In (fold_left Z.min l a) l).
Proof.
  revert a. induction l as [|x l IH]; intros a; cbn; [intuition lia|]. destruct (IH (Z.min a x)) as (H1 & H2 & H3). split; [lia|]. split.
  - intros z [->|Hz]; [lia|auto].
  - destruct H3 as [H3|H3]; auto. rewrite H3. destruct (Z.min_spec a x) as [[_ ->]|[_ ->]]; auto.
Qed.
Lemma fold_max l a : a <= fold_left Z.max l a /\ (forall z, In z l -> z <= fold_left Z.max l a) /\ (fold_left Z.max l a = a \/ In (fold_left Z.max l a) l).
Proof.
  revert a. induction l as [|x l IH]; intros a; cbn; [intuition lia|]. destruct (IH (Z.max a x)) as (H1 & H2 & H3). split; [lia|]. split.
  - intros z [->|Hz]; [lia|auto].
  - destruct H3 as [H3|H3]; auto. rewrite H3. destruct (Z.max_spec a x) as [[_ ->]|[_ ->]]; auto.
Qed.
Lemma bins_spec c f ts : ts <> [] -> exists lo hi, bins c f ts = between lo hi /\ (forall t, In t ts -> lo <= pnum c f t <= hi) /\ (exists t, In t ts /\ pnum c f t = lo) /\ (exists t, In t ts /\ pnum c f t = hi).
Proof.
  intros H. unfold bins. destruct ts as [|t ts]; [contradiction|]. cbn [map]. eexists _, _. split; [reflexivity|].
  destruct (fold_min (map (pnum c f) ts) (pnum c f t)) as (A1 & A2 & A3). destruct (fold_max (map (pnum c f) ts) (pnum c f t)) as (B1 & B2 & B3). split; [|split].
  - intros u [->|Hu]; [lia|]. specialize (A2 _ (in_map _ _ _ Hu)). specialize (B2 _ (in_map _ _ _ Hu)). lia.
  - destruct A3 as [-> |A3]; [exists t; split; auto; left; auto|]. apply in_map_iff in A3. destruct A3 as (u & E & Hu). exists u. split; auto. right; auto.
  - destruct B3 as [-> |B3]; [exists t; split; auto; left; auto|]. apply in_map_iff in B3. destruct B3 as (u & E & Hu). exists u. split; auto. right; auto.
Qed.
Lemma members_same {T} c f p t (xs : list (time * frame T)) : Forall (fun s => valid c (fst s)) xs -> valid c t -> pnum c f t = p ->
  members c f p xs = filter (fun s => same_period f t (fst s)) xs.
Proof.
  intros V Vt E. unfold members. apply filter_ext_in. intros s Hs. rewrite Forall_forall in V. specialize (V s Hs).
  apply eq_true_iff_eq. rewrite andb_true_iff, Z.leb_le, Z.ltb_lt, (same_period_pnum c f t _ Vt V), E. symmetry. apply period_iff. auto.
Qed.
Lemma members_pnum {T} c f p (xs : list (time * frame T)) : Forall (fun s => valid c (fst s)) xs -> members c f p xs = filter (fun s => pnum c f (fst s) =? p) xs.
Proof.
  intros V. unfold members. apply filter_ext_in. intros s Hs. rewrite Forall_forall in V. specialize (V s Hs).
  apply eq_true_iff_eq. rewrite andb_true_iff, Z.leb_le, Z.ltb_lt, Z.eqb_eq. symmetry. apply period_iff. auto.
Qed.
