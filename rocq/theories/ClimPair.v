(** month_to_season and calendar_average by season on the same monthly record. *)
From Coq Require Import Reals List Bool Arith ZArith Lra Lia String.
From Verif Require Import PyBase Num NumFacts ListFacts Calendar CalendarFacts SpecSum SumFacts SpecClim Climat ClimFacts ClimApi ClimLong ClimAnom ClimZero ClimM2S ClimDemo SpecClimPair.
Import ListNotations.
Local Open Scope Z_scope.
Local Notation smp := (list (time * (nat -> fl))).

Lemma filter_key {A} (g : A -> Z) (l : list A) a : NoDup (map g l) -> In a l -> filter (fun x => g x =? g a) l = [a].
Proof.
  induction l as [|b l IH]; intros N H; [destruct H|]. cbn [map] in N. inversion N as [|? ? Nb N']; subst. cbn [filter]. destruct H as [-> | H].
  - rewrite Z.eqb_refl. f_equal. clear -Nb. induction l as [|b l IH]; [reflexivity|]. cbn [filter map] in *. destruct (Z.eqb_spec (g b) (g a)) as [E|E]; [exfalso; apply Nb; left; auto|]. apply IH. intros Q. apply Nb. right. auto.
  - destruct (Z.eqb_spec (g b) (g a)) as [E|E]; [exfalso; apply Nb; rewrite E; apply in_map; auto|]. apply IH; auto.
Qed.
Lemma NoDup_map_filter {A} (g : A -> Z) p (l : list A) : NoDup (map g l) -> NoDup (map g (filter p l)).
Proof.
  induction l as [|b l IH]; intros N; [constructor|]. cbn [map] in N. inversion N as [|? ? Nb N']; subst. cbn [filter]. destruct (p b); [|auto]. cbn [map]. constructor; [|auto].
  intros Q. apply Nb. apply in_map_iff in Q. destruct Q as (x & E & Hx). apply filter_In in Hx. rewrite <- E. apply in_map. tauto.
Qed.
Lemma month_eq t u : same_period Month t u = true -> tmonth t = tmonth u.
Proof. cbn [same_period]. rewrite andb_true_iff, !Z.eqb_eq. intros [A B]. unfold tmonth, mnum. lia. Qed.
Lemma month_sym t u : same_period Month t u = same_period Month u t.
Proof. cbn [same_period]. rewrite (Z.eqb_sym (yr t)), (Z.eqb_sym (mo t)). reflexivity. Qed.

Section Pair.
  Variables (c : cal).
  Variables (xs : smp) (w : nat) (y0 : Z) (n : nat).
  Hypotheses (V : all_valid c xs) (G : no_gaps w xs) (Hw : (0 < w)%nat) (WY : whole_years y0 n xs).
  Lemma valid_in e : In e xs -> valid c (fst e).
  Proof. unfold all_valid in V. rewrite Forall_forall in V. auto. Qed.
  Lemma ND : NoDup (map (fun e : time * (nat -> fl) => tmonth (fst e)) xs).
  Proof. rewrite (proj2 WY). apply NoDup_between. Qed.
  Lemma gaps_tidy : all_tidy w xs.
  Proof. unfold all_tidy, no_gaps in *. revert G. apply Forall_impl. intros s H k Hk. right. apply H. auto. Qed.
  Lemma has_month q : 12 * y0 <= q <= 12 * (y0 + Z.of_nat n) - 1 -> exists e, In e xs /\ tmonth (fst e) = q.
  Proof. intros H. apply between_In in H. rewrite <- (proj2 WY) in H. apply in_map_iff in H. destruct H as (e & A & B). eauto. Qed.
  Lemma complete_at t e : In e xs -> same_period Month t (fst e) = true -> complete Month w xs t.
  Proof. intros He Sp. apply (present_complete Month w xs e He); auto. unfold no_gaps in G. rewrite Forall_forall in G. intros k Hk. apply (G e); auto. Qed.
  Lemma complete_sample t : complete Month w xs t -> exists e, In e xs /\ same_period Month t (fst e) = true.
  Proof.
    intros H. destruct (H 0%nat Hw) as [r E]. unfold mean_present in E. destruct (vals (in_period Month t 0 xs)) as [|v l] eqn:Q; [discriminate|].
    assert (I : In v (vals (in_period Month t 0 xs))) by (rewrite Q; left; auto). unfold vals in I. apply in_flat_map in I. destruct I as (u & I & _). unfold in_period in I. apply in_map_iff in I. destruct I as (e & _ & I). apply filter_In in I. exists e. exact I.
  Qed.
  Lemma month_value e k : In e xs -> (k < w)%nat -> value (mean_present (in_period Month (fst e) k xs)) = value (snd e k).
  Proof.
    intros He Hk. unfold in_period. rewrite (filter_ext_in _ (fun s => tmonth (fst s) =? tmonth (fst e))).
    - rewrite (filter_key (fun s => tmonth (fst s)) xs e ND He). cbn [map]. unfold no_gaps in G. rewrite Forall_forall in G. destruct (G e He k Hk) as [r Er]. rewrite Er. unfold mean_present, vals, avg. cbn. field.
    - intros s Hs. apply eq_true_iff_eq. rewrite Z.eqb_eq, (same_period_pnum c Month) by (apply valid_in; auto). reflexivity.
  Qed.
  (** the season that month_to_season calls l is a season of calendar_average *)
  Lemma season_same l t e : (mo l = 1 \/ mo l = 4 \/ mo l = 7 \/ mo l = 10) -> same_period (Quarter 12) t l = true -> (same_period (Quarter 12) t e = true <-> around l e = true).
  Proof.
    intros Hm. cbn [same_period]. rewrite !Z.eqb_eq. unfold around. rewrite Z.leb_le. unfold tmonth, mnum. intros E. rewrite E.
    destruct Hm as [H | [H | [H | H]]]; rewrite H; (split; intros Q; [lia|apply Z.abs_le in Q; lia]).
  Qed.
  Lemma season_months l t : valid c l -> valid c t -> (mo l = 1 \/ mo l = 4 \/ mo l = 7 \/ mo l = 10) -> same_period (Quarter 12) t l = true ->
    complete_months c (same_period (Quarter 12) t) w xs (map fst (season_of l xs)).
  Proof.
    intros Vl Vt Hm Sp. split.
    - rewrite Forall_map. apply Forall_forall. intros e He. apply filter_In in He. apply valid_in. tauto.
    - rewrite Forall_map. apply Forall_forall. intros e He. apply filter_In in He. destruct He as [He Ae]. split; [apply (season_same l t (fst e) Hm Sp); auto|].
      apply (complete_at (fst e) e He). cbn [same_period]. rewrite !Z.eqb_refl. reflexivity.
    - intros u Vu Su Cu. destruct (complete_sample u Cu) as (e & He & Se). exists (fst e). split; [|rewrite month_sym; auto].
      apply in_map. apply filter_In. split; auto. apply (season_same l t (fst e) Hm Sp). apply (season_same l t u Hm Sp) in Su. apply (season_same l t (fst e) Hm Sp). unfold around in *. rewrite <- (month_eq _ _ Se). exact Su.
    - assert (N : NoDup (map (fun e : time * (nat -> fl) => tmonth (fst e)) (season_of l xs))) by (apply NoDup_map_filter, ND).
      revert N. generalize (season_of l xs). clear. induction l as [|e l IH]; intros N; [constructor|]. cbn [map] in *. inversion N as [|? ? Ne N']; subst. constructor; [|auto].
      rewrite Forall_map. apply Forall_forall. intros u Hu. destruct (same_period Month (fst e) (fst u)) eqn:Q; auto. exfalso. apply Ne. rewrite (month_eq _ _ Q). apply (in_map (fun e : time * (nat -> fl) => tmonth (fst e))). auto.
  Qed.
  Lemma season_nonempty l : y0 <= yr l < y0 + Z.of_nat n -> 1 <= mo l <= 12 -> season_of l xs <> [].
  Proof.
    intros Y B Q. destruct (has_month (tmonth l)) as (e & He & Te); [unfold tmonth, mnum; lia|].
    assert (I : In e (season_of l xs)) by (apply filter_In; split; auto; unfold around; rewrite Te, Z.sub_diag; reflexivity). rewrite Q in I. destruct I.
  Qed.
  Lemma season_by_days l t k : valid c l -> valid c t -> (mo l = 1 \/ mo l = 4 \/ mo l = 7 \/ mo l = 10) -> y0 <= yr l < y0 + Z.of_nat n -> (k < w)%nat -> same_period (Quarter 12) t l = true ->
    forall ms, complete_months c (same_period (Quarter 12) t) w xs ms -> by_days c k xs ms = Fin (wavg (day_values c k (season_of l xs))).
  Proof.
    intros Vl Vt Hm Y Hk Sp ms C. rewrite (by_days_unique c _ w xs ms _ k C (season_months l t Vl Vt Hm Sp)).
    - pose proof (season_nonempty l Y (proj1 Vl)) as NE. unfold by_days, day_values.
      assert (E : map (fun t => (IZR (days c t), value (mean_present (in_period Month t k xs)))) (map fst (season_of l xs)) = map (fun e => (IZR (days c (fst e)), value (snd e k))) (season_of l xs)).
      { rewrite map_map. apply map_ext_in. intros e He. apply filter_In in He. rewrite month_value by tauto. reflexivity. }
      rewrite E. destruct (season_of l xs); [contradiction|]. reflexivity.
    - intros a b Va Vb Q. cbn [same_period] in *. rewrite andb_true_iff, !Z.eqb_eq in Q. destruct Q as [-> ->]. reflexivity.
  Qed.
  Lemma season_mean l k : y0 <= yr l < y0 + Z.of_nat n -> 1 <= mo l <= 12 -> (k < w)%nat -> mean_present (map (fun e => snd e k) (season_of l xs)) = Fin (avg (plain_values k (season_of l xs))).
  Proof.
    intros Y B Hk. pose proof (season_nonempty l Y B) as NE.
    assert (E : vals (map (fun e : time * (nat -> fl) => snd e k) (season_of l xs)) = plain_values k (season_of l xs)).
    { assert (F : forall e, In e (season_of l xs) -> exists r, snd e k = Fin r) by (intros e He; apply filter_In in He; unfold no_gaps in G; rewrite Forall_forall in G; apply (G e); tauto).
      revert F. generalize (season_of l xs). clear. induction l as [|e l IH]; intros F; [reflexivity|]. cbn. destruct (F e (or_introl eq_refl)) as [r ->]. cbn [app value]. f_equal. apply IH. intros; apply F; right; auto. }
    unfold mean_present. rewrite E. unfold plain_values. destruct (season_of l xs); [contradiction|]. reflexivity.
  Qed.
  (** the months of a season *)
  Lemma season_list l : (mo l = 1 \/ mo l = 4 \/ mo l = 7 \/ mo l = 10) -> y0 <= yr l < y0 + Z.of_nat n ->
    map (fun e => tmonth (fst e)) (season_of l xs) = if tmonth l =? 12 * y0 then [tmonth l; tmonth l + 1] else [tmonth l - 1; tmonth l; tmonth l + 1].
  Proof.
    clear c w V G Hw. intros Hm Y. assert (B : 12 * y0 <= tmonth l <= 12 * (y0 + Z.of_nat n) - 1 /\ tmonth l + 1 <= 12 * (y0 + Z.of_nat n) - 1) by (unfold tmonth, mnum; lia).
    unfold season_of, around.
    assert (F : forall (ys : smp) q, map (fun e => tmonth (fst e)) (filter (fun e => Z.abs (tmonth (fst e) - q) <=? 1) ys) = filter (fun p => Z.abs (p - q) <=? 1) (map (fun e => tmonth (fst e)) ys)).
    { induction ys as [|e ys IH]; intros q; [reflexivity|]. cbn [filter map]. destruct (Z.abs (tmonth (fst e) - q) <=? 1); cbn [map]; rewrite IH; reflexivity. }
    rewrite F, (proj2 WY). set (q := tmonth l) in *. set (hi := 12 * (y0 + Z.of_nat n) - 1) in *.
    assert (N : forall a b, (forall p, a <= p <= b -> 1 < Z.abs (p - q)) -> filter (fun p => Z.abs (p - q) <=? 1) (between a b) = []).
    { intros a b H. apply filter_none. intros p Hp. apply between_In in Hp. apply Z.leb_gt. apply H. auto. }
    destruct (Z.eqb_spec q (12 * y0)) as [E|E].
    - rewrite <- E. rewrite (between_cons q) by lia. rewrite (between_cons (q + 1)) by lia. cbn [filter].
      rewrite (N (q + 1 + 1)) by (intros; lia). destruct (Z.leb_spec (Z.abs (q - q)) 1); [|lia]. destruct (Z.leb_spec (Z.abs (q + 1 - q)) 1); [|lia]. reflexivity.
    - rewrite (between_split (12 * y0) (q - 1)) by (unfold q, tmonth, mnum in *; lia). rewrite filter_app, (N (12 * y0)) by (intros; lia). cbn [app].
      rewrite (between_cons (q - 1)) by lia. rewrite (between_cons (q - 1 + 1)) by lia. rewrite (between_cons (q - 1 + 1 + 1)) by lia. cbn [filter].
      rewrite (N (q - 1 + 1 + 1 + 1)) by (intros; lia). destruct (Z.leb_spec (Z.abs (q - 1 - q)) 1); [|lia]. destruct (Z.leb_spec (Z.abs (q - 1 + 1 - q)) 1); [|lia]. destruct (Z.leb_spec (Z.abs (q - 1 + 1 + 1 - q)) 1); [|lia].
      replace (q - 1 + 1) with q by lia. reflexivity.
  Qed.
End Pair.
