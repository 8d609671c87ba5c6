(** calendar_average. *)
From Coq Require Import Reals List Bool Arith ZArith Lra Lia String.
From Verif Require Import PyBase Num NumFacts Calendar CalendarFacts SpecClim Climat ClimFacts.
Import ListNotations.
Local Open Scope Z_scope.

Section Api.
  Variables (c : cal) (infer_freq : list time -> bool) (empty_exc : exc).
  Local Notation CA := (calendar_average c infer_freq).
  Local Notation smp := (list (time * frame fl)).

  Lemma mean_of_present f t w xs k : all_valid c xs -> all_tidy w xs -> valid c t -> (k < w)%nat ->
    mean_of (members c f (pnum c f t) xs) k = mean_present (in_period f t k xs).
  Proof.
    intros V Ti Vt Hk. unfold mean_of. rewrite (members_same c f _ t xs V Vt eq_refl). apply nanmean_present.
    unfold all_tidy in Ti. rewrite Forall_forall in Ti. apply Forall_forall. intros v Hv. apply in_map_iff in Hv. destruct Hv as (s & <- & Hs). apply filter_In in Hs. apply Ti; tauto.
  Qed.
  Definition good (f : per) (w : nat) (xs : smp) (p : Z) : bool := forallb (fun k => negb (isnan (mean_of (members c f p xs) k))) (seq 0 w).
  Lemma good_complete f w xs t : all_valid c xs -> all_tidy w xs -> valid c t -> good f w xs (pnum c f t) = true <-> complete f w xs t.
  Proof.
    intros V Ti Vt. unfold good, complete. rewrite forallb_forall. split.
    - intros H k Hk. specialize (H k ltac:(apply in_seq; lia)). rewrite (mean_of_present f t w) in H by auto. unfold mean_present in *. destruct (vals _); [discriminate|eauto].
    - intros H k Hk. apply in_seq in Hk. destruct (H k ltac:(lia)) as [r E]. rewrite (mean_of_present f t w), E by (auto; lia). reflexivity.
  Qed.
  Lemma dropna_resampled f w xs : dropna w (resampled c mean_of f xs) = map (fun p => (date_of c (pstart c f p), mean_of (members c f p xs))) (filter (good f w xs) (bins c f (map fst xs))).
  Proof. unfold dropna, resampled. induction (bins c f (map fst xs)) as [|p l IH]; [reflexivity|]. cbn [map filter]. cbn [snd]. fold (good f w xs p). destruct (good f w xs p); cbn [map]; rewrite IH; reflexivity. Qed.
  Lemma last_map {A B} (g : A -> B) l a : last (map g (a :: l)) (g a) = g (last (a :: l) a).
  Proof.
    destruct (exists_last (l := a :: l) ltac:(discriminate)) as (l' & x & ->). rewrite map_app. cbn [map]. rewrite !last_last. reflexivity.
  Qed.
  Lemma combine_map {A B C} (g : A -> B) (h : A -> C) l : combine (map g l) (map h l) = map (fun a => (g a, h a)) l.
  Proof. induction l; cbn; f_equal; auto. Qed.
  Lemma center_surv f (g : Z -> bool) (A : Z -> frame fl) a b l : l = filter g (between a b) ->
    center c f a b (map A l) = if forallb g (between a b) then Ok (map (fun p => (midpoint c f p, A p)) (between a b)) else Err ValueError.
  Proof.
    intros E. unfold center. cbv zeta. rewrite map_length, E.
    destruct (forallb g (between a b)) eqn:F.
    - rewrite forallb_forall in F. rewrite (filter_id g) by auto. rewrite Nat.eqb_refl. cbn [negb]. rewrite combine_map. reflexivity.
    - destruct (Nat.eqb_spec (List.length (between a b)) (List.length (filter g (between a b)))) as [Q|Q]; [|reflexivity].
      exfalso. assert (forallb g (between a b) = true); [|congruence]. apply forallb_forall. apply filter_full. auto.
  Qed.

  (** *** hours, days, months *)
  Definition short (freq : string) (f : per) : Prop := (freq = "hour" /\ f = Hour \/ freq = "day" /\ f = Day \/ freq = "month" /\ f = Month)%string.
  Lemma calavg_short_eq x freq f td n : short freq f -> time_info x td = Ok n -> check_uniform c infer_freq (map fst (samples (inp x))) = Ok tt ->
    let xs := samples (inp x) in let w := width (inp x) in
    CA x freq td = match filter (good f w xs) (bins c f (map fst xs)) with
                   | [] => Err IndexError
                   | a :: r => if forallb (good f w xs) (between a (last (a :: r) a)) then Ok (map (fun p => (midpoint c f p, mean_of (members c f p xs))) (between a (last (a :: r) a))) else Err ValueError
                   end.
  Proof.
    intros S Ti U xs w. unfold calendar_average. rewrite Ti, U. cbn [bind].
    assert (E : cal_freq freq = Some f /\ (String.eqb freq "season" || String.eqb freq "year") = false) by (destruct S as [[-> ->]|[[-> ->]|[-> ->]]]; split; reflexivity).
    destruct E as [E1 E2]. rewrite E1, E2. cbn [oget bind]. cbv zeta. fold xs w. rewrite dropna_resampled.
    destruct (filter (good f w xs) (bins c f (map fst xs))) as [|a r] eqn:F; [reflexivity|]. set (G := fun p => (date_of c (pstart c f p), mean_of (members c f p xs))).
    change (map G (a :: r)) with (G a :: map G r) at 1. cbv iota beta. rewrite (last_map G). unfold G at 1 2. cbn [fst].
    rewrite !(proj1 (start_pnum c f _)). rewrite map_map. unfold G. cbn [snd].
    apply (center_surv f (good f w xs) (fun p => mean_of (members c f p xs))).
    assert (Hb : exists lo hi, bins c f (map fst xs) = between lo hi). { unfold bins. destruct (map (pnum c f) (map fst xs)); eauto. exists 1, 0. reflexivity. }
    destruct Hb as (lo & hi & Hb). rewrite Hb in F. symmetry. apply (filter_cut _ lo hi). auto.
  Qed.
  Definition entry_ok (f : per) (w : nat) (xs : smp) (l : time) (fr : frame fl) : Prop :=
    centred c f l /\
    forall k, (k < w)%nat -> fr k = mean_present (in_period f l k xs) /\ exists r, fr k = Fin r.
  Lemma calavg_short x freq f td out : short freq f -> all_valid c (samples (inp x)) -> all_tidy (width (inp x)) (samples (inp x)) ->
    CA x freq td = Ok out ->
    let xs := samples (inp x) in let w := width (inp x) in
    Forall (fun e => entry_ok f w xs (fst e) (snd e)) out /\
    (forall j d, (S j < List.length out)%nat -> adjacent c f (fst (nth j out d)) (fst (nth (S j) out d))) /\
    (forall s, In s xs -> (complete f w xs (fst s) <-> exists j, (j < List.length out)%nat /\ forall d, same_period f (fst (nth j out d)) (fst s) = true)) /\
    (forall s i j d, In s xs -> (i < List.length out)%nat -> (j < List.length out)%nat -> same_period f (fst (nth i out d)) (fst s) = true -> same_period f (fst (nth j out d)) (fst s) = true -> i = j).
  Proof.
    intros Sh V Ti E xs w.
    assert (E' := E). unfold calendar_average in E'. destruct (oget ValueError (cal_freq freq)) as [f0|] eqn:Ef0; [|discriminate]. cbn [bind] in E'. destruct (time_info x td) as [n|] eqn:Et; [|discriminate]. cbn [bind] in E'.
    destruct (check_uniform c infer_freq (map fst (samples (inp x)))) as [[]|] eqn:Eu; [|discriminate]. clear E'.
    rewrite (calavg_short_eq x freq f td n Sh Et Eu) in E. fold xs w in E, V, Ti.
    destruct (filter (good f w xs) (bins c f (map fst xs))) as [|a r] eqn:F; [discriminate|]. set (b := last (a :: r) a) in *.
    destruct (forallb (good f w xs) (between a b)) eqn:G; [|discriminate]. injection E as <-. rewrite forallb_forall in G.
    assert (Nth : forall j d, (j < List.length (between a b))%nat -> nth j (map (fun p => (midpoint c f p, mean_of (members c f p xs))) (between a b)) d = (midpoint c f (a + Z.of_nat j), mean_of (members c f (a + Z.of_nat j) xs))).
    { intros j d Hj. set (g := fun p => (midpoint c f p, mean_of (members c f p xs))). rewrite (nth_indep _ d (g 0)) by (rewrite map_length; auto). rewrite map_nth, nth_between by (rewrite <- between_length; auto). reflexivity. }
    assert (Hcut : exists lo hi, bins c f (map fst xs) = between lo hi). { unfold bins. destruct (map (pnum c f) (map fst xs)); eauto. exists 1, 0. reflexivity. }
    destruct Hcut as (lo & hi & Hb). rewrite Hb in F. destruct (filter_cut _ lo hi a r F) as (Fab & Hlo & Hhi & _). fold b in Fab, Hlo, Hhi.
    split; [|split; [|split]].
    - apply Forall_forall. intros e He. apply in_map_iff in He. destruct He as (p & <- & Hp). cbn [fst snd]. destruct (midpoint_spec c f p) as (M1 & M2 & M3). split.
      + split; auto. eexists _, _. split; [apply bounds_pstart; auto|]. rewrite M3. auto.
      + intros k Hk. assert (Q0 : mean_of (members c f p xs) k = mean_present (in_period f (midpoint c f p) k xs)) by (rewrite <- (mean_of_present f _ w) by auto; rewrite M3; reflexivity). rewrite Q0. split; [reflexivity|].
        assert (Q : complete f w xs (midpoint c f p)) by (apply good_complete; auto; rewrite M3; auto). apply (Q k Hk).
    - intros j d Hj. rewrite map_length in Hj. rewrite !Nth by lia. cbn [fst].
      destruct (midpoint_spec c f (a + Z.of_nat j)) as (M1 & M2 & M3). destruct (midpoint_spec c f (a + Z.of_nat (S j))) as (M1' & M2' & M3').
      exists (pstart c f (a + Z.of_nat j)), (pstart c f (a + Z.of_nat (S j))), (pstart c f (a + Z.of_nat (S j) + 1)). split.
      + rewrite <- M3 at 2. replace (a + Z.of_nat (S j)) with (pnum c f (midpoint c f (a + Z.of_nat j)) + 1) by lia. apply bounds_pstart; auto.
      + rewrite <- M3' at 2 3. apply bounds_pstart; auto.
    - intros s Hs. assert (Vs : valid c (fst s)) by (unfold all_valid in V; rewrite Forall_forall in V; auto). rewrite <- good_complete by auto. split.
      + intros Gs. assert (Hin : In (pnum c f (fst s)) (between a b)).
        { assert (Q : In (pnum c f (fst s)) (filter (good f w xs) (between lo hi))).
          { apply filter_In. split; auto. rewrite <- Hb. destruct (bins_spec c f (map fst xs)) as (lo' & hi' & B1 & B2 & _). { intros Q. destruct xs; [destruct Hs|discriminate]. }
            rewrite B1. apply between_In. apply B2. apply in_map. auto. }
          rewrite F, <- Fab in Q. apply filter_In in Q. tauto. }
        apply between_In in Hin. exists (Z.to_nat (pnum c f (fst s) - a)). rewrite map_length, between_length. split; [lia|].
        intros d. rewrite Nth by (rewrite between_length; lia). cbn [fst]. destruct (midpoint_spec c f (a + Z.of_nat (Z.to_nat (pnum c f (fst s) - a)))) as (M1 & M2 & M3). apply (same_period_pnum c); auto. rewrite M3. lia.
      + intros (j & Hj & Hs'). rewrite map_length in Hj. specialize (Hs' (fst s, fun _ => NaN)). rewrite Nth in Hs' by auto. cbn [fst] in Hs'. destruct (midpoint_spec c f (a + Z.of_nat j)) as (M1 & M2 & M3).
        apply (same_period_pnum c) in Hs'; auto. rewrite M3 in Hs'. rewrite Hs'. apply G. apply between_In. rewrite between_length in Hj. lia.
    - intros s i j d Hs Hi Hj Ei Ej. assert (Vs : valid c (fst s)) by (unfold all_valid in V; rewrite Forall_forall in V; auto). rewrite map_length in Hi, Hj. rewrite Nth in Ei, Ej by auto. cbn [fst] in Ei, Ej.
      destruct (midpoint_spec c f (a + Z.of_nat i)) as (M1 & M2 & M3). destruct (midpoint_spec c f (a + Z.of_nat j)) as (M1' & M2' & M3').
      apply (same_period_pnum c) in Ei; auto. apply (same_period_pnum c) in Ej; auto. lia.
  Qed.
  Lemma pnum_mono f t u : valid c t -> valid c u -> instant c t <= instant c u -> pnum c f t <= pnum c f u.
  Proof.
    intros V V' H. destruct (Z_le_gt_dec (pnum c f t) (pnum c f u)) as [L|L]; auto. exfalso.
    pose proof (proj1 (period_iff c f t _ V) eq_refl). pose proof (proj1 (period_iff c f u _ V') eq_refl).
    assert (pstart c f (pnum c f u + 1) <= pstart c f (pnum c f t)). { destruct (Z.eq_dec (pnum c f u + 1) (pnum c f t)) as [->|]; [lia|]. pose proof (pstart_mono c f (pnum c f u + 1) (pnum c f t)). lia. }
    lia.
  Qed.
  Lemma good_sample f w xs p : (0 < w)%nat -> all_valid c xs -> good f w xs p = true -> exists s, In s xs /\ pnum c f (fst s) = p.
  Proof.
    intros Hw V G. unfold good in G. rewrite forallb_forall in G. specialize (G 0%nat ltac:(apply in_seq; lia)).
    destruct (members c f p xs) as [|s l] eqn:E; [discriminate|]. exists s. assert (Q : In s (members c f p xs)) by (rewrite E; left; auto).
    rewrite members_pnum in Q by auto. apply filter_In in Q. rewrite Z.eqb_eq in Q. auto.
  Qed.
  Lemma bins_all f (xs : smp) s : In s xs -> In (pnum c f (fst s)) (bins c f (map fst xs)).
  Proof.
    intros Hs. destruct (bins_spec c f (map fst xs)) as (lo' & hi' & B1 & B2 & _). { intros Q. destruct xs; [destruct Hs|discriminate]. }
    rewrite B1. apply between_In. apply B2. apply in_map. auto.
  Qed.
  Lemma bins_range f ts : exists lo hi, bins c f ts = between lo hi.
  Proof. unfold bins. destruct (map (pnum c f) ts); eauto. exists 1, 0. reflexivity. Qed.
  (** the spacing check *)
  Lemma check_uniform_iff ts : Forall (valid c) ts -> check_uniform c infer_freq ts = Ok tt <->
    (3 <= List.length ts)%nat /\ (infer_freq ts = true \/ forall t u v, In t ts -> In u ts -> valid c v -> instant c t <= instant c v <= instant c u -> List.length (filter (same_period Month v) ts) = 1%nat).
  Proof.
    intros V. unfold check_uniform. destruct (Nat.ltb_spec (List.length ts) 3) as [L|L]; [split; [discriminate|lia]|].
    destruct (infer_freq ts); [split; auto|].
    assert (Q : forall v, valid c v -> filter (fun t => (pstart c Month (tmonth v) <=? instant c t) && (instant c t <? pstart c Month (tmonth v + 1))) ts = filter (same_period Month v) ts).
    { intros v Vv. apply filter_ext_in. intros t Ht. rewrite Forall_forall in V. specialize (V t Ht). apply eq_true_iff_eq. rewrite andb_true_iff, Z.leb_le, Z.ltb_lt. rewrite <- (period_iff c Month) by auto. cbn [pnum]. symmetry. apply (same_period_pnum c Month); auto. }
    match goal with |- context [negb ?b] => destruct b eqn:E end; cbn [negb].
    - split; auto. intros _. split; auto. right. intros t u v Ht Hu Vv Hv. rewrite forallb_forall in E.
      destruct (bins_spec c Month ts) as (lo & hi & B1 & B2 & _); [intros ->; destruct Ht|].
      rewrite Forall_forall in V. pose proof (pnum_mono Month t v (V t Ht) Vv ltac:(lia)). pose proof (pnum_mono Month v u Vv (V u Hu) ltac:(lia)). pose proof (B2 t Ht). pose proof (B2 u Hu). cbn [pnum] in *.
      specialize (E (tmonth v)). rewrite B1 in E. specialize (E ltac:(apply between_In; lia)). rewrite Nat.eqb_eq in E. rewrite <- (Q v Vv). auto.
    - split; [discriminate|]. intros (_ & [D|H]); [discriminate|]. exfalso. assert (forallb (fun q => Nat.eqb (List.length (filter (fun t => (pstart c Month q <=? instant c t) && (instant c t <? pstart c Month (q + 1))) ts)) 1) (bins c Month ts) = true); [|congruence].
      apply forallb_forall. intros q Hq. destruct (bins_spec c Month ts) as (lo & hi & B1 & B2 & (t & Ht & B3) & (u & Hu & B4)); [intros ->; cbn in L; lia|]. rewrite B1 in Hq. apply between_In in Hq. rewrite Forall_forall in V.
      destruct (Z.eq_dec q lo) as [->|N1]; [|destruct (Z.eq_dec q hi) as [->|N2]].
      + cbn [pnum] in B3. rewrite <- B3. rewrite (Q t) by auto. apply Nat.eqb_eq. apply (H t t t); auto. lia.
      + cbn [pnum] in B4. rewrite <- B4. rewrite (Q u) by auto. apply Nat.eqb_eq. apply (H u u u); auto. lia.
      + destruct (start_pnum c Month q) as [S1 S2]. set (v := date_of c (pstart c Month q)) in *. cbn [pnum] in S1, B3, B4. rewrite <- S1. rewrite (Q v) by auto. apply Nat.eqb_eq. apply (H t u v); auto.
        pose proof (instant_lt c t v). pose proof (instant_lt c v u). specialize (V t Ht) as Vt. specialize (V u Hu) as Vu. split; apply Z.lt_le_incl; apply instant_lt; auto; lia.
  Qed.
  (** the call gets as far as averaging *)
  Definition accepted (x : input fl) (td : option string) : Prop := (exists n, time_info x td = Ok n) /\ check_uniform c infer_freq (map fst (samples (inp x))) = Ok tt.
  Lemma calavg_short_outcome x freq f td : short freq f -> all_valid c (samples (inp x)) -> all_tidy (width (inp x)) (samples (inp x)) -> (0 < width (inp x))%nat -> accepted x td ->
    let xs := samples (inp x) in let w := width (inp x) in
    ((forall s, In s xs -> ~ complete f w xs (fst s)) -> CA x freq td = Err IndexError) /\
    (forall s u t, In s xs -> In u xs -> complete f w xs (fst s) -> complete f w xs (fst u) -> valid c t -> instant c (fst s) <= instant c t <= instant c (fst u) -> ~ complete f w xs t -> CA x freq td = Err ValueError) /\
    (forall s, In s xs -> complete f w xs (fst s) ->
       (forall s u t, In s xs -> In u xs -> complete f w xs (fst s) -> complete f w xs (fst u) -> valid c t -> instant c (fst s) <= instant c t <= instant c (fst u) -> complete f w xs t) ->
       exists out, CA x freq td = Ok out).
  Proof.
    intros Sh V Ti Hw ((n & Et) & Eu) xs w. rewrite (calavg_short_eq x freq f td n Sh Et Eu). fold xs w. fold xs w in V, Ti, Hw.
    assert (Vs : forall s, In s xs -> valid c (fst s)) by (unfold all_valid in V; rewrite Forall_forall in V; auto).
    destruct (bins_range f (map fst xs)) as (lo & hi & Hb).
    split; [|split].
    - intros H. rewrite (filter_none (good f w xs)); auto. intros p Hp. destruct (good f w xs p) eqn:G; auto. exfalso.
      destruct (good_sample f w xs p Hw V G) as (s & Hs & <-). apply (H s Hs). apply good_complete; auto.
    - intros s u t Hs Hu Cs Cu Vt Ht Nt. destruct (filter (good f w xs) (bins c f (map fst xs))) as [|a r] eqn:F.
      { assert (Q : In (pnum c f (fst s)) (filter (good f w xs) (bins c f (map fst xs)))) by (apply filter_In; split; [apply bins_all; auto|apply good_complete; auto]). rewrite F in Q. destruct Q. }
      assert (Q : forall s, In s xs -> complete f w xs (fst s) -> In (pnum c f (fst s)) (between a (last (a :: r) a))).
      { intros z Hz Cz. assert (Q : In (pnum c f (fst z)) (filter (good f w xs) (bins c f (map fst xs)))) by (apply filter_In; split; [apply bins_all; auto|apply good_complete; auto]).
        rewrite Hb in F, Q. destruct (filter_cut _ lo hi a r F) as (Fab & _). rewrite F, <- Fab in Q. apply filter_In in Q. tauto. }
      destruct (forallb (good f w xs) (between a (last (a :: r) a))) eqn:G; auto. exfalso. apply Nt. apply good_complete; auto. rewrite forallb_forall in G. apply G.
      pose proof (Q s Hs Cs) as Q1. pose proof (Q u Hu Cu) as Q2. apply between_In in Q1, Q2. apply between_In. pose proof (pnum_mono f (fst s) t). pose proof (pnum_mono f t (fst u)). specialize (Vs s Hs) as V1. specialize (Vs u Hu) as V2. split; [etransitivity; [apply Q1|]|etransitivity; [|apply Q2]]; auto; apply pnum_mono; auto; lia.
    - intros s0 Hs0 Cs0 H. destruct (filter (good f w xs) (bins c f (map fst xs))) as [|a r] eqn:F.
      { assert (Q : In (pnum c f (fst s0)) (filter (good f w xs) (bins c f (map fst xs)))) by (apply filter_In; split; [apply bins_all; auto|apply good_complete; auto]). rewrite F in Q. destruct Q. }
      rewrite Hb in F. destruct (filter_cut _ lo hi a r F) as (Fab & B1 & B2 & Ga & Gb). set (b := last (a :: r) a) in *.
      assert (G : forallb (good f w xs) (between a b) = true); [|rewrite G; eauto].
      destruct (good_sample f w xs a Hw V Ga) as (s & Hs & Es). destruct (good_sample f w xs b Hw V Gb) as (u & Hu & Eu').
      apply forallb_forall. intros p Hp. apply between_In in Hp.
      destruct (Z.eq_dec p a) as [->|N1]; auto. destruct (Z.eq_dec p b) as [->|N2]; auto.
      destruct (start_pnum c f p) as [S1 S2]. set (v := date_of c (pstart c f p)) in *. rewrite <- S1. apply good_complete; auto. apply (H s u v); auto.
      + apply (proj1 (good_complete f w xs (fst s) V Ti (Vs s Hs))). rewrite Es. auto.
      + apply (proj1 (good_complete f w xs (fst u) V Ti (Vs u Hu))). rewrite Eu'. auto.
      + split.
        * destruct (Z_le_gt_dec (instant c (fst s)) (instant c v)) as [|L]; auto. pose proof (pnum_mono f v (fst s) S2 (Vs s Hs) ltac:(lia)). lia.
        * destruct (Z_le_gt_dec (instant c v) (instant c (fst u))) as [|L]; auto. pose proof (pnum_mono f (fst u) v (Vs u Hu) S2 ltac:(lia)). lia.
  Qed.
End Api.
