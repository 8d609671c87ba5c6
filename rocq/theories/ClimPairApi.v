(** The two functions compared: which means they take, how far apart these are. *)
From Coq Require Import Reals List Bool Arith ZArith Lra Lia String.
From Verif Require Import PyBase Num NumFacts ListFacts Calendar CalendarFacts SpecSum SumFacts SpecClim Climat ClimFacts ClimApi ClimLong ClimAnom ClimZero ClimM2S ClimDemo SpecClimPair ClimPair.
Import ListNotations.
Local Open Scope Z_scope.
Local Notation smp := (list (time * (nat -> fl))).

Lemma spells_middle s m : spells s m -> m mod 3 = 0 -> let q := m mod 12 + 1 in q = 1 \/ q = 4 \/ q = 7 \/ q = 10.
Proof. intros [H _] D q. unfold q. lia. Qed.

Lemma two_means c infer_freq empty_exc x s m td td' y0 n : let xs : smp := samples (inp x) in let w := width (inp x) in
  all_valid c xs -> no_gaps w xs -> (0 < w)%nat -> whole_years y0 n xs -> spells s m -> m mod 3 = 0 -> (exists nm, time_info x td = Ok nm) -> accepted c infer_freq x td' ->
  exists out out', month_to_season c empty_exc x s td = Ok out /\ calendar_average c infer_freq x "season" td' = Ok out' /\ List.length out = n /\
    forall j, (j < n)%nat -> let l := mkTime (y0 + Z.of_nat j) (m mod 12 + 1) 1 0 in
      exists e e', nth_error out j = Some e /\ fst e = l /\ In e' out' /\ same_period (Quarter 12) (fst e') l = true /\
        forall k, (k < w)%nat -> snd e k = Fin (avg (plain_values k (season_of l xs))) /\ snd e' k = Fin (wavg (day_values c k (season_of l xs))).
Proof.
  intros xs w V G Hw WY S D Et A. pose proof (gaps_tidy xs w G) as Ti. pose proof (spells_middle s m S D) as Hm. cbv zeta in Hm.
  destruct (m2s_whole c empty_exc x s m td y0 n Et V Ti S WY) as (out & E & L & M).
  assert (Lg : long "season" (Quarter 12)) by (left; auto).
  destruct (calavg_long_outcome c infer_freq x "season" (Quarter 12) td' Lg V Ti Hw A) as [_ O].
  destruct (has_month xs y0 n WY (12 * y0)) as (e0 & H0 & T0); [pose proof (proj1 WY); lia|].
  destruct (O e0 H0) as [out' E']; [apply (complete_at xs w G (fst e0) e0 H0); cbn [same_period]; rewrite !Z.eqb_refl; reflexivity|].
  exists out, out'. split; [exact E|]. split; [exact E'|]. split; [exact L|]. intros j Hj l.
  destruct (calavg_long c infer_freq x "season" (Quarter 12) td' out' Lg V Ti Hw E') as (F & _ & Oc & _). fold xs w in F, Oc.
  assert (Vl : valid c l) by (unfold valid, l; cbn [yr mo dy sec]; pose proof (mlen_bounds c (y0 + Z.of_nat j) (m mod 12 + 1)); lia).
  assert (Yl : y0 <= yr l < y0 + Z.of_nat n) by (unfold l; cbn [yr]; lia).
  assert (Tl : 12 * y0 <= tmonth l <= 12 * (y0 + Z.of_nat n) - 1) by (unfold l, tmonth, mnum; cbn [yr mo]; lia).
  destruct (has_month xs y0 n WY (tmonth l) Tl) as (e1 & H1 & T1).
  assert (Cl : complete Month w xs l).
  { apply (complete_at xs w G l e1 H1). apply (same_period_pnum c Month l (fst e1) Vl (valid_in c xs V e1 H1)). cbn [pnum]. exact T1. }
  destruct (Oc l Vl Cl) as (i & Hi & Si). specialize (Si e0). set (e' := nth i out' e0) in *.
  assert (He' : In e' out') by (apply nth_In; auto).
  destruct (nth_error out j) as [e|] eqn:Ej; [|apply nth_error_None in Ej; lia]. exists e, e'. split; [reflexivity|].
  destruct (M j Hj e0) as [M1 M2]. pose proof (nth_error_nth _ _ e0 Ej) as N. unfold frame in *. rewrite N in M1, M2. fold l in M1, M2. split; [exact M1|]. split; [exact He'|]. split; [exact Si|].
  intros k Hk. rewrite Forall_forall in F. destruct (F e' He') as ((Ve' & _) & ms & C & B). split.
  - rewrite (M2 k Hk). apply (season_mean xs w y0 n); auto. exact (proj1 Vl).
  - rewrite (B k Hk). apply (season_by_days c xs w y0 n) with (t := fst e'); auto.
Qed.

(** ** distance of the two means *)
Local Open Scope R_scope.
Lemma days_real c (e : time * (nat -> fl)) : valid c (fst e) -> 28 <= IZR (days c (fst e)) <= 31.
Proof. intros _. pose proof (mlen_bounds c (yr (fst e)) (mo (fst e))) as B. unfold days. split; apply IZR_le; lia. Qed.
Lemma subset_sums c1 c2 c3 K r u1 u2 u3 : 0 <= r -> 0 <= K -> c1 <= K -> c2 <= K -> c3 <= K -> c1 + c2 <= K -> c1 + c3 <= K -> c2 + c3 <= K -> c1 + c2 + c3 <= K ->
  0 <= u1 <= r -> 0 <= u2 <= r -> 0 <= u3 <= r -> c1 * u1 + c2 * u2 + c3 * u3 <= K * r.
Proof.
  intros Hr HK H1 H2 H3 H12 H13 H23 H123 U1 U2 U3.
  assert (P : forall a u, 0 <= u <= r -> exists b, (b = a \/ b = 0) /\ a * u <= b * r).
  { intros a u Hu. destruct (Rle_lt_dec 0 a); [exists a; split; [auto|nra]|exists 0; split; [auto|nra]]. }
  destruct (P c1 u1 U1) as (b1 & B1 & Q1). destruct (P c2 u2 U2) as (b2 & B2 & Q2). destruct (P c3 u3 U3) as (b3 & B3 & Q3).
  assert (b1 + b2 + b3 <= K) by (destruct B1, B2, B3; subst; lra). nra.
Qed.
Lemma two_far d1 d2 v1 v2 a b : 28 <= d1 <= 31 -> 28 <= d2 <= 31 -> a <= v1 <= b -> a <= v2 <= b ->
  Rabs ((v1 + v2) / 2 - (d1 * v1 + d2 * v2) / (d1 + d2)) <= 3 / 118 * (b - a).
Proof.
  intros D1 D2 A1 A2. replace ((v1 + v2) / 2 - (d1 * v1 + d2 * v2) / (d1 + d2)) with ((d2 - d1) * (v1 - v2) / (2 * (d1 + d2))) by (field; lra).
  assert (P : 0 < 2 * (d1 + d2)) by lra. apply Rabs_le. split.
  - apply (Rmult_le_reg_r (2 * (d1 + d2))); [auto|]. unfold Rdiv at 2. rewrite Rmult_assoc, Rinv_l, Rmult_1_r by lra. nra.
  - apply (Rmult_le_reg_r (2 * (d1 + d2))); [auto|]. unfold Rdiv at 1. rewrite Rmult_assoc, Rinv_l, Rmult_1_r by lra. nra.
Qed.
Lemma three_far d1 d2 d3 v1 v2 v3 a b : 28 <= d1 <= 31 -> 28 <= d2 <= 31 -> 28 <= d3 <= 31 -> a <= v1 <= b -> a <= v2 <= b -> a <= v3 <= b ->
  Rabs ((v1 + v2 + v3) / 3 - (d1 * v1 + d2 * v2 + d3 * v3) / (d1 + d2 + d3)) <= 3 / 118 * (b - a).
Proof.
  intros D1 D2 D3 A1 A2 A3. set (D := d1 + d2 + d3). assert (PD : 84 <= D <= 93) by (unfold D; lra).
  replace ((v1 + v2 + v3) / 3 - (d1 * v1 + d2 * v2 + d3 * v3) / D)
    with (((D - 3 * d1) * (v1 - a) + (D - 3 * d2) * (v2 - a) + (D - 3 * d3) * (v3 - a)) / (3 * D)) by (unfold D; field; lra).
  pose proof (subset_sums (D - 3 * d1) (D - 3 * d2) (D - 3 * d3) (9 * D / 118) (b - a) (v1 - a) (v2 - a) (v3 - a)) as Q1.
  pose proof (subset_sums (3 * d1 - D) (3 * d2 - D) (3 * d3 - D) (9 * D / 118) (b - a) (v1 - a) (v2 - a) (v3 - a)) as Q2.
  unfold D in Q1, Q2. specialize (Q1 ltac:(lra) ltac:(lra) ltac:(lra) ltac:(lra) ltac:(lra) ltac:(lra) ltac:(lra) ltac:(lra) ltac:(lra) ltac:(lra) ltac:(lra) ltac:(lra)).
  specialize (Q2 ltac:(lra) ltac:(lra) ltac:(lra) ltac:(lra) ltac:(lra) ltac:(lra) ltac:(lra) ltac:(lra) ltac:(lra) ltac:(lra) ltac:(lra) ltac:(lra)).
  fold D in Q1, Q2. apply Rabs_le. split.
  - apply (Rmult_le_reg_r (3 * D)); [lra|]. unfold Rdiv at 2. rewrite Rmult_assoc, Rinv_l, Rmult_1_r by lra. lra.
  - apply (Rmult_le_reg_r (3 * D)); [lra|]. unfold Rdiv at 1. rewrite Rmult_assoc, Rinv_l, Rmult_1_r by lra. lra.
Qed.

Lemma season_far c xs y0 n l k a b : all_valid c xs -> whole_years y0 n xs -> (mo l = 1 \/ mo l = 4 \/ mo l = 7 \/ mo l = 10)%Z -> (y0 <= yr l < y0 + Z.of_nat n)%Z ->
  Forall (fun v => a <= v <= b) (plain_values k (season_of l xs)) ->
  Rabs (avg (plain_values k (season_of l xs)) - wavg (day_values c k (season_of l xs))) <= 3 / 118 * (b - a).
Proof.
  intros V WY Hm Y F. pose proof (season_list xs y0 n WY l Hm Y) as L.
  assert (D : Forall (fun e => 28 <= IZR (days c (fst e)) <= 31) (season_of l xs)) by (apply Forall_forall; intros e He; apply filter_In in He; apply days_real; apply (valid_in c xs V); tauto).
  destruct (tmonth l =? 12 * y0)%Z; destruct (season_of l xs) as [|e1 [|e2 [|e3 [|e4 r]]]]; try discriminate L.
  - unfold plain_values, day_values, wavg, avg, rsum in *. cbn in *. inversion_clear F as [|? ? F1 F']. inversion_clear F' as [|? ? F2 _]. inversion_clear D as [|? ? D1 D']. inversion_clear D' as [|? ? D2 _].
    pose proof (two_far _ _ _ _ a b D1 D2 F1 F2) as Q. match type of Q with Rabs (?p - ?q) <= _ => match goal with |- Rabs (?p' - ?q') <= _ => replace p' with p by (field); replace q' with q by (f_equal; ring) end end. exact Q.
  - unfold plain_values, day_values, wavg, avg, rsum in *. cbn in *. inversion_clear F as [|? ? F1 F']. inversion_clear F' as [|? ? F2 F'']. inversion_clear F'' as [|? ? F3 _].
    inversion_clear D as [|? ? D1 D']. inversion_clear D' as [|? ? D2 D'']. inversion_clear D'' as [|? ? D3 _].
    pose proof (three_far _ _ _ _ _ _ a b D1 D2 D3 F1 F2 F3) as Q. match type of Q with Rabs (?p - ?q) <= _ => match goal with |- Rabs (?p' - ?q') <= _ => replace p' with p by (field); replace q' with q by (f_equal; ring) end end. exact Q.
Qed.
Lemma season_360 xs y0 n l k : whole_years y0 n xs -> (mo l = 1 \/ mo l = 4 \/ mo l = 7 \/ mo l = 10)%Z -> (y0 <= yr l < y0 + Z.of_nat n)%Z ->
  wavg (day_values D360 k (season_of l xs)) = avg (plain_values k (season_of l xs)).
Proof.
  intros WY Hm Y. pose proof (season_list xs y0 n WY l Hm Y) as L.
  destruct (tmonth l =? 12 * y0)%Z; destruct (season_of l xs) as [|e1 [|e2 [|e3 [|e4 r]]]]; try discriminate L;
    unfold plain_values, day_values, wavg, avg, rsum, days; cbn; field.
Qed.
Lemma season_spring c xs y0 n l k : c <> D360 -> all_valid c xs -> whole_years y0 n xs -> mo l = 4%Z -> (y0 <= yr l < y0 + Z.of_nat n)%Z ->
  exists e1 e2 e3, season_of l xs = [e1; e2; e3] /\ (tmonth (fst e1) = 12 * yr l + 2 /\ tmonth (fst e2) = 12 * yr l + 3 /\ tmonth (fst e3) = 12 * yr l + 4)%Z /\
    avg (plain_values k (season_of l xs)) = (value (snd e1 k) + value (snd e2 k) + value (snd e3 k)) / 3 /\
    wavg (day_values c k (season_of l xs)) = (31 * value (snd e1 k) + 30 * value (snd e2 k) + 31 * value (snd e3 k)) / 92.
Proof.
  intros NC V WY Hm Y. pose proof (season_list xs y0 n WY l ltac:(lia) Y) as L.
  assert (Vl : forall e, In e (season_of l xs) -> valid c (fst e)) by (intros e He; apply filter_In in He; apply (valid_in c xs V); tauto).
  destruct (Z.eqb_spec (tmonth l) (12 * y0)) as [Q|_]; [exfalso; unfold tmonth, mnum in Q; lia|].
  destruct (season_of l xs) as [|e1 [|e2 [|e3 [|e4 r]]]] eqn:ES; try discriminate L. cbn [map] in L. injection L as L1 L2 L3.
  pose proof (Vl e1 ltac:(left; auto)) as V1. pose proof (Vl e2 ltac:(right; left; auto)) as V2. pose proof (Vl e3 ltac:(right; right; left; auto)) as V3.
  assert (T : tmonth l = (12 * yr l + 3)%Z) by (unfold tmonth, mnum; lia). rewrite T in *.
  assert (M : (mo (fst e1) = 3 /\ mo (fst e2) = 4 /\ mo (fst e3) = 5)%Z).
  { destruct (tmonth_div c _ V1) as [_ Q1]. destruct (tmonth_div c _ V2) as [_ Q2]. destruct (tmonth_div c _ V3) as [_ Q3]. lia. }
  destruct M as (M1 & M2 & M3). exists e1, e2, e3. split; [reflexivity|]. split; [lia|].
  unfold plain_values, day_values, wavg, avg, rsum, days. cbn [map fold_right fst snd List.length INR]. split; [cbn; field|].
  rewrite M1, M2, M3. destruct c; try contradiction; cbn; field.
Qed.

(** ** the statements *)
Lemma pair_360 infer_freq empty_exc x s m td td' y0 n : let xs : smp := samples (inp x) in let w := width (inp x) in
  all_valid D360 xs -> no_gaps w xs -> (0 < w)%nat -> whole_years y0 n xs -> spells s m -> (m mod 3 = 0)%Z -> (exists nm, time_info x td = Ok nm) -> accepted D360 infer_freq x td' ->
  exists out out', month_to_season D360 empty_exc x s td = Ok out /\ calendar_average D360 infer_freq x "season" td' = Ok out' /\ List.length out = n /\
    Forall (fun e => exists e', In e' out' /\ same_period (Quarter 12) (fst e') (fst e) = true /\ forall k, (k < w)%nat -> snd e k = snd e' k) out.
Proof.
  intros xs w V G Hw WY S D Et A. destruct (two_means D360 infer_freq empty_exc x s m td td' y0 n V G Hw WY S D Et A) as (out & out' & E & E' & L & H).
  exists out, out'. split; [exact E|]. split; [exact E'|]. split; [exact L|]. apply Forall_forall. intros e He. unfold frame in *.
  apply In_nth_error in He. destruct He as [j Ej]. assert (Hj : (j < n)%nat) by (rewrite <- L; apply nth_error_Some; intros Q; assert (Q1 := eq_trans (eq_sym Ej) Q); discriminate Q1).
  destruct (H j Hj) as (e1 & e' & Q & F & I & P & K). assert (Q1 := eq_trans (eq_sym Ej) Q); injection Q1 as <-; clear Q. exists e'. split; [exact I|]. rewrite F. split; [exact P|]. intros k Hk. destruct (K k Hk) as [-> ->].
  f_equal. symmetry. apply (season_360 xs y0 n _ k WY); [exact (spells_middle s m S D)|cbn [yr]; lia].
Qed.
Lemma pair_close c infer_freq empty_exc x s m td td' y0 n : let xs : smp := samples (inp x) in let w := width (inp x) in
  all_valid c xs -> no_gaps w xs -> (0 < w)%nat -> whole_years y0 n xs -> spells s m -> (m mod 3 = 0)%Z -> (exists nm, time_info x td = Ok nm) -> accepted c infer_freq x td' ->
  exists out out', month_to_season c empty_exc x s td = Ok out /\ calendar_average c infer_freq x "season" td' = Ok out' /\ List.length out = n /\
    Forall (fun e => exists e', In e' out' /\ same_period (Quarter 12) (fst e') (fst e) = true /\
      forall k a b, (k < w)%nat -> (forall z, In z xs -> around (fst e) (fst z) = true -> a <= value (snd z k) <= b) ->
        exists p q, snd e k = Fin p /\ snd e' k = Fin q /\ Rabs (p - q) <= 3 / 118 * (b - a)) out.
Proof.
  intros xs w V G Hw WY S D Et A. destruct (two_means c infer_freq empty_exc x s m td td' y0 n V G Hw WY S D Et A) as (out & out' & E & E' & L & H).
  exists out, out'. split; [exact E|]. split; [exact E'|]. split; [exact L|]. apply Forall_forall. intros e He. unfold frame in *.
  apply In_nth_error in He. destruct He as [j Ej]. assert (Hj : (j < n)%nat) by (rewrite <- L; apply nth_error_Some; intros Q; assert (Q1 := eq_trans (eq_sym Ej) Q); discriminate Q1).
  destruct (H j Hj) as (e1 & e' & Q & F & I & P & K). assert (Q1 := eq_trans (eq_sym Ej) Q); injection Q1 as <-; clear Q. exists e'. split; [exact I|]. rewrite F. split; [exact P|]. intros k a b Hk B. destruct (K k Hk) as [-> ->].
  do 2 eexists. split; [reflexivity|]. split; [reflexivity|]. apply (season_far c xs y0 n _ k a b V WY); [exact (spells_middle s m S D)|cbn [yr]; lia|].
  unfold plain_values. rewrite Forall_map. apply Forall_forall. intros z Hz. apply filter_In in Hz. apply B; tauto.
Qed.
Lemma pair_spring c infer_freq empty_exc x td td' y0 n : let xs : smp := samples (inp x) in let w := width (inp x) in
  c <> D360 -> all_valid c xs -> no_gaps w xs -> (0 < w)%nat -> whole_years y0 n xs -> (exists nm, time_info x td = Ok nm) -> accepted c infer_freq x td' ->
  exists out out', month_to_season c empty_exc x "MAM" td = Ok out /\ calendar_average c infer_freq x "season" td' = Ok out' /\ List.length out = n /\
    Forall (fun e => exists e' z3 z4 z5, In e' out' /\ same_period (Quarter 12) (fst e') (fst e) = true /\ In z3 xs /\ In z4 xs /\ In z5 xs /\
      (tmonth (fst z3) = 12 * yr (fst e) + 2 /\ tmonth (fst z4) = 12 * yr (fst e) + 3 /\ tmonth (fst z5) = 12 * yr (fst e) + 4)%Z /\
      forall k, (k < w)%nat -> exists a b d, snd z3 k = Fin a /\ snd z4 k = Fin b /\ snd z5 k = Fin d /\
        snd e k = Fin ((a + b + d) / 3) /\ snd e' k = Fin ((31 * a + 30 * b + 31 * d) / 92) /\ (snd e k = snd e' k <-> a + d = 2 * b)) out.
Proof.
  intros xs w NC V G Hw WY Et A. destruct (two_means c infer_freq empty_exc x "MAM" 3 td td' y0 n V G Hw WY ltac:(split; [lia|reflexivity]) eq_refl Et A) as (out & out' & E & E' & L & H).
  exists out, out'. split; [exact E|]. split; [exact E'|]. split; [exact L|]. apply Forall_forall. intros e He. unfold frame in *.
  apply In_nth_error in He. destruct He as [j Ej]. assert (Hj : (j < n)%nat) by (rewrite <- L; apply nth_error_Some; intros Q; assert (Q1 := eq_trans (eq_sym Ej) Q); discriminate Q1).
  destruct (H j Hj) as (e1 & e' & Q & F & I & P & K). assert (Q1 := eq_trans (eq_sym Ej) Q); injection Q1 as <-; clear Q. rewrite <- F in P, K.
  assert (Y : (y0 <= yr (fst e) < y0 + Z.of_nat n)%Z) by (rewrite F; cbn [yr]; lia). assert (Mo : mo (fst e) = 4%Z) by (rewrite F; reflexivity).
  destruct (season_spring c xs y0 n (fst e) 0 NC V WY Mo Y) as (z3 & z4 & z5 & Sz & T & _).
  assert (Z : forall z, In z (season_of (fst e) xs) -> In z xs) by (intros z Hz; apply filter_In in Hz; tauto).
  exists e', z3, z4, z5. rewrite Sz in Z. split; [exact I|]. split; [exact P|]. split; [apply Z; left; auto|]. split; [apply Z; right; left; auto|]. split; [apply Z; right; right; left; auto|]. split; [exact T|].
  intros k Hk. unfold no_gaps in G. rewrite Forall_forall in G.
  destruct (G z3 (Z z3 ltac:(left; auto)) k Hk) as [a Ha]. destruct (G z4 (Z z4 ltac:(right; left; auto)) k Hk) as [b Hb]. destruct (G z5 (Z z5 ltac:(right; right; left; auto)) k Hk) as [d Hd].
  exists a, b, d. split; [exact Ha|]. split; [exact Hb|]. split; [exact Hd|].
  destruct (K k Hk) as [K1 K2]. destruct (season_spring c xs y0 n (fst e) k NC V WY Mo Y) as (y3 & y4 & y5 & Sy & _ & A1 & A2).
  rewrite Sz in Sy. injection Sy as <- <- <-. assert (K3 := eq_trans K1 (f_equal Fin A1)). assert (K4 := eq_trans K2 (f_equal Fin A2)). clear K1 K2. rename K3 into K1, K4 into K2. rewrite Ha, Hb, Hd in K1, K2. cbn [value] in K1, K2. rewrite K1, K2. split; [reflexivity|]. split; [reflexivity|].
  split; [intros Q; injection Q; intros; lra|intros Q; f_equal; lra].
Qed.
