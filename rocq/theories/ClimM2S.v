(** month_to_season. *)
From Coq Require Import Reals List Bool Arith ZArith Lra Lia String Ascii.
From Verif Require Import PyBase Num NumFacts SumFacts ArrFacts Calendar CalendarFacts SpecClim Climat ClimFacts ClimApi ClimLong ClimKeys ClimKeysApi ClimSeason.
Import ListNotations.
Local Open Scope Z_scope.

Section M2S.
  Variables (c : cal) (empty_exc : exc).
  Local Notation M2S := (month_to_season c empty_exc).
  Local Notation smp := (list (time * (nat -> fl))).
  Lemma removelast_incl {A} (l : list A) x : In x (removelast l) -> In x l.
  Proof. destruct l as [|a l]; [auto|]. rewrite (app_removelast_last a (l := a :: l)) at 2 by discriminate. intros H. apply in_or_app. auto. Qed.
  Lemma tl_incl {A} (l : list A) x : In x (tl l) -> In x l.
  Proof. destruct l; cbn; auto. Qed.
  Lemma kept_incl s m xs e : In e (kept s m xs) -> In e xs /\ in_season m (fst e) = true.
  Proof.
    unfold kept. cbv zeta. intros H. apply (filter_In (fun e => in_season m (fst e)) e xs). destruct (String.eqb s "DJF"); [apply removelast_incl; auto|]. destruct (String.eqb s "NDJ"); [apply tl_incl; auto|auto].
  Qed.
  Lemma date_first q : date_of c (86400 * mstart c q) = mkTime (q / 12) (q mod 12 + 1) 1 0.
  Proof.
    assert (V : valid c (mkTime (q / 12) (q mod 12 + 1) 1 0)). { unfold valid. cbn [yr mo dy sec]. pose proof (mlen_bounds c (q / 12) (q mod 12 + 1)). lia. }
    rewrite <- (date_of_instant c _ V). f_equal. unfold instant, tmonth. cbn [yr mo dy sec]. replace (mnum (q / 12) (q mod 12 + 1)) with q by (unfold mnum; lia). lia.
  Qed.
  Lemma m2s_eq x s m td n : time_info x td = Ok n -> all_valid c (samples (inp x)) -> spells s m -> (List.length (samples (inp x)) mod 12 = 0)%nat ->
    let xs : smp := samples (inp x) in let K := kept s m xs in
    (K = [] -> M2S x s td = Err empty_exc) /\
    (K <> [] -> exists lo hi, lo <= hi /\ (forall e, In e K -> 12 * lo + m - 1 <= tmonth (fst e) <= 12 * hi + m + 1) /\
       (exists e, In e K /\ tmonth (fst e) <= 12 * lo + m + 1) /\ (exists e, In e K /\ 12 * hi + m - 1 <= tmonth (fst e)) /\
       M2S x s td = Ok (map (fun i => let l := mkTime ((12 * i + m) / 12) ((12 * i + m) mod 12 + 1) 1 0 in (l, mean_of (filter (fun e => around l (fst e)) K))) (between lo hi))).
  Proof.
    intros Et V S L xs K. assert (Hm := proj1 S).
    assert (Vs : forall e, In e xs -> valid c (fst e)) by (unfold all_valid in V; rewrite Forall_forall in V; auto).
    assert (ES : filter (fun e => in_months (m, m mod 12 + 1, (m + 1) mod 12 + 1) (fst e)) xs = filter (fun e => in_season m (fst e)) xs).
    { apply filter_ext_in. intros e He. apply (months_in m); auto. apply (Vs e He). }
    assert (E : M2S x s td = guard Nat.eqb (List.length K) 0 raise empty_exc ;; Ok (filter (fun e => mo (fst e) =? m mod 12 + 1) (map (fun p => (date_of c (86400 * mstart c (pmonth (Quarter m) p + 1)), mean_of (members c (Quarter m) p K))) (bins c (Quarter m) (map fst K))))).
    { unfold month_to_season. rewrite Et. cbn [bind]. cbv zeta. fold xs. fold xs in L. rewrite L. cbn [Nat.eqb negb].
      assert (Q : find_season s = Some (m, m mod 12 + 1, (m + 1) mod 12 + 1)) by (apply find_season_iff; auto). rewrite Q. cbn [oget bind middle quarter]. unfold frame in *. rewrite ES. unfold K, kept. reflexivity. }
    rewrite E. split; [intros ->; reflexivity|]. intros NE. assert (LK : Nat.eqb (List.length K) 0 = false) by (destruct K; [contradiction|reflexivity]). rewrite LK.
    assert (VK : Forall (fun e => valid c (fst e)) K). { apply Forall_forall. intros e He. apply kept_incl in He. apply Vs. tauto. }
    (* quarters of in-season dates *)
    assert (PK : forall e, In e K -> exists i, pnum c (Quarter m) (fst e) = 4 * i /\ 12 * i + m - 1 <= tmonth (fst e) <= 12 * i + m + 1).
    { intros e He. apply kept_incl in He. destruct He as [He Se]. unfold in_season in Se. apply Z.ltb_lt in Se. destruct (Vs e He) as (B & _). exists ((tmonth (fst e) - (m - 1)) / 12). cbn [pnum]. unfold tmonth, mnum. lia. }
    destruct (bins_spec c (Quarter m) (map fst K)) as (lo & hi & B1 & B2 & (t1 & Ht1 & P1) & (t2 & Ht2 & P2)). { destruct K; [contradiction|discriminate]. }
    apply in_map_iff in Ht1, Ht2. destruct Ht1 as (e1 & <- & He1). destruct Ht2 as (e2 & <- & He2). destruct (PK e1 He1) as (i1 & Q1 & R1). destruct (PK e2 He2) as (i2 & Q2 & R2).
    assert (EL : lo = 4 * i1) by lia. assert (EH : hi = 4 * i2) by lia. clear P1 P2. subst lo hi.
    exists i1, i2. pose proof (B2 (fst e1) (in_map fst K e1 He1)) as B3. split; [lia|]. split; [|split; [|split]].
    - intros e He. destruct (PK e He) as (i & Qi & Ri). pose proof (B2 (fst e) (in_map fst K e He)). lia.
    - exists e1. split; auto. lia.
    - exists e2. split; auto. lia.
    - f_equal. rewrite B1.
      assert (MF : forall i, members c (Quarter m) (4 * i) K = filter (fun e => around (mkTime ((12 * i + m) / 12) ((12 * i + m) mod 12 + 1) 1 0) (fst e)) K).
      { intros i. rewrite members_pnum by auto. apply filter_ext_in. intros e He. destruct (PK e He) as (j & Qj & Rj). unfold around, frame. rewrite Qj. replace (tmonth (mkTime ((12 * i + m) / 12) ((12 * i + m) mod 12 + 1) 1 0)) with (12 * i + m) by (unfold tmonth, mnum; cbn [yr mo]; lia).
        apply eq_true_iff_eq. rewrite Z.eqb_eq, Z.leb_le. lia. }
      set (G := fun p => (date_of c (86400 * mstart c (pmonth (Quarter m) p + 1)), mean_of (members c (Quarter m) p K))).
      assert (GM : forall p, (mo (fst (G p)) =? m mod 12 + 1) = (p mod 4 =? 0)).
      { intros p. unfold G. cbn [fst pmonth]. rewrite date_first. cbn [mo]. apply eq_true_iff_eq. rewrite !Z.eqb_eq. lia. }
      rewrite filter_map_swap. rewrite (filter_ext _ (fun p => p mod 4 =? 0)) by (intros p; apply GM).
      assert (FM : forall n lo, filter (fun p => p mod 4 =? 0) (between (4 * lo) (4 * (lo + Z.of_nat n))) = map (Z.mul 4) (between lo (lo + Z.of_nat n))).
      { clear. induction n as [|n IH]; intros lo.
        - rewrite Z.add_0_r. rewrite !(between_cons _ _ (Z.le_refl _)), !between_nil by lia. cbn [filter map]. destruct (Z.eqb_spec ((4 * lo) mod 4) 0); [reflexivity|lia].
        - rewrite (between_cons (4 * lo)), (between_cons (4 * lo + 1)), (between_cons (4 * lo + 1 + 1)), (between_cons (4 * lo + 1 + 1 + 1)) by lia. cbn [filter].
          destruct (Z.eqb_spec ((4 * lo) mod 4) 0); [|lia]. destruct (Z.eqb_spec ((4 * lo + 1) mod 4) 0); [lia|]. destruct (Z.eqb_spec ((4 * lo + 1 + 1) mod 4) 0); [lia|]. destruct (Z.eqb_spec ((4 * lo + 1 + 1 + 1) mod 4) 0); [lia|].
          replace (4 * lo + 1 + 1 + 1 + 1) with (4 * (lo + 1)) by lia. replace (lo + Z.of_nat (S n)) with (lo + 1 + Z.of_nat n) by lia. rewrite IH. rewrite (between_cons lo) by lia. reflexivity. }
      specialize (FM (Z.to_nat (i2 - i1)) i1). replace (i1 + Z.of_nat (Z.to_nat (i2 - i1))) with i2 in FM by lia. rewrite FM, map_map. apply map_ext. intros i. unfold G. rewrite MF. cbn [pmonth].
      replace (3 * (4 * i) + (m - 1) + 1) with (12 * i + m) by lia. rewrite date_first. reflexivity.
  Qed.
  Definition m2s_entry (m : Z) (w : nat) (K : smp) (e : time * frame fl) : Prop :=
    mo (fst e) = m mod 12 + 1 /\ dy (fst e) = 1 /\ sec (fst e) = 0 /\ forall k, (k < w)%nat -> snd e k = mean_present (map (fun s => snd s k) (filter (fun s => around (fst e) (fst s)) K)).
  (** any dates *)
  Lemma m2s_out x s m td out : all_valid c (samples (inp x)) -> all_tidy (width (inp x)) (samples (inp x)) -> spells s m -> M2S x s td = Ok out ->
    let xs : smp := samples (inp x) in let w := width (inp x) in let K := kept s m xs in
    Forall (m2s_entry m w K) out /\
    (forall j d, (S j < List.length out)%nat -> tmonth (fst (nth (S j) out d)) = tmonth (fst (nth j out d)) + 12) /\
    (forall e, In e K -> exists j, (j < List.length out)%nat /\ forall d, around (fst (nth j out d)) (fst e) = true) /\
    (out <> [] /\ forall d, exists e e', In e K /\ In e' K /\ around (fst (nth 0 out d)) (fst e) = true /\ around (fst (last out d)) (fst e') = true).
  Proof.
    intros V Ti S E xs w K. assert (Hm := proj1 S).
    assert (Q : exists n, time_info x td = Ok n /\ (List.length xs mod 12 = 0)%nat).
    { unfold month_to_season in E. destruct (time_info x td) as [n|]; [|discriminate]. cbn [bind] in E. exists n. split; auto. cbv zeta in E. change (samples (inp x)) with xs in E. unfold frame in E. destruct (Nat.eqb_spec (List.length xs mod 12) 0) as [Q|Q]; [auto|]. discriminate E. }
    destruct Q as (n & Et & L). destruct (m2s_eq x s m td n Et V S L) as [M1 M2]. fold xs in M1, M2. fold K in M1, M2.
    destruct K as [|k0 K0] eqn:EK; [rewrite M1 in E by auto; discriminate|]. rewrite <- EK in *. clear M1. destruct M2 as (lo & hi & Hlh & Ball & (e1 & He1 & B1) & (e2 & He2 & B2) & M2). { rewrite EK. discriminate. }
    rewrite M2 in E. injection E as E. set (g := fun i => let l := mkTime ((12 * i + m) / 12) ((12 * i + m) mod 12 + 1) 1 0 in (l, mean_of (filter (fun e => around l (fst e)) K))). change (map g (between lo hi) = out) in E. subst out.
    assert (TM : forall i, tmonth (fst (g i)) = 12 * i + m) by (intros i; unfold g, tmonth, mnum; cbn [fst yr mo]; lia).
    assert (Nth : forall j d, (j < List.length (between lo hi))%nat -> nth j (map g (between lo hi)) d = g (lo + Z.of_nat j)).
    { intros j d Hj. rewrite (nth_indep _ d (g 0)) by (rewrite map_length; auto). rewrite map_nth, nth_between by (rewrite <- between_length; auto). reflexivity. }
    assert (KX : forall e, In e K -> In e xs /\ in_season m (fst e) = true) by (intros e He; apply (kept_incl s m xs e); subst K; auto).
    split; [|split; [|split]].
    - apply Forall_forall. intros e He. apply in_map_iff in He. destruct He as (i & <- & Hi). unfold m2s_entry. split; [unfold g; cbv zeta beta; cbn [fst mo]; rewrite (Z.add_comm (12 * i)), (Z.mul_comm 12), Z.mod_add by lia; reflexivity|]. split; [reflexivity|]. split; [reflexivity|].
      intros k Hk. unfold g at 1. cbv zeta. cbn [snd]. unfold mean_of. apply nanmean_present. apply Forall_forall. intros v Hv. apply in_map_iff in Hv. destruct Hv as (z & <- & Hz). apply filter_In in Hz. destruct Hz as [Hz _].
      unfold all_tidy in Ti. rewrite Forall_forall in Ti. apply (Ti z); auto. apply (KX z Hz).
    - intros j d Hj. rewrite map_length in Hj. rewrite !Nth by lia. rewrite !TM. lia.
    - intros e He. pose proof (Ball e He) as Be. destruct (KX e He) as [Xe Se]. unfold in_season in Se. apply Z.ltb_lt in Se. assert (Vs : valid c (fst e)) by (unfold all_valid in V; rewrite Forall_forall in V; apply V; auto). destruct Vs as (Bm & _).
      assert (R : exists i, 12 * i + m - 1 <= tmonth (fst e) <= 12 * i + m + 1). { exists ((tmonth (fst e) - (m - 1)) / 12). unfold tmonth, mnum. lia. }
      destruct R as [i R]. assert (lo <= i <= hi) by lia. exists (Z.to_nat (i - lo)). rewrite map_length, between_length. split; [lia|]. intros d. rewrite Nth by (rewrite between_length; lia). unfold around. rewrite TM. apply Z.leb_le. lia.
    - split. { rewrite between_cons by lia. discriminate. }
      intros d. exists e1, e2. split; auto. split; auto. pose proof (Ball e1 He1). pose proof (Ball e2 He2). split.
      + rewrite Nth by (rewrite between_length; lia). unfold around. rewrite TM. apply Z.leb_le. lia.
      + rewrite between_snoc, map_app by lia. cbn [map]. rewrite last_last. unfold around. rewrite TM. apply Z.leb_le. lia.
  Qed.
  (** one sample in each month, whole years from January *)
  Definition whole_years (y0 : Z) (n : nat) (xs : smp) : Prop := (0 < n)%nat /\ map (fun e => tmonth (fst e)) xs = between (12 * y0) (12 * (y0 + Z.of_nat n) - 1).
  Lemma whole_length y0 n xs : whole_years y0 n xs -> List.length xs = (12 * n)%nat.
  Proof. intros (Hn & H). rewrite <- (map_length (fun e => tmonth (fst e))), H, between_length. lia. Qed.
  Lemma last_filter {A} (g : A -> bool) l a : g a = true -> filter g (l ++ [a]) = filter g l ++ [a].
  Proof. intros H. rewrite filter_app. cbn. rewrite H. reflexivity. Qed.
  (** the dropped sample is around no label *)
  Lemma kept_around y0 n xs s m l : whole_years y0 n xs -> all_valid c xs -> spells s m -> mo l = m mod 12 + 1 -> 1 <= mo l <= 12 -> y0 <= yr l < y0 + Z.of_nat n ->
    filter (fun e => around l (fst e)) (kept s m xs) = filter (fun e => around l (fst e)) xs.
  Proof.
    intros (Hn & W) V S Ml Bl Yl. assert (Hm := proj1 S). assert (Vs : forall e, In e xs -> valid c (fst e)) by (unfold all_valid in V; rewrite Forall_forall in V; auto).
    assert (SA : forall e, In e xs -> around l (fst e) = true -> in_season m (fst e) = true).
    { intros e He Ae. unfold around in Ae. apply Z.leb_le in Ae. destruct (Vs e He) as (B & _). unfold in_season. apply Z.ltb_lt. unfold tmonth, mnum in Ae. lia. }
    assert (FF : filter (fun e => around l (fst e)) (filter (fun e => in_season m (fst e)) xs) = filter (fun e => around l (fst e)) xs).
    { clear -SA. induction xs as [|e xs IH]; [reflexivity|]. cbn [filter]. assert (IH' := IH (fun e He => SA e (or_intror He))). destruct (in_season m (fst e)) eqn:Q; cbn [filter]; rewrite IH'; auto.
      destruct (around l (fst e)) eqn:Q2; auto. rewrite (SA e (or_introl eq_refl) Q2) in Q. discriminate. }
    unfold kept. cbv zeta. destruct (String.eqb_spec s "DJF") as [->|N1].
    - assert (m = 12). { apply (spells_unique "DJF"); auto. split; [lia|reflexivity]. } subst m.
      destruct xs as [|a xs'] using rev_ind; [reflexivity|]. clear IHxs'.
      rewrite map_app in W. cbn [map] in W. rewrite between_snoc in W by lia. apply app_inj_tail in W. destruct W as [W Wa].
      assert (Sa : in_season 12 (fst a) = true). { destruct (Vs a ltac:(apply in_or_app; right; left; auto)) as (B & _). unfold in_season. apply Z.ltb_lt. unfold tmonth, mnum in Wa. lia. }
      rewrite <- FF, last_filter by auto. rewrite removelast_last, filter_app. cbn [filter].
      destruct (around l (fst a)) eqn:Q; [|rewrite app_nil_r; auto]. exfalso. unfold around in Q. apply Z.leb_le in Q. rewrite Wa in Q. unfold tmonth, mnum in Q. lia.
    - destruct (String.eqb_spec s "NDJ") as [->|N2]; [|exact FF].
      assert (m = 11). { apply (spells_unique "NDJ"); auto. split; [lia|reflexivity]. } subst m.
      destruct xs as [|a xs']; [reflexivity|]. cbn [map] in W. rewrite between_cons in W by lia. assert (Wa := f_equal (hd 0) W). apply (f_equal (@tl Z)) in W. cbn [hd tl] in Wa, W.
      assert (Sa : in_season 11 (fst a) = true). { destruct (Vs a ltac:(left; auto)) as (B & _). unfold in_season. apply Z.ltb_lt. unfold tmonth, mnum in Wa. lia. }
      rewrite <- FF. cbn [filter]. rewrite Sa. cbn [tl filter].
      destruct (around l (fst a)) eqn:Q; auto. exfalso. unfold around in Q. apply Z.leb_le in Q. rewrite Wa in Q. unfold tmonth, mnum in Q. lia.
  Qed.
  Lemma m2s_whole x s m td y0 n : (exists nm, time_info x td = Ok nm) -> all_valid c (samples (inp x)) -> all_tidy (width (inp x)) (samples (inp x)) -> spells s m ->
    let xs : smp := samples (inp x) in let w := width (inp x) in whole_years y0 n xs ->
    exists out, M2S x s td = Ok out /\ List.length out = n /\
      forall j, (j < n)%nat -> forall d, let l := mkTime (y0 + Z.of_nat j) (m mod 12 + 1) 1 0 in
        fst (nth j out d) = l /\ forall k, (k < w)%nat -> snd (nth j out d) k = mean_present (map (fun e => snd e k) (filter (fun e => around l (fst e)) xs)).
  Proof.
    intros (nm & Et) V Ti S xs w W. assert (Hm := proj1 S). assert (Hn := proj1 W). assert (Vs : forall e, In e xs -> valid c (fst e)) by (unfold all_valid in V; rewrite Forall_forall in V; auto).
    assert (L : (List.length xs mod 12 = 0)%nat). { pose proof (whole_length y0 n xs W) as LW. unfold frame. rewrite LW, Nat.mul_comm. apply Nat.mod_mul. lia. }
    destruct (m2s_eq x s m td nm Et V S L) as [M1 M2]. fold xs in M1, M2. set (K := kept s m xs) in *.
    (* a kept sample for the middle month of each year *)
    assert (MID : forall i, y0 <= i < y0 + Z.of_nat n -> exists e, In e K /\ tmonth (fst e) = 12 * i + m mod 12).
    { intros i Hi. assert (Q : In (12 * i + m mod 12) (map (fun e => tmonth (fst e)) xs)). { rewrite (proj2 W). apply between_In. lia. }
      apply in_map_iff in Q. destruct Q as (e & Te & He). exists e. split; auto. set (l := mkTime i (m mod 12 + 1) 1 0).
      assert (Q : In e (filter (fun e => around l (fst e)) K)). { unfold K. rewrite (kept_around y0 n) by (auto; unfold l; cbn [mo yr]; lia). apply filter_In. split; auto. unfold around. rewrite Te. apply Z.leb_le. unfold l, tmonth, mnum. cbn [yr mo]. lia. }
      apply filter_In in Q. tauto. }
    assert (RNG : forall e, In e K -> exists i, y0 <= i < y0 + Z.of_nat n /\ 12 * i + m mod 12 - 1 <= tmonth (fst e) <= 12 * i + m mod 12 + 1).
    { intros e He. assert (KX := kept_incl s m xs e He). destruct KX as [Xe Se]. assert (Q : In (tmonth (fst e)) (between (12 * y0) (12 * (y0 + Z.of_nat n) - 1))) by (rewrite <- (proj2 W); apply (in_map (fun e => tmonth (fst e))); auto). apply between_In in Q.
      unfold in_season in Se. apply Z.ltb_lt in Se. destruct (Vs e Xe) as (B & _).
      exists ((tmonth (fst e) + 1 - m mod 12) / 12). destruct (Z.eq_dec m 12) as [E12|N12]; [|destruct (Z.eq_dec m 11) as [E11|N11]].
      - (* DJF: the last December is dropped *)
        subst m. assert (s = "DJF")%string by (destruct S as [_ ->]; reflexivity). subst s.
        assert (TM : tmonth (fst e) <> 12 * (y0 + Z.of_nat n) - 1). { intros Te. unfold K, kept in He. cbv zeta in He. cbn [String.eqb Ascii.eqb Bool.eqb] in He. destruct W as [_ W].
          clear -W He Te Hn Vs. destruct xs as [|a xs'] using rev_ind; [destruct He|]. clear IHxs'. rewrite map_app in W. cbn [map] in W. rewrite between_snoc in W by lia. apply app_inj_tail in W. destruct W as [W Wa].
          assert (Sa : in_season 12 (fst a) = true). { destruct (Vs a ltac:(apply in_or_app; right; left; auto)) as (B & _). unfold in_season. apply Z.ltb_lt. unfold tmonth, mnum in Wa. lia. }
          rewrite last_filter, removelast_last in He by auto. apply filter_In in He. destruct He as [He _]. assert (Q : In (tmonth (fst e)) (map (fun e => tmonth (fst e)) xs')) by (apply (in_map (fun e => tmonth (fst e))); auto). rewrite W in Q. apply between_In in Q. lia. }
        unfold tmonth, mnum in *. lia.
      - subst m. assert (s = "NDJ")%string by (destruct S as [_ ->]; reflexivity). subst s.
        assert (TM : tmonth (fst e) <> 12 * y0). { intros Te. unfold K, kept in He. cbv zeta in He. cbn [String.eqb Ascii.eqb Bool.eqb] in He. destruct W as [_ W].
          clear -W He Te Hn Vs. destruct xs as [|a xs']; [destruct He|]. cbn [map] in W. rewrite between_cons in W by lia. assert (Wa := f_equal (hd 0) W). apply (f_equal (@tl Z)) in W. cbn [hd tl] in Wa, W.
          assert (Sa : in_season 11 (fst a) = true). { destruct (Vs a ltac:(left; auto)) as (B & _). unfold in_season. apply Z.ltb_lt. unfold tmonth, mnum in Wa. lia. }
          cbn [filter] in He. rewrite Sa in He. cbn [tl] in He. apply filter_In in He. destruct He as [He _]. assert (Q : In (tmonth (fst e)) (map (fun e => tmonth (fst e)) xs')) by (apply (in_map (fun e => tmonth (fst e))); auto). rewrite W in Q. apply between_In in Q. lia. }
        unfold tmonth, mnum in *. lia.
      - unfold tmonth, mnum in *. lia. }
    assert (NE : K <> []). { destruct (MID y0 ltac:(lia)) as (e & He & _). intros Q. rewrite Q in He. destruct He. }
    destruct (M2 NE) as (lo & hi & Hlh & Ball & (e1 & He1 & B1) & (e2 & He2 & B2) & E).
    set (o := if m =? 12 then 1 else 0).
    assert (Lo : lo = y0 - o /\ hi = y0 + Z.of_nat n - 1 - o).
    { destruct (MID y0 ltac:(lia)) as (f1 & F1 & G1). destruct (MID (y0 + Z.of_nat n - 1) ltac:(lia)) as (f2 & F2 & G2). pose proof (Ball f1 F1). pose proof (Ball f2 F2). destruct (RNG e1 He1) as (i1 & I1 & J1). destruct (RNG e2 He2) as (i2 & I2 & J2). pose proof (Ball e1 He1). pose proof (Ball e2 He2). unfold o. destruct (Z.eqb_spec m 12) as [E12|N12]; lia. }
    destruct Lo as [-> ->]. eexists. split; [exact E|]. rewrite map_length, between_length. split; [lia|].
    intros j Hj d l. set (g := fun i => let l := mkTime ((12 * i + m) / 12) ((12 * i + m) mod 12 + 1) 1 0 in (l, mean_of (filter (fun e => around l (fst e)) K))).
    assert (Nth : nth j (map g (between (y0 - o) (y0 + Z.of_nat n - 1 - o))) d = g (y0 - o + Z.of_nat j)).
    { rewrite (nth_indep _ d (g 0)) by (rewrite map_length, between_length; lia). rewrite map_nth, nth_between by lia. reflexivity. }
    assert (EL : mkTime ((12 * (y0 - o + Z.of_nat j) + m) / 12) ((12 * (y0 - o + Z.of_nat j) + m) mod 12 + 1) 1 0 = l).
    { unfold l, o. destruct (Z.eqb_spec m 12) as [E12|N12]; f_equal; lia. }
    change (fst (nth j (map g (between (y0 - o) (y0 + Z.of_nat n - 1 - o))) d) = l /\ forall k, (k < w)%nat -> snd (nth j (map g (between (y0 - o) (y0 + Z.of_nat n - 1 - o))) d) k = mean_present (map (fun e => snd e k) (filter (fun e => around l (fst e)) xs))).
    rewrite Nth. unfold g. rewrite EL. cbv zeta. cbn [fst snd]. split; auto. intros k Hk. unfold mean_of, K. rewrite (kept_around y0 n) by (auto; unfold l; cbn [mo yr]; lia).
    apply nanmean_present. apply Forall_forall. intros v Hv. apply in_map_iff in Hv. destruct Hv as (z & <- & Hz). apply filter_In in Hz. destruct Hz as [Hz _].
    unfold all_tidy in Ti. rewrite Forall_forall in Ti. apply (Ti z); auto.
  Qed.
  Lemma m2s_errors x s td : (exists nm, time_info x td = Ok nm) ->
    ((List.length (samples (inp x)) mod 12 <> 0)%nat -> M2S x s td = Err ValueError) /\
    ((List.length (samples (inp x)) mod 12 = 0)%nat -> (forall m, ~ spells s m) -> M2S x s td = Err KeyError).
  Proof.
    intros (nm & Et). unfold month_to_season. rewrite Et. cbn [bind]. cbv zeta. split.
    - intros H. destruct (Nat.eqb_spec (List.length (samples (inp x)) mod 12) 0); [contradiction|]. reflexivity.
    - intros -> H. apply find_season_none in H. rewrite H. reflexivity.
  Qed.
End M2S.
