(** climatology_average by hour, day and month of the year. *)
From Coq Require Import Reals List Bool Arith ZArith Lra Lia String Permutation Sorted.
From Verif Require Import PyBase Num NumFacts SumFacts Calendar CalendarFacts SpecClim Climat ClimFacts ClimApi ClimLong.
Import ListNotations.
Local Open Scope Z_scope.

(** ** sorting *)
Lemma zinsert_perm z l : Permutation (z :: l) (zinsert z l).
Proof. induction l as [|x l IH]; cbn; auto. destruct (z <=? x); auto. rewrite perm_swap. auto. Qed.
Lemma zsort_perm l : Permutation l (zsort l).
Proof. induction l as [|x l IH]; cbn; auto. rewrite <- zinsert_perm. auto. Qed.
Lemma zinsert_sorted z l : StronglySorted Z.le l -> StronglySorted Z.le (zinsert z l).
Proof.
  induction l as [|x l IH]; cbn; intros H; [repeat constructor|]. inversion H as [|? ? Hl Hx]; subst. destruct (Z.leb_spec z x) as [L|L].
  - constructor; auto. constructor; auto. eapply Forall_impl; [|exact Hx]. cbn. lia.
  - constructor; auto. apply Forall_forall. intros y Hy. apply (Permutation_in _ (Permutation_sym (zinsert_perm z l))) in Hy. rewrite Forall_forall in Hx. destruct Hy as [->|Hy]; [lia|auto].
Qed.
Lemma zsort_sorted l : StronglySorted Z.le (zsort l).
Proof. induction l; cbn; [constructor|]. apply zinsert_sorted; auto. Qed.
Lemma sorted_unique l l' : StronglySorted Z.le l -> StronglySorted Z.le l' -> Permutation l l' -> l = l'.
Proof.
  revert l'. induction l as [|a l IH]; intros l' S S' P.
  - apply Permutation_nil in P. auto.
  - destruct l' as [|b l']; [apply Permutation_sym, Permutation_nil in P; discriminate|]. inversion S as [|? ? Sl Sa]; subst. inversion S' as [|? ? Sl' Sb]; subst. rewrite Forall_forall in Sa, Sb.
    assert (a = b). { assert (Ha : In a (b :: l')) by (apply (Permutation_in _ P); left; auto). assert (Hb : In b (a :: l)) by (apply (Permutation_in _ (Permutation_sym P)); left; auto).
      destruct Ha as [->|Ha]; auto. destruct Hb as [->|Hb]; auto. pose proof (Sa b Hb). pose proof (Sb a Ha). lia. }
    subst b. f_equal. apply IH; auto. apply Permutation_cons_inv in P. auto.
Qed.
Lemma sorted_strict l : NoDup l -> StronglySorted Z.le l -> StronglySorted Z.lt l.
Proof.
  induction l as [|a l IH]; intros ND S; constructor; inversion ND as [|? ? Na ND']; subst; inversion S as [|? ? Sl Sa]; subst; auto.
  rewrite Forall_forall in *. intros x Hx. specialize (Sa x Hx). assert (a <> x) by (intros ->; auto). lia.
Qed.
Lemma keys_In k ts z : In z (keys k ts) <-> exists t, In t ts /\ k t = z.
Proof.
  unfold keys, zuniq. split.
  - intros H. apply (Permutation_in _ (Permutation_sym (zsort_perm _))) in H. apply nodup_In in H. apply in_map_iff in H. destruct H as (t & E & H). eauto.
  - intros (t & H & E). apply (Permutation_in _ (zsort_perm _)). apply nodup_In. apply in_map_iff. eauto.
Qed.
Lemma keys_strict k ts : StronglySorted Z.lt (keys k ts).
Proof. apply sorted_strict; [|apply zsort_sorted]. unfold keys. apply (Permutation_NoDup (zsort_perm _)). apply NoDup_nodup. Qed.
(** a strictly increasing list from a to b has at most b - a + 1 elements, and so many only if it is the whole range *)
Lemma increasing_range l : StronglySorted Z.lt l -> forall a b, Forall (fun z => a <= z <= b) l -> (List.length l <= Z.to_nat (b - a + 1))%nat /\ (List.length l = Z.to_nat (b - a + 1) -> l = between a b).
Proof.
  intros S. induction S as [|x l S IH Hx]; intros a b F.
  - split; [cbn; lia|]. cbn. intros E. unfold between. rewrite <- E. reflexivity.
  - inversion F as [|? ? Fx Fl]; subst. assert (F' : Forall (fun z => x + 1 <= z <= b) l). { rewrite Forall_forall in *. intros z Hz. specialize (Hx z Hz). specialize (Fl z Hz). lia. }
    destruct (IH (x + 1) b F') as [L1 L2]. cbn [List.length]. split; [lia|]. intros E. assert (x = a) by lia. subst x. rewrite L2 by lia. rewrite <- between_cons by lia. reflexivity.
Qed.
Lemma increasing_last l a : StronglySorted Z.lt (a :: l) -> Forall (fun z => a <= z <= last (a :: l) a) (a :: l).
Proof.
  intros S. destruct (exists_last (l := a :: l) ltac:(discriminate)) as (l' & b & E). assert (EL : last (a :: l) a = b) by (rewrite E; apply last_last). rewrite EL.
  apply Forall_forall. intros z Hz. split.
  - destruct Hz as [->|Hz]; [lia|]. inversion S as [|? ? _ H]; subst. rewrite Forall_forall in H. specialize (H z Hz). lia.
  - rewrite E in Hz, S. clear E EL. induction l' as [|y l' IH]; cbn in *; [destruct Hz as [->|[]]; lia|]. inversion S as [|? ? S' H]; subst.
    destruct Hz as [->|Hz]; [|auto]. rewrite Forall_forall in H. specialize (H b ltac:(apply in_or_app; right; left; auto)). lia.
Qed.

(** ** the label year *)
Lemma Sorted_strong l : Sorted Z.le l -> StronglySorted Z.le l.
Proof. apply Sorted_StronglySorted. intros a b d. lia. Qed.
Lemma even_div2 n : Nat.even n = true -> (0 < n)%nat -> ((n - 1) / 2 = n / 2 - 1)%nat.
Proof. intros E H. apply Nat.even_spec in E. destruct E as [m ->]. destruct m; [lia|]. replace (2 * S m - 1)%nat with (1 + m * 2)%nat by lia. rewrite Nat.div_add by lia. replace (2 * S m)%nat with (S m * 2)%nat by lia. rewrite Nat.div_mul by lia. cbn. lia. Qed.
Lemma odd_div2 n : Nat.even n = false -> ((n - 1) / 2 = n / 2)%nat.
Proof. intros E. assert (O : Nat.odd n = true) by (rewrite <- Nat.negb_even, E; auto). apply Nat.odd_spec in O. destruct O as [m ->]. replace (2 * m + 1 - 1)%nat with (m * 2)%nat by lia. rewrite Nat.div_mul by lia. replace (2 * m + 1)%nat with (1 + m * 2)%nat by lia. rewrite Nat.div_add by lia. reflexivity. Qed.
Lemma median2_iff l m : l <> [] -> median_twice l m <-> m = median2 l.
Proof.
  intros NE. assert (Q : median2 l = nth (List.length (zsort l) / 2) (zsort l) 0 + nth ((List.length (zsort l) - 1) / 2) (zsort l) 0).
  { unfold median2. destruct (Nat.even (List.length (zsort l))) eqn:E.
    - rewrite (even_div2 _ E); [lia|]. rewrite <- (Permutation_length (zsort_perm l)). destruct l; [contradiction|cbn; lia].
    - rewrite (odd_div2 _ E). lia. }
  rewrite Q. split.
  - intros (s & P & S & ->). assert (s = zsort l) by (apply sorted_unique; [apply Sorted_strong; auto|apply zsort_sorted|]; rewrite <- P; apply zsort_perm). subst s. auto.
  - intros ->. exists (zsort l). split; [apply zsort_perm|]. split; auto. apply StronglySorted_Sorted, zsort_sorted.
Qed.
Lemma round_half_iff m y : rounds_to m y <-> y = round_half m.
Proof.
  unfold rounds_to, round_half. destruct (Z.even m) eqn:E.
  - apply Z.even_spec in E. destruct E as [n ->]. replace (2 * n / 2) with n by lia. split; [|intros ->; left; auto]. intros [H|[_ [H|H]]]; lia.
  - assert (O : Z.odd m = true) by (rewrite <- Z.negb_even, E; auto). apply Z.odd_spec in O. destruct O as [n ->]. replace ((2 * n + 1) / 2) with n by lia. destruct (Z.even n) eqn:En.
    + split.
      * intros [H|[Ey [H|H]]]; try lia. assert (y = n + 1) by lia. subst y. rewrite Z.even_add, En in Ey. discriminate.
      * intros ->. right. split; auto. lia.
    + split.
      * intros [H|[Ey [H|H]]]; try lia. assert (y = n) by lia. subst y. congruence.
      * intros ->. right. rewrite Z.even_add, En. split; auto. lia.
Qed.
Lemma label_year_iff ts y : ts <> [] -> label_year ts y <-> y = round_half (median2 (map yr ts)).
Proof.
  intros NE. unfold label_year. assert (map yr ts <> []) by (destruct ts; [contradiction|discriminate]). split.
  - intros (m & M & R). apply median2_iff in M; auto. subst m. apply round_half_iff; auto.
  - intros ->. exists (median2 (map yr ts)). split; [apply median2_iff; auto|apply round_half_iff; auto].
Qed.

Section Keys.
  Variables (c : cal) (infer_freq : list time -> bool) (empty_exc : exc).
  Local Notation CL := (climatology_average c infer_freq empty_exc).
  Local Notation smp := (list (time * frame fl)).
  Definition cyclic (f : per) : Prop := f = Hour \/ f = Day \/ f = Month.

  Lemma key_same f t u : cyclic f -> valid c t -> valid c u -> same_key f t u = true <-> key f u = key f t.
  Proof.
    intros H (M & Dd & S) (M' & Dd' & S'). pose proof (mlen_bounds c (yr t) (mo t)). pose proof (mlen_bounds c (yr u) (mo u)).
    destruct H as [->|[->| ->]]; cbn [same_key key]; rewrite ?andb_true_iff, ?Z.eqb_eq.
    - assert (0 <= sec t / 3600 < 24 /\ 0 <= sec u / 3600 < 24) by lia. set (a := sec t / 3600) in *. set (b := sec u / 3600) in *. clearbody a b. lia.
    - lia.
    - lia.
  Qed.
  Lemma same_key_refl f t : same_key f t t = true.
  Proof. destruct f; cbn; rewrite ?Z.eqb_refl; reflexivity. Qed.
  (** the date exists in year y *)
  Lemma instant_day t : valid c t -> instant c t / 86400 = mstart c (tmonth t) + (dy t - 1).
  Proof. intros (_ & _ & S). unfold instant. lia. Qed.
  Lemma instant_hour t : valid c t -> instant c t / 3600 = 24 * (mstart c (tmonth t) + (dy t - 1)) + sec t / 3600.
  Proof. intros (_ & _ & S). unfold instant. lia. Qed.
  Lemma parse_year f y t : cyclic f -> valid c t -> valid c (in_year f y t) -> 1000 <= y -> parse c f y (key f t) = Ok (pnum c f (in_year f y t)).
  Proof.
    intros H V V' Hy. unfold parse. destruct (Z.ltb_spec y 1000); [lia|]. pose proof V' as (M & Dd & S). cbn [mo dy sec yr in_year] in M, Dd, S. pose proof (mlen_bounds c y (mo t)).
    destruct H as [->|[->| ->]]; cbn [key].
    - assert (0 <= sec t / 3600 < 24) by lia. cbn [pnum]. rewrite instant_hour by auto. change (tmonth (in_year Hour y t)) with (mnum y (mo t)). change (dy (in_year Hour y t)) with (dy t). change (sec (in_year Hour y t)) with (sec t). set (a := sec t / 3600) in *. clearbody a.
      replace ((100 * (100 * mo t + dy t) + a) / 100 mod 100) with (dy t) by lia. replace ((100 * (100 * mo t + dy t) + a) / 10000) with (mo t) by lia. replace ((100 * (100 * mo t + dy t) + a) mod 100) with a by lia.
      destruct (Z.ltb_spec (mlen c y (mo t)) (dy t)); [lia|]. reflexivity.
    - cbn [pnum]. rewrite instant_day by auto. change (tmonth (in_year Day y t)) with (mnum y (mo t)). change (dy (in_year Day y t)) with (dy t).
      replace ((100 * mo t + dy t) mod 100) with (dy t) by lia. replace ((100 * mo t + dy t) / 100) with (mo t) by lia.
      destruct (Z.ltb_spec (mlen c y (mo t)) (dy t)); [lia|]. reflexivity.
    - reflexivity.
  Qed.
  Lemma key_mono f y t u : cyclic f -> valid c t -> valid c u -> valid c (in_year f y t) -> valid c (in_year f y u) -> key f t < key f u -> pnum c f (in_year f y t) < pnum c f (in_year f y u).
  Proof.
    intros H V W V' W' K. pose proof (mlen_bounds c (yr t) (mo t)). pose proof (mlen_bounds c (yr u) (mo u)).
    assert (DM : mo t < mo u -> mstart c (mnum y (mo t)) + dy (in_year f y t) <= mstart c (mnum y (mo u))).
    { intros L. pose proof (day_in_month c _ V') as Q. rewrite instant_day in Q by auto. change (tmonth (in_year f y t)) with (mnum y (mo t)) in Q.
      pose proof (mstart_le c (mnum y (mo t) + 1) (mnum y (mo u)) ltac:(unfold mnum; lia)). lia. }
    pose proof V as (M & Dd & S). pose proof W as (M' & Ddu & S').
    destruct H as [->|[->| ->]]; cbn [key] in K; cbn [pnum].
    - rewrite !instant_hour by auto. change (tmonth (in_year Hour y t)) with (mnum y (mo t)). change (dy (in_year Hour y t)) with (dy t) in *. change (sec (in_year Hour y t)) with (sec t).
      change (tmonth (in_year Hour y u)) with (mnum y (mo u)). change (dy (in_year Hour y u)) with (dy u). change (sec (in_year Hour y u)) with (sec u).
      assert (0 <= sec t / 3600 < 24 /\ 0 <= sec u / 3600 < 24) by lia. set (a := sec t / 3600) in *. set (b := sec u / 3600) in *. clearbody a b.
      assert (mo t < mo u \/ mo t = mo u) as [L|L] by lia; [specialize (DM L); lia|]. rewrite L in *. lia.
    - rewrite !instant_day by auto. change (tmonth (in_year Day y t)) with (mnum y (mo t)). change (dy (in_year Day y t)) with (dy t) in *. change (tmonth (in_year Day y u)) with (mnum y (mo u)). change (dy (in_year Day y u)) with (dy u).
      assert (mo t < mo u \/ mo t = mo u) as [L|L] by lia; [specialize (DM L); lia|]. rewrite L in *. lia.
    - unfold tmonth, mnum. cbn. lia.
  Qed.

  Definition clim_short (freq : string) (f : per) : Prop := (freq = "hour" /\ f = Hour \/ freq = "day" /\ f = Day \/ freq = "month" /\ f = Month)%string.
  Definition pv (f : per) (y k : Z) : Z := match parse c f y k with Ok p => p | _ => 0 end.
  Definition all_exist (f : per) (y : Z) (ts : list time) : Prop := forall t, In t ts -> valid c (in_year f y t).
  Lemma pv_sorted f y ts : cyclic f -> Forall (valid c) ts -> all_exist f y ts -> 1000 <= y -> StronglySorted Z.lt (map (pv f y) (keys (key f) ts)).
  Proof.
    intros H V A Hy. assert (Q : forall z, In z (keys (key f) ts) -> exists t, In t ts /\ key f t = z) by (intros z Hz; apply keys_In; auto).
    rewrite Forall_forall in V. pose proof (keys_strict (key f) ts) as S. induction S as [|a l S IH Ha]; cbn [map]; constructor.
    - apply IH. intros z Hz. apply Q. right. auto.
    - rewrite Forall_forall in Ha. apply Forall_forall. intros p Hp. apply in_map_iff in Hp. destruct Hp as (b & <- & Hb). specialize (Ha b Hb).
      destruct (Q a ltac:(left; auto)) as (t & Ht & <-). destruct (Q b ltac:(right; auto)) as (u & Hu & <-). unfold pv. rewrite !parse_year by auto. apply key_mono; auto.
  Qed.
  Lemma clim_eq x freq f td n y : clim_short freq f -> time_info x td = Ok n -> check_uniform c infer_freq (map fst (samples (inp x))) = Ok tt ->
    let xs := samples (inp x) in let ts := map fst xs in let ks := keys (key f) ts in forall custom,
    all_valid c xs -> xs <> [] -> label_year ts y ->
    (y < 1000 -> CL x freq custom td = Err ValueError) /\
    (1000 <= y -> all_exist f y ts -> forall k0 r, ks = k0 :: r ->
       (map (pv f y) ks = between (pv f y k0) (pv f y (last ks k0)) -> CL x freq custom td = Ok (Times (map (fun k => (midpoint c f (pv f y k), mean_of (having (key f) k xs))) ks))) /\
       (map (pv f y) ks <> between (pv f y k0) (pv f y (last ks k0)) -> CL x freq custom td = Err ValueError)).
  Proof.
    intros S Ti U xs ts ks custom V NE LY.
    assert (Hf : cyclic f) by (destruct S as [[_ ->]|[[_ ->]|[_ ->]]]; unfold cyclic; auto).
    assert (VT : Forall (valid c) ts) by (unfold ts; rewrite Forall_map; exact V).
    assert (NT : ts <> []) by (unfold ts; destruct xs; [contradiction|discriminate]).
    apply label_year_iff in LY; auto.
    assert (E : CL x freq custom td = match ks with [] => Err IndexError | k :: _ => do a <- parse c f y k ;; do b <- parse c f y (last ks k) ;; do l <- center c f a b (map (fun k => mean_of (having (key f) k xs)) ks) ;; Ok (Times l) end).
    { unfold climatology_average. rewrite Ti, U. cbn [bind].
      assert (E : clim_freq freq = Some f /\ String.eqb freq "season" = false) by (destruct S as [[-> ->]|[[-> ->]|[-> ->]]]; split; reflexivity).
      destruct E as [E1 E2]. rewrite E1, E2. cbn [oget bind]. cbv zeta. fold xs ts ks. assert (EY : round_half (median2 (map (fun s => yr (fst s)) xs)) = y) by (rewrite LY; unfold ts; rewrite map_map; reflexivity). rewrite EY. reflexivity. }
    split.
    - intros Hy. rewrite E. destruct ks as [|k l] eqn:K.
      + exfalso. destruct ts as [|t ts']; [contradiction|]. assert (Q : In (key f t) ks) by (apply keys_In; exists t; split; [left|]; auto). rewrite K in Q. destruct Q.
      + unfold parse at 1. destruct (Z.ltb_spec y 1000); [|lia]. reflexivity.
    - intros Hy A k0 r K. assert (PK : forall k, In k ks -> parse c f y k = Ok (pv f y k)).
      { intros k Hk. apply keys_In in Hk. destruct Hk as (t & Ht & <-). unfold pv. rewrite Forall_forall in VT. rewrite parse_year by auto. reflexivity. }
      assert (E' : CL x freq custom td = do l <- center c f (pv f y k0) (pv f y (last ks k0)) (map (fun k => mean_of (having (key f) k xs)) ks) ;; Ok (Times l)).
      { rewrite E. rewrite K at 1. rewrite (PK k0) by (rewrite K; left; auto). cbn [bind]. rewrite (PK (last ks k0)); [reflexivity|].
        rewrite K. destruct (exists_last (l := k0 :: r) ltac:(discriminate)) as (l' & b & EL). rewrite EL at 2. rewrite EL, last_last. apply in_or_app. right. left. auto. }
      rewrite E'. unfold center. cbv zeta. rewrite map_length.
      pose proof (pv_sorted f y ts Hf VT A Hy) as SS. fold ks in SS.
      assert (RG : Forall (fun z => pv f y k0 <= z <= pv f y (last ks k0)) (map (pv f y) ks)).
      { rewrite K in SS |- *. cbn [map] in *. pose proof (increasing_last _ _ SS) as Q. replace (pv f y (last (k0 :: r) k0)) with (last (pv f y k0 :: map (pv f y) r) (pv f y k0)); auto. apply (last_map (pv f y)). }
      destruct (increasing_range _ SS _ _ RG) as [L1 L2]. rewrite map_length in L1, L2. rewrite between_length. split.
      + intros EQ. assert (LL : List.length ks = Z.to_nat (pv f y (last ks k0) - pv f y k0 + 1)) by (rewrite <- between_length, <- EQ, map_length; auto). rewrite LL, Nat.eqb_refl. cbn [negb bind]. rewrite <- EQ, map_map, combine_map. reflexivity.
      + intros NQ. destruct (Nat.eqb_spec (Z.to_nat (pv f y (last ks k0) - pv f y k0 + 1)) (List.length ks)) as [LL|LL]; [|reflexivity]. exfalso. apply NQ. auto.
  Qed.
End Keys.
