(** calendar_average of a record cut at a period boundary. *)
From Coq Require Import List Bool Arith ZArith Lia String Sorted.
From Verif Require Import PyBase Num Calendar CalendarFacts SpecClim Climat ClimFacts ClimApi ClimLong SpecSplit.
Import ListNotations.
Local Open Scope Z_scope.

Section Split.
  Context {T : Type} {N : Num T}.
  Variables (c : cal) (infer_freq : list time -> bool).
  Hypothesis NM : isnan (nnan : T) = true.
  Local Notation smp := (list (time * frame T)).
  Local Notation CA := (calendar_average c infer_freq).
  Definition ok_dates (xs : smp) : Prop := Forall (fun s => valid c (fst s)) xs.
  Definition sep (f : per) (xs ys : smp) : Prop := forall s u, In s xs -> In u ys -> pnum c f (fst s) < pnum c f (fst u).

  Lemma cut_sep f xs ys : ok_dates xs -> ok_dates ys -> cut_at c f xs ys -> sep f xs ys.
  Proof.
    unfold ok_dates. rewrite !Forall_forall. intros V V' H s u Hs Hu. destruct (H s u Hs Hu) as [L D].
    assert (pnum c f (fst s) <= pnum c f (fst u)) by (apply pnum_mono; auto; lia).
    destruct (Z.eq_dec (pnum c f (fst u)) (pnum c f (fst s))) as [E|E]; [|lia]. apply same_period_pnum in E; auto. congruence.
  Qed.
  Lemma month_sep f xs ys : match f with Hour | Day => False | _ => True end -> ok_dates xs -> ok_dates ys -> sep f xs ys -> sep Month xs ys.
  Proof.
    unfold ok_dates. rewrite !Forall_forall. intros F V V' H s u Hs Hu. specialize (H s u Hs Hu). cbn [pnum].
    destruct (Z_lt_le_dec (tmonth (fst s)) (tmonth (fst u))) as [L|L]; [exact L|exfalso].
    destruct f; try contradiction; cbn [pnum] in H; lia.
  Qed.

  Lemma sep_nil_l f ys : sep f [] ys. Proof. intros s u []. Qed.
  Lemma members_app f p (xs ys : smp) : members c f p (xs ++ ys) = members c f p xs ++ members c f p ys.
  Proof. apply filter_app. Qed.
  Lemma members_none f p (xs : smp) : ok_dates xs -> (forall s, In s xs -> pnum c f (fst s) <> p) -> members c f p xs = [].
  Proof. intros V H. rewrite members_pnum by exact V. apply filter_none. intros s Hs. apply Z.eqb_neq. auto. Qed.

  (** the periods of the whole: those of the parts and those between *)
  Lemma resampled_app red f (xs ys : smp) : ok_dates xs -> ok_dates ys -> xs <> [] -> ys <> [] -> sep f xs ys ->
    exists a b a' b', a <= b /\ b < a' /\ a' <= b' /\
      (forall s, In s xs -> a <= pnum c f (fst s) <= b) /\ (forall s, In s ys -> a' <= pnum c f (fst s) <= b') /\
      bins c f (map fst xs) = between a b /\ bins c f (map fst ys) = between a' b' /\ bins c f (map fst (xs ++ ys)) = between a b' /\
      resampled c red f (xs ++ ys) = resampled c red f xs ++ map (fun p => (date_of c (pstart c f p), red [])) (between (b + 1) (a' - 1)) ++ resampled c red f ys.
  Proof.
    intros V V' NX NY Sp.
    destruct (bins_spec c f (map fst xs)) as (a & b & B & R & (t & Ht & Et) & (t2 & Ht2 & Et2)); [destruct xs; [contradiction|discriminate]|].
    destruct (bins_spec c f (map fst ys)) as (a' & b' & B' & R' & (u & Hu & Eu) & (u2 & Hu2 & Eu2)); [destruct ys; [contradiction|discriminate]|].
    destruct (bins_spec c f (map fst (xs ++ ys))) as (a2 & b2 & B2 & R2 & (v & Hv & Ev) & (v2 & Hv2 & Ev2)); [destruct xs; [contradiction|discriminate]|].
    assert (R1 : forall s, In s xs -> a <= pnum c f (fst s) <= b) by (intros; apply R, in_map; auto).
    assert (R1' : forall s, In s ys -> a' <= pnum c f (fst s) <= b') by (intros; apply R', in_map; auto).
    assert (Lab : a <= b) by (specialize (R t Ht); lia). assert (Lab' : a' <= b') by (specialize (R' u Hu); lia).
    assert (Lbc : b < a'). { apply in_map_iff in Ht2, Hu. destruct Ht2 as (s & <- & Hs). destruct Hu as (s' & <- & Hs'). specialize (Sp s s' Hs Hs'). lia. }
    assert (In12 : forall t, In t (map fst (xs ++ ys)) -> a <= pnum c f t <= b').
    { intros w Hw. rewrite map_app in Hw. apply in_app_iff in Hw. destruct Hw as [Hw|Hw]; [specialize (R w Hw)|specialize (R' w Hw)]; lia. }
    assert (Ea : a2 = a). { pose proof (In12 v Hv). assert (In t (map fst (xs ++ ys))) by (rewrite map_app; apply in_app_iff; auto). specialize (R2 t H0). lia. }
    assert (Eb : b2 = b'). { pose proof (In12 v2 Hv2). assert (In u2 (map fst (xs ++ ys))) by (rewrite map_app; apply in_app_iff; auto). specialize (R2 u2 H0). lia. }
    rewrite Ea, Eb in B2. exists a, b, a', b'. split; [assumption|]. split; [assumption|]. split; [assumption|]. split; [assumption|]. split; [assumption|]. split; [exact B|]. split; [exact B'|]. split; [exact B2|].
    unfold resampled. rewrite B2, B, B'. rewrite (between_split a (b + 1) b') by lia. replace (b + 1 - 1) with b by lia. rewrite (between_split (b + 1) a' b') by lia. rewrite !map_app.
    f_equal; [|f_equal]; apply map_ext_in; intros p Hp; apply between_In in Hp; f_equal; f_equal; rewrite members_app.
    - rewrite (members_none f p ys V'), app_nil_r; [reflexivity|]. intros s Hs. specialize (R1' s Hs). lia.
    - rewrite (members_none f p xs V), (members_none f p ys V'); [reflexivity| |]; intros s Hs; [specialize (R1' s Hs)|specialize (R1 s Hs)]; lia.
    - rewrite (members_none f p xs V); [reflexivity|]. intros s Hs. specialize (R1 s Hs). lia.
  Qed.
  Local Notation md w f xs := (dropna w (resampled c mean_of f xs)).
  Lemma md_app w f (xs ys : smp) : (0 < w)%nat -> ok_dates xs -> ok_dates ys -> sep f xs ys -> md w f (xs ++ ys) = md w f xs ++ md w f ys.
  Proof.
    intros Hw V V' Sp. destruct xs as [|x xs0] eqn:Ex; [reflexivity|rewrite <- Ex in *]. destruct ys as [|y ys0] eqn:Ey; [rewrite app_nil_r; cbn; rewrite app_nil_r; reflexivity|rewrite <- Ey in *].
    destruct (resampled_app mean_of f xs ys V V' ltac:(rewrite Ex; discriminate) ltac:(rewrite Ey; discriminate) Sp) as (a & b & a' & b' & _ & _ & _ & _ & _ & _ & _ & _ & E).
    rewrite E. unfold dropna. rewrite !filter_app. f_equal. rewrite filter_none; [reflexivity|].
    intros s Hs. apply in_map_iff in Hs. destruct Hs as (p & <- & _). cbn [snd]. destruct w as [|w]; [lia|]. cbn [seq forallb]. unfold mean_of. cbn [map]. change (nanmean (@nil T)) with (nnan : T). rewrite NM. reflexivity.
  Qed.
  (** dates of resampled data *)
  Lemma resampled_dates red f (xs : smp) s : In s (resampled c red f xs) -> valid c (fst s) /\ exists p, In p (bins c f (map fst xs)) /\ pnum c f (fst s) = p.
  Proof. unfold resampled. intros H. apply in_map_iff in H. destruct H as (p & <- & Hp). cbn [fst]. destruct (start_pnum c f p) as [E V]. split; [exact V|]. exists p. auto. Qed.
  Lemma md_dates w f (xs : smp) s : In s (md w f xs) -> valid c (fst s) /\ exists p, In p (bins c f (map fst xs)) /\ pnum c f (fst s) = p.
  Proof. intros H. unfold dropna in H. apply filter_In in H. apply (resampled_dates mean_of f xs s). tauto. Qed.
  Lemma md_ok w f (xs : smp) : ok_dates (md w f xs).
  Proof. apply Forall_forall. intros s Hs. apply md_dates in Hs. tauto. Qed.
  Lemma md_sep w f (xs ys : smp) : match f with Hour | Day => False | _ => True end -> ok_dates xs -> ok_dates ys -> sep f xs ys -> sep f (md w Month xs) (md w Month ys).
  Proof.
    intros F V V' Sp s u Hs Hu. apply md_dates in Hs, Hu. destruct Hs as (Vs & p & Hp & Es). destruct Hu as (Vu & q & Hq & Eu).
    assert (NX : map fst xs <> []) by (intros Q; rewrite Q in Hp; destruct Hp). assert (NY : map fst ys <> []) by (intros Q; rewrite Q in Hq; destruct Hq).
    destruct (bins_spec c Month (map fst xs) NX) as (a & b & B & R & _ & (t & Ht & Et)). destruct (bins_spec c Month (map fst ys) NY) as (a' & b' & B' & R' & (t' & Ht' & Et') & _).
    rewrite B in Hp. rewrite B' in Hq. apply between_In in Hp, Hq. apply in_map_iff in Ht, Ht'. destruct Ht as (x & <- & Hx). destruct Ht' as (y & <- & Hy). specialize (Sp x y Hx Hy).
    cbn [pnum] in Es, Eu, Et, Et'. destruct f; try contradiction; cbn [pnum] in *; lia.
  Qed.
  Lemma weighted_app f (d1 d2 : smp) : ok_dates d1 -> ok_dates d2 -> sep f d1 d2 -> weighted c f (d1 ++ d2) = weighted c f d1 ++ weighted c f d2.
  Proof.
    intros V V' Sp. unfold weighted. rewrite map_app. f_equal; apply map_ext_in; intros s Hs; cbv zeta; rewrite members_app.
    - rewrite (members_none f _ d2 V'), app_nil_r; [reflexivity|]. intros u Hu. specialize (Sp s u Hs Hu). unfold frame in *. lia.
    - rewrite (members_none f _ d1 V); [reflexivity|]. intros u Hu. specialize (Sp u s Hu Hs). unfold frame in *. lia.
  Qed.
  Lemma weighted_dates f (d : smp) : map fst (weighted c f d) = map fst d.
  Proof. unfold weighted. rewrite map_map. reflexivity. Qed.
  Lemma ok_fst (d d' : smp) : map fst d = map fst d' -> ok_dates d' -> ok_dates d.
  Proof. unfold ok_dates. rewrite !Forall_forall. intros E H s Hs. apply (in_map fst) in Hs. rewrite E in Hs. apply in_map_iff in Hs. destruct Hs as (u & <- & Hu). auto. Qed.
  Lemma sep_fst f (d1 d2 e1 e2 : smp) : map fst e1 = map fst d1 -> map fst e2 = map fst d2 -> sep f d1 d2 -> sep f e1 e2.
  Proof.
    intros E1 E2 H s u Hs Hu. apply (in_map fst) in Hs, Hu. rewrite E1 in Hs. rewrite E2 in Hu. apply in_map_iff in Hs, Hu. destruct Hs as (s' & <- & Hs). destruct Hu as (u' & <- & Hu). auto.
  Qed.

  (** ** the labels *)
  Definition labelled (f : per) (d : smp) : res smp :=
    match d with [] => Err IndexError | s :: _ => center c f (pnum c f (fst s)) (pnum c f (fst (last d s))) (map snd d) end.
  Definition rising (f : per) (d : smp) : Prop := StronglySorted (fun s u => pnum c f (fst s) < pnum c f (fst u)) d.
  Lemma between_rising lo hi : StronglySorted Z.lt (between lo hi).
  Proof.
    unfold between. generalize (Z.to_nat (hi - lo + 1)). clear hi. intros n. revert lo. induction n as [|n IH]; intros lo; [constructor|]. rewrite zrange_S. constructor; [apply IH|].
    apply Forall_forall. intros z Hz. apply zrange_In in Hz. lia.
  Qed.
  Lemma sorted_map {A B} (R : B -> B -> Prop) (g : A -> B) l : StronglySorted (fun x y => R (g x) (g y)) l <-> StronglySorted R (map g l).
  Proof.
    induction l as [|x l IH]; cbn; [split; constructor|]. split; intros H; apply StronglySorted_inv in H; destruct H as [H1 H2]; constructor; try (apply IH; assumption); rewrite Forall_map in *; assumption.
  Qed.
  Lemma sorted_filter {A} (R : A -> A -> Prop) g l : StronglySorted R l -> StronglySorted R (filter g l).
  Proof.
    induction 1 as [|x l H IH F]; cbn; [constructor|]. destruct (g x); [|exact IH]. constructor; [exact IH|]. rewrite Forall_forall in *. intros y Hy. apply filter_In in Hy. apply F. tauto.
  Qed.
  Lemma resampled_rising red f (xs : smp) : rising f (resampled c red f xs).
  Proof.
    unfold rising. apply (sorted_map Z.lt (fun s => pnum c f (fst s))). unfold resampled. rewrite map_map. cbn [fst]. rewrite (map_ext _ (fun p => p)) by (intros; apply start_pnum). rewrite map_id.
    destruct (bins_range c f (map fst xs)) as (lo & hi & ->). apply between_rising.
  Qed.
  Lemma md_rising w f (xs : smp) : rising f (md w f xs).
  Proof. apply sorted_filter, resampled_rising. Qed.
  Lemma last_cons2 {A} (a b : A) l d : last (a :: b :: l) d = last (b :: l) d. Proof. reflexivity. Qed.
  Lemma last_default {A} (a : A) l d d' : last (a :: l) d = last (a :: l) d'.
  Proof. revert a. induction l as [|b l IH]; intros a; [reflexivity|]. rewrite !last_cons2. apply IH. Qed.
  Lemma rising_length f s (d : smp) : rising f (s :: d) -> Z.of_nat (List.length (s :: d)) <= pnum c f (fst (last (s :: d) s)) - pnum c f (fst s) + 1.
  Proof.
    revert s. induction d as [|u d IH]; intros s H; [cbn; lia|]. apply StronglySorted_inv in H. destruct H as [H F]. specialize (IH u H). apply Forall_inv in F.
    rewrite last_cons2, (last_default u d s u). cbn [List.length] in *. lia.
  Qed.
  Lemma labelled_ok f s (d : smp) : labelled f (s :: d) =
    let a := pnum c f (fst s) in let b := pnum c f (fst (last (s :: d) s)) in
    if Z.of_nat (List.length (s :: d)) =? b - a + 1 then Ok (combine (map (midpoint c f) (between a b)) (map snd (s :: d))) else Err ValueError.
  Proof.
    cbv zeta. unfold labelled, center. cbv zeta. rewrite between_length, map_length. set (a := pnum c f (fst s)). set (b := pnum c f (fst (last (s :: d) s))). 
    destruct (Nat.eqb_spec (Z.to_nat (b - a + 1)) (List.length (s :: d))) as [E|E]; destruct (Z.eqb_spec (Z.of_nat (List.length (s :: d))) (b - a + 1)) as [E'|E']; try reflexivity; exfalso; cbn [List.length] in *; lia.
  Qed.
  Lemma last_app_ne {A} (l l' : list A) d d' : l' <> [] -> last (l ++ l') d = last l' d'.
  Proof. intros H. destruct (exists_last H) as (r & x & ->). rewrite app_assoc, !last_last. reflexivity. Qed.
  Lemma hd_combine {A B} (a : A) l (b : B) l' d : hd d (combine (a :: l) (b :: l')) = (a, b). Proof. reflexivity. Qed.
  Lemma combine_app {A B} (l1 l2 : list A) (m1 m2 : list B) : List.length l1 = List.length m1 -> combine (l1 ++ l2) (m1 ++ m2) = combine l1 m1 ++ combine l2 m2.
  Proof. revert m1. induction l1 as [|a l1 IH]; intros [|b m1] H; try discriminate; [reflexivity|]. cbn. f_equal. apply IH. cbn in H. lia. Qed.
  (** labels of consecutive parts *)
  Lemma adjacent_mid f p q : adjacent c f (midpoint c f p) (midpoint c f q) <-> q = p + 1.
  Proof.
    destruct (midpoint_spec c f p) as (V & _ & E). destruct (midpoint_spec c f q) as (V' & _ & E'). pose proof (bounds_pstart c f _ V) as B. pose proof (bounds_pstart c f _ V') as B'. rewrite E in B. rewrite E' in B'. split.
    - intros (a & b & d & H1 & H2).
      assert (Q : forall u, valid c u -> (a <= instant c u < b <-> pstart c f p <= instant c u < pstart c f (p + 1))) by (intros u Vu; rewrite <- (H1 u Vu); apply B; exact Vu).
      assert (Q' : forall u, valid c u -> (b <= instant c u < d <-> pstart c f q <= instant c u < pstart c f (q + 1))) by (intros u Vu; rewrite <- (H2 u Vu); apply B'; exact Vu).
      assert (Z1 : forall z, a <= z < b <-> pstart c f p <= z < pstart c f (p + 1)) by (intros z; destruct (date_of_spec c z) as [Vz Ez]; specialize (Q _ Vz); rewrite Ez in Q; exact Q).
      assert (Z2 : forall z, b <= z < d <-> pstart c f q <= z < pstart c f (q + 1)) by (intros z; destruct (date_of_spec c z) as [Vz Ez]; specialize (Q' _ Vz); rewrite Ez in Q'; exact Q').
      pose proof (pstart_lt c f p). pose proof (pstart_lt c f q).
      assert (b = pstart c f (p + 1)). { pose proof (proj2 (Z1 (pstart c f (p + 1) - 1))). pose proof (proj1 (Z1 (pstart c f (p + 1)))). destruct (Z_lt_le_dec (pstart c f (p + 1)) b); lia. }
      assert (b = pstart c f q). { pose proof (proj2 (Z2 (pstart c f q))). pose proof (proj1 (Z2 b)). destruct (Z_lt_le_dec b d); lia. }
      destruct (Z_lt_le_dec q (p + 1)) as [L|L]; [pose proof (pstart_mono c f q (p + 1) L); lia|]. destruct (Z.eq_dec q (p + 1)); [assumption|]. pose proof (pstart_mono c f (p + 1) q ltac:(lia)). lia.
    - intros ->. exists (pstart c f p), (pstart c f (p + 1)), (pstart c f (p + 1 + 1)). split; assumption.
  Qed.
  (** the cut labelled *)
  Lemma labelled_app f (d1 d2 : smp) : rising f d1 -> rising f d2 -> sep f d1 d2 ->
    (forall o1 o2 d, labelled f d1 = Ok o1 -> labelled f d2 = Ok o2 ->
       (adjacent c f (fst (last o1 d)) (fst (hd d o2)) -> labelled f (d1 ++ d2) = Ok (o1 ++ o2)) /\
       (~ adjacent c f (fst (last o1 d)) (fst (hd d o2)) -> labelled f (d1 ++ d2) = Err ValueError)) /\
    (d1 <> [] -> d2 <> [] -> labelled f d1 = Err ValueError \/ labelled f d2 = Err ValueError -> labelled f (d1 ++ d2) = Err ValueError).
  Proof.
    intros R1 R2 Sp. destruct d1 as [|s1 d1]; [split; [intros o1 o2 d H; discriminate|contradiction]|]. destruct d2 as [|s2 d2]; [split; [intros o1 o2 d _ H; discriminate|contradiction]|].
    pose proof (rising_length f s1 d1 R1) as L1. pose proof (rising_length f s2 d2 R2) as L2. change ((s1 :: d1) ++ s2 :: d2) with (s1 :: (d1 ++ s2 :: d2)).
    rewrite !labelled_ok. cbv zeta. change (s1 :: (d1 ++ s2 :: d2)) with ((s1 :: d1) ++ s2 :: d2). rewrite (last_app_ne (s1 :: d1) (s2 :: d2) s1 s2) by discriminate. rewrite app_length.
    set (a := pnum c f (fst s1)) in *. set (b := pnum c f (fst (last (s1 :: d1) s1))) in *. set (a' := pnum c f (fst s2)) in *. set (b' := pnum c f (fst (last (s2 :: d2) s2))) in *.
    set (n1 := List.length (s1 :: d1)) in *. set (n2 := List.length (s2 :: d2)) in *. assert (P1 : (0 < n1)%nat) by (unfold n1; cbn; lia). assert (P2 : (0 < n2)%nat) by (unfold n2; cbn; lia).
    assert (Lb : b < a'). { apply Sp; [|left; reflexivity]. destruct (exists_last (l := s1 :: d1) ltac:(discriminate)) as (r & x & E). rewrite E, last_last. apply in_app_iff. right; left; reflexivity. }
    split.
    - intros o1 o2 d H1 H2. destruct (Z.eqb_spec (Z.of_nat n1) (b - a + 1)) as [Q1|Q1]; [|discriminate]. destruct (Z.eqb_spec (Z.of_nat n2) (b' - a' + 1)) as [Q2|Q2]; [|discriminate]. injection H1 as H1. injection H2 as H2.
      assert (E1 : fst (last o1 d) = midpoint c f b).
      { rewrite <- H1. change (snd s1 :: map snd d1) with (map snd (s1 :: d1)). destruct (exists_last (l := s1 :: d1) ltac:(discriminate)) as (r & x & E). rewrite E, (between_snoc a b), !map_app by lia. cbn [map]. rewrite combine_app.
        - cbn [combine]. rewrite last_last. reflexivity.
        - rewrite !map_length, between_length. assert (n1 = S (List.length r)) by (unfold n1; rewrite E, app_length; cbn; lia). lia. }
      assert (E2 : fst (hd d o2) = midpoint c f a').
      { rewrite <- H2. rewrite (between_cons a' b') by lia. reflexivity. }
      rewrite E1, E2, adjacent_mid. split; intros A.
      + destruct (Z.eqb_spec (Z.of_nat (n1 + n2)) (b' - a + 1)) as [Q|Q]; [|lia]. f_equal. rewrite <- H1, <- H2. rewrite (between_split a a' b') by lia. replace (a' - 1) with b by lia. rewrite !map_app. apply combine_app. rewrite !map_length, between_length. unfold n1, frame in *. cbn [List.length] in *. rewrite !map_length. lia.
      + destruct (Z.eqb_spec (Z.of_nat (n1 + n2)) (b' - a + 1)) as [Q|Q]; [lia|reflexivity].
    - intros _ _ H. destruct (Z.eqb_spec (Z.of_nat (n1 + n2)) (b' - a + 1)) as [Q|Q]; [|reflexivity]. exfalso.
      destruct (Z.eqb_spec (Z.of_nat n1) (b - a + 1)) as [Q1|Q1], (Z.eqb_spec (Z.of_nat n2) (b' - a' + 1)) as [Q2|Q2]; [destruct H; discriminate|lia..].
  Qed.

  (** ** calendar_average *)
  Lemma ca_short x freq f td : short freq f -> usable c infer_freq x td -> CA x freq td = labelled f (md (width (inp x)) f (samples (inp x))).
  Proof.
    intros Sh (_ & (n & E) & U). unfold calendar_average. assert (Q : cal_freq freq = Some f /\ (String.eqb freq "season" || String.eqb freq "year") = false) by (destruct Sh as [[-> ->]|[[-> ->]|[-> ->]]]; split; reflexivity).
    destruct Q as [Q1 Q2]. rewrite Q1, Q2. cbn [oget bind]. rewrite E. cbn [bind]. unfold frame in *. rewrite U. reflexivity.
  Qed.
  Lemma ca_long x freq f td : long freq f -> usable c infer_freq x td -> CA x freq td = labelled f (resampled c sum_of f (weighted c f (md (width (inp x)) Month (samples (inp x))))).
  Proof.
    intros Sh (_ & (n & E) & U). unfold calendar_average. assert (Q : cal_freq freq = Some f /\ (String.eqb freq "season" || String.eqb freq "year") = true) by (destruct Sh as [[-> ->]|[-> ->]]; split; reflexivity).
    destruct Q as [Q1 Q2]. rewrite Q1, Q2. cbn [oget bind]. rewrite E. cbn [bind]. unfold frame in *. rewrite U. reflexivity.
  Qed.
  Lemma labelled_err f (d : smp) e : labelled f d = Err e -> e = IndexError /\ d = [] \/ e = ValueError /\ d <> [].
  Proof. destruct d as [|s d]; [intros H; injection H as <-; auto|]. rewrite labelled_ok. cbv zeta. destruct (_ =? _); intros H; [discriminate|]. injection H as <-. right. split; [reflexivity|discriminate]. Qed.

  Lemma c123_short x1 x2 x freq f td : short freq f -> (0 < width (inp x))%nat -> joined x1 x2 x -> cut_at c f (samples (inp x1)) (samples (inp x2)) ->
    usable c infer_freq x1 td -> usable c infer_freq x2 td -> usable c infer_freq x td ->
    match CA x1 freq td, CA x2 freq td with
    | Err IndexError, r => CA x freq td = r
    | r, Err IndexError => CA x freq td = r
    | Ok o1, Ok o2 => forall d, (adjacent c f (fst (last o1 d)) (fst (hd d o2)) -> CA x freq td = Ok (o1 ++ o2)) /\
                                (~ adjacent c f (fst (last o1 d)) (fst (hd d o2)) -> CA x freq td = Err ValueError)
    | _, _ => CA x freq td = Err ValueError
    end.
  Proof.
    intros Sh Hw (W1 & W2 & Es) Cut U1 U2 U. rewrite !(ca_short _ freq f td Sh) by assumption. rewrite W1, W2, Es. set (w := width (inp x)) in *.
    pose proof (proj1 U1) as V1. pose proof (proj1 U2) as V2. pose proof (cut_sep f _ _ V1 V2 Cut) as Sp. rewrite (md_app w f _ _ Hw V1 V2 Sp).
    set (d1 := md w f (samples (inp x1))). set (d2 := md w f (samples (inp x2))).
    assert (Sd : sep f d1 d2).
    { intros s u Hs Hu. apply md_dates in Hs, Hu. destruct Hs as (_ & p & Hp & ->). destruct Hu as (_ & q & Hq & ->).
      destruct (bins_spec c f (map fst (samples (inp x1)))) as (a & b & B & _ & _ & (t & Ht & Et)); [intros Q; rewrite Q in Hp; destruct Hp|].
      destruct (bins_spec c f (map fst (samples (inp x2)))) as (a' & b' & B' & _ & (t' & Ht' & Et') & _); [intros Q; rewrite Q in Hq; destruct Hq|].
      rewrite B in Hp. rewrite B' in Hq. apply between_In in Hp, Hq. apply in_map_iff in Ht, Ht'. destruct Ht as (y & <- & Hy). destruct Ht' as (y' & <- & Hy'). specialize (Sp y y' Hy Hy'). lia. }
    destruct (labelled_app f d1 d2 (md_rising w f _) (md_rising w f _) Sd) as [H1 H2].
    destruct (labelled f d1) as [o1|e1] eqn:E1; destruct (labelled f d2) as [o2|e2] eqn:E2.
    - intros d. apply H1; reflexivity.
    - assert (N1 : d1 <> []) by (intros Q; rewrite Q in E1; discriminate). destruct (labelled_err f d2 e2 E2) as [[-> Q]|[-> Q]]; [|apply H2; auto]. rewrite Q, app_nil_r. exact E1.
    - assert (N2 : d2 <> []) by (intros Q; rewrite Q in E2; discriminate). destruct (labelled_err f d1 e1 E1) as [[-> Q]|[-> Q]]; [|apply H2; auto]. rewrite Q. exact E2.
    - destruct (labelled_err f d1 e1 E1) as [[-> Q]|[-> Q]]; [rewrite Q; exact E2|]. destruct (labelled_err f d2 e2 E2) as [[-> Q']|[-> Q']]; [rewrite Q', app_nil_r; exact E1|]. apply H2; auto.
  Qed.

  (** *** seasons and years *)
  Lemma labelled_range f (g : Z -> frame T) lo hi : lo <= hi ->
    labelled f (map (fun p => (date_of c (pstart c f p), g p)) (between lo hi)) = Ok (map (fun p => (midpoint c f p, g p)) (between lo hi)).
  Proof.
    intros L. set (G := fun p => (date_of c (pstart c f p), g p)). rewrite (between_cons lo hi L). change (map G (lo :: between (lo + 1) hi)) with (G lo :: map G (between (lo + 1) hi)). rewrite labelled_ok. cbv zeta.
    change (G lo :: map G (between (lo + 1) hi)) with (map G (lo :: between (lo + 1) hi)). rewrite (last_map G). rewrite <- (between_cons lo hi L). assert (Q : last (between lo hi) lo = hi) by (rewrite between_snoc by lia; apply last_last).
    rewrite Q. unfold G at 2 3 4 5. cbn [fst]. rewrite !(proj1 (start_pnum c f _)). rewrite map_length, between_length. destruct (Z.eqb_spec (Z.of_nat (Z.to_nat (hi - lo + 1))) (hi - lo + 1)) as [_|X]; [|lia].
    rewrite map_map. unfold G. cbn [snd]. rewrite combine_map. reflexivity.
  Qed.
  Lemma labelled_res f (e : smp) : e <> [] -> exists o, labelled f (resampled c sum_of f e) = Ok o.
  Proof.
    intros H. destruct (bins_spec c f (map fst e)) as (a & b & B & R & (t & Ht & Et) & _); [destruct e; [contradiction|discriminate]|].
    unfold resampled. rewrite B, (labelled_range f (fun p => sum_of (members c f p e))) by (specialize (R t Ht); lia). eauto.
  Qed.
  Lemma c123_long x1 x2 x freq f td : long freq f -> (0 < width (inp x))%nat -> joined x1 x2 x -> cut_at c f (samples (inp x1)) (samples (inp x2)) ->
    usable c infer_freq x1 td -> usable c infer_freq x2 td -> usable c infer_freq x td ->
    match CA x1 freq td, CA x2 freq td with
    | Ok o1, Ok o2 => exists gap, CA x freq td = Ok (o1 ++ gap ++ o2) /\ Forall (fun e => forall k, snd e k = nnan) gap /\
                                  forall d, adjacent c f (fst (last o1 d)) (fst (hd d o2)) -> gap = []
    | Err _, r => CA x freq td = r
    | r, Err _ => CA x freq td = r
    end.
  Proof.
    intros Sh Hw (W1 & W2 & Es) Cut U1 U2 U. rewrite !(ca_long _ freq f td Sh) by assumption. rewrite W1, W2, Es. set (w := width (inp x)) in *.
    assert (F : match f with Hour | Day => False | _ => True end) by (destruct Sh as [[_ ->]|[_ ->]]; exact I).
    pose proof (proj1 U1) as V1. pose proof (proj1 U2) as V2. pose proof (cut_sep f _ _ V1 V2 Cut) as Sp. rewrite (md_app w Month _ _ Hw V1 V2 (month_sep f _ _ F V1 V2 Sp)).
    pose proof (md_sep w f _ _ F V1 V2 Sp) as Sd. pose proof (md_ok w Month (samples (inp x1))) as O1. pose proof (md_ok w Month (samples (inp x2))) as O2.
    set (d1 := md w Month (samples (inp x1))) in *. set (d2 := md w Month (samples (inp x2))) in *. clearbody d1 d2. rewrite (weighted_app f d1 d2 O1 O2 Sd).
    assert (Se : sep f (weighted c f d1) (weighted c f d2)) by (apply (sep_fst f d1 d2); [apply weighted_dates|apply weighted_dates|exact Sd]).
    assert (P1 : ok_dates (weighted c f d1)) by (apply (ok_fst _ d1); [apply weighted_dates|exact O1]). assert (P2 : ok_dates (weighted c f d2)) by (apply (ok_fst _ d2); [apply weighted_dates|exact O2]).
    set (e1 := weighted c f d1) in *. set (e2 := weighted c f d2) in *. clearbody e1 e2. clear Sd O1 O2 d1 d2.
    destruct e1 as [|s1 r1] eqn:X1; [reflexivity|rewrite <- X1 in *]. assert (N1 : e1 <> []) by (rewrite X1; discriminate). clear X1 s1 r1.
    destruct e2 as [|s2 r2] eqn:X2; [rewrite app_nil_r; destruct (labelled_res f e1 N1) as [o ->]; reflexivity|rewrite <- X2 in *]. assert (N2 : e2 <> []) by (rewrite X2; discriminate). clear X2 s2 r2.
    destruct (resampled_app sum_of f e1 e2 P1 P2 N1 N2 Se) as (a & b & a' & b' & L1 & L2 & L3 & _ & _ & B1 & B2 & B & E).
    assert (E1 : labelled f (resampled c sum_of f e1) = Ok (map (fun p => (midpoint c f p, sum_of (members c f p e1))) (between a b))) by (unfold resampled; rewrite B1; apply (labelled_range f (fun p => sum_of (members c f p e1))); lia).
    assert (E2 : labelled f (resampled c sum_of f e2) = Ok (map (fun p => (midpoint c f p, sum_of (members c f p e2))) (between a' b'))) by (unfold resampled; rewrite B2; apply (labelled_range f (fun p => sum_of (members c f p e2))); lia).
    rewrite E1, E2. set (G := fun p : Z => if p <=? b then sum_of (members c f p e1) else if p <? a' then sum_of [] else sum_of (members c f p e2)).
    assert (Q1 : forall (A : Type) (h : Z -> frame T -> A), map (fun p => h p (sum_of (members c f p e1))) (between a b) = map (fun p => h p (G p)) (between a b)).
    { intros A h. apply map_ext_in. intros p Hp. apply between_In in Hp. unfold G. destruct (Z.leb_spec p b); [reflexivity|lia]. }
    assert (Q2 : forall (A : Type) (h : Z -> frame T -> A), map (fun p => h p (sum_of (members c f p e2))) (between a' b') = map (fun p => h p (G p)) (between a' b')).
    { intros A h. apply map_ext_in. intros p Hp. apply between_In in Hp. unfold G. destruct (Z.leb_spec p b); [lia|]. destruct (Z.ltb_spec p a'); [lia|reflexivity]. }
    assert (Q3 : forall (A : Type) (h : Z -> frame T -> A), map (fun p => h p (sum_of [])) (between (b + 1) (a' - 1)) = map (fun p => h p (G p)) (between (b + 1) (a' - 1))).
    { intros A h. apply map_ext_in. intros p Hp. apply between_In in Hp. unfold G. destruct (Z.leb_spec p b); [lia|]. destruct (Z.ltb_spec p a'); [reflexivity|lia]. }
    assert (SB : between a b' = between a b ++ between (b + 1) (a' - 1) ++ between a' b').
    { rewrite (between_split a (b + 1) b') by lia. replace (b + 1 - 1) with b by lia. rewrite (between_split (b + 1) a' b') by lia. reflexivity. }
    assert (ER : resampled c sum_of f (e1 ++ e2) = map (fun p => (date_of c (pstart c f p), G p)) (between a b')).
    { rewrite E. unfold resampled. rewrite B1, B2, (Q1 _ (fun p v => (date_of c (pstart c f p), v))), (Q2 _ (fun p v => (date_of c (pstart c f p), v))), (Q3 _ (fun p v => (date_of c (pstart c f p), v))), SB, !map_app. reflexivity. }
    exists (map (fun p => (midpoint c f p, sum_of [])) (between (b + 1) (a' - 1))). split; [|split].
    - rewrite ER, labelled_range by lia. f_equal. rewrite (Q1 _ (fun p v => (midpoint c f p, v))), (Q2 _ (fun p v => (midpoint c f p, v))), (Q3 _ (fun p v => (midpoint c f p, v))), SB, !map_app. reflexivity.
    - apply Forall_forall. intros e He. apply in_map_iff in He. destruct He as (p & <- & _). reflexivity.
    - intros d A. rewrite (between_snoc a b), map_app in A by lia. cbn [map] in A. rewrite last_last in A. rewrite (between_cons a' b') in A by lia. cbn [map hd fst] in A. apply adjacent_mid in A. rewrite between_nil by lia. reflexivity.
  Qed.
End Split.
