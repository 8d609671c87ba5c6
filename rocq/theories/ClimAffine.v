(** Change of the unit of the data of a climatology (C122). *)
From Coq Require Import Reals List Bool Arith ZArith Lra Lia String FunctionalExtensionality.
From Verif Require Import PyBase PyFacts Num NumFacts SumFacts ArrFacts ChunkFacts Calendar CalendarFacts SpecClim Climat ClimFacts ClimApi ClimLong ClimKeys ClimKeysApi ClimSeason ClimAnom ClimMore ClimZero
  SpecUnits UnitScale SpecAffine AffineInterp SpecClimUnits.
Import ListNotations.
Local Open Scope R_scope.
Local Notation smp := (list (time * (nat -> fl))).

Section AffSum.
  Variables a b : R.
  Hypothesis a0 : a <> 0.
  Local Notation f := (convert a b).
  Local Notation g := (fun x => nmul (Fin a) x).
  Ltac sg := unfold fl_infsgn; destruct (Req_EM_T a 0) as [?|_]; [contradiction|].
  Lemma shift_add s y c d : nadd (nadd (g s) (Fin c)) (nadd (g y) (Fin d)) = nadd (g (nadd s y)) (Fin (c + d)).
  Proof. destruct s, y; cbn; auto; try (f_equal; ring); sg; destruct (Rlt_dec 0 a); reflexivity. Qed.
  Lemma fold_shift l : forall s c,
    fold_left nadd (map (fun p => nadd (g (fst p)) (Fin (snd p))) l) (nadd (g s) (Fin c)) = nadd (g (fold_left nadd (map fst l) s)) (Fin (c + rsum (map snd l))).
  Proof.
    induction l as [|[y d] t IH]; intros s c; cbn [map fold_left fst snd].
    - cbn. rewrite Rplus_0_r. reflexivity.
    - rewrite shift_add, IH. f_equal. f_equal. cbn. ring.
  Qed.
  Lemma nsum_shift l : nsum (map (fun p => nadd (g (fst p)) (Fin (snd p))) l) = nadd (g (nsum (map fst l))) (Fin (rsum (map snd l))).
  Proof. unfold nsum. rewrite <- (Rplus_0_l (rsum _)), <- fold_shift. f_equal. cbn. f_equal. ring. Qed.
  Lemma rsum_rep (l : list fl) : rsum (map (fun _ => b) l) = INR (List.length l) * b.
  Proof. induction l as [|x t IH]; [cbn; ring|]. cbn [map List.length]. rewrite S_INR. cbn [rsum]. rewrite IH. ring. Qed.
  Lemma nsum_f l : nsum (map f l) = nadd (g (nsum l)) (Fin (INR (List.length l) * b)).
  Proof.
    rewrite <- rsum_rep. replace (map f l) with (map (fun p => nadd (g (fst p)) (Fin (snd p))) (map (fun x => (x, b)) l)) by (rewrite map_map; reflexivity).
    rewrite nsum_shift, !map_map. cbn [fst snd]. rewrite map_id. reflexivity.
  Qed.
  Lemma filter_f l : filter (fun x => negb (isnan x)) (map f l) = map f (filter (fun x => negb (isnan x)) l).
  Proof. induction l as [|x t IH]; [reflexivity|]. cbn [map filter]. rewrite f_isnan by exact a0. destruct (isnan x); cbn [negb map]; rewrite IH; reflexivity. Qed.
  Lemma nanmean_f l : nanmean (map f l) = f (nanmean l).
  Proof.
    unfold nanmean. rewrite filter_f. destruct (filter _ l) as [|x t] eqn:E; [reflexivity|]. cbn [map]. change (f x :: map f t) with (map f (x :: t)).
    rewrite nsum_f, map_length. generalize (nsum (x :: t)). intros s. cbn [List.length]. rewrite INR_IZR_INZ. set (n := IZR (Z.of_nat (S (List.length t)))).
    assert (P : 0 < n) by (unfold n; apply IZR_lt; lia). change (ofZ (Z.of_nat (S (List.length t)))) with (Fin n). unfold convert.
    assert (D : forall e, Rlt_dec 0 n = e -> True) by auto. clear D.
    destruct s as [s| | |]; cbn; unfold fl_infsgn; repeat (match goal with |- context[Req_EM_T ?x ?y] => destruct (Req_EM_T x y) | |- context [Rlt_dec ?x ?y] => destruct (Rlt_dec x y) end; cbn; unfold fl_infsgn);
      try reflexivity; try (exfalso; lra). f_equal. field. lra.
  Qed.
  (** a weighted sum whose weights add up to 1 *)
  Lemma wt_f x w : 0 < w -> nmul (f x) (Fin w) = nadd (g (nmul x (Fin w))) (Fin (b * w)).
  Proof.
    intros P. unfold convert. destruct x as [x| | |]; cbn; unfold fl_infsgn; repeat (match goal with |- context[Req_EM_T ?x ?y] => destruct (Req_EM_T x y) | |- context [Rlt_dec ?x ?y] => destruct (Rlt_dec x y) end; cbn; unfold fl_infsgn);
      try reflexivity; try (exfalso; lra). f_equal. ring.
  Qed.
  Lemma wt_nan x w : 0 < w -> isnan x = false -> isnan (nmul x (Fin w)) = false.
  Proof. intros P. destruct x as [x| | |]; cbn; intros H; auto; unfold fl_infsgn; destruct (Req_EM_T w 0); try lra; destruct (Rlt_dec 0 w); auto; lra. Qed.
  Lemma nansum_plain (l : list fl) : Forall (fun x => isnan x = false) l -> nansum l = nsum l.
  Proof. intros H. unfold nansum. f_equal. induction H as [|x t E _ IH]; [reflexivity|]. cbn [map]. rewrite E, IH. reflexivity. Qed.
  Lemma wsum_f {A} (v : A -> fl) (w : A -> R) l : Forall (fun x => isnan (v x) = false /\ 0 < w x) l ->
    nansum (map (fun x => nmul (f (v x)) (Fin (w x))) l) = nadd (g (nansum (map (fun x => nmul (v x) (Fin (w x))) l))) (Fin (b * rsum (map w l))).
  Proof.
    intros H. rewrite !nansum_plain.
    - replace (map (fun x => nmul (f (v x)) (Fin (w x))) l) with (map (fun p => nadd (g (fst p)) (Fin (snd p))) (map (fun x => (nmul (v x) (Fin (w x)), b * w x)) l)).
      + rewrite nsum_shift, !map_map. cbn [fst snd]. f_equal. f_equal. clear H. induction l as [|x t IH]; [cbn; ring|]. cbn [map rsum]. rewrite IH. ring.
      + rewrite map_map. apply map_ext_in. intros x Hx. cbn [fst snd]. rewrite Forall_forall in H. symmetry. apply wt_f, (H x Hx).
    - apply Forall_forall. intros y Hy. apply in_map_iff in Hy. destruct Hy as (x & <- & Hx). rewrite Forall_forall in H. apply wt_nan; apply (H x Hx).
    - apply Forall_forall. intros y Hy. apply in_map_iff in Hy. destruct Hy as (x & <- & Hx). rewrite Forall_forall in H. apply wt_nan; [apply (H x Hx)|]. rewrite f_isnan by exact a0. apply (H x Hx).
  Qed.
  Lemma days_f {A} (v : A -> fl) (n : A -> Z) l : l <> [] -> (forall x, In x l -> isnan (v x) = false /\ (0 < n x)%Z) ->
    nansum (map (fun x => nmul (f (v x)) (ndiv (ofZ (n x)) (ofZ (zsum (map n l))))) l) = f (nansum (map (fun x => nmul (v x) (ndiv (ofZ (n x)) (ofZ (zsum (map n l))))) l)).
  Proof.
    intros NE H. assert (P : 0 < IZR (zsum (map n l))).
    { rewrite zsum_rsum, map_map. apply rsum_pos; [destruct l; [contradiction|discriminate]|]. apply Forall_forall. intros y Hy. apply in_map_iff in Hy. destruct Hy as (x & <- & Hx). apply IZR_lt, (H x Hx). }
    set (t := IZR (zsum (map n l))) in *.
    assert (E : forall x, ndiv (ofZ (n x)) (ofZ (zsum (map n l))) = Fin (IZR (n x) / t)). { intros x. cbn. destruct (Req_EM_T _ _) as [Q|Q]; [fold t in Q; lra|reflexivity]. }
    rewrite (map_ext (fun x => nmul (f (v x)) _) (fun x => nmul (f (v x)) (Fin (IZR (n x) / t)))) by (intros; rewrite E; reflexivity).
    rewrite (map_ext (fun x => nmul (v x) (ndiv _ _)) (fun x => nmul (v x) (Fin (IZR (n x) / t)))) by (intros; rewrite E; reflexivity).
    rewrite wsum_f.
    - unfold convert. f_equal. f_equal. assert (Q : rsum (map (fun x => IZR (n x) / t) l) = 1); [|rewrite Q; ring].
      replace (rsum (map (fun x => IZR (n x) / t) l)) with (rsum (map IZR (map n l)) / t).
      + rewrite <- zsum_rsum. fold t. field. lra.
      + clear -P. clearbody t. rewrite map_map. induction l as [|x r IH]; [cbn; field; lra|]. cbn [map rsum]. rewrite <- IH. field. lra.
    - apply Forall_forall. intros x Hx. split; [apply (H x Hx)|]. apply Rdiv_lt_0_compat; [apply IZR_lt, (H x Hx)|exact P].
  Qed.
End AffSum.

Section Conv.
  Variables (c : cal) (infer_freq : list time -> bool) (empty_exc : exc).
  Variables a b : R.
  Hypothesis a0 : a <> 0.
  Local Notation f := (convert a b).
  Local Notation cv := (samples_convert a b).
  Local Notation ic := (input_convert a b).
  Definition fcv (fr : nat -> fl) : nat -> fl := fun k => f (fr k).
  Lemma filter_cv (P : time -> bool) xs : filter (fun s => P (fst s)) (cv xs) = cv (filter (fun s => P (fst s)) xs).
  Proof. unfold samples_convert. induction xs as [|s t IH]; [reflexivity|]. cbn [map filter fst]. destruct (P (fst s)); cbn [map]; rewrite IH; reflexivity. Qed.
  Lemma fst_cv xs : map fst (cv xs) = map fst xs.
  Proof. unfold samples_convert. rewrite map_map. reflexivity. Qed.
  Lemma snd_cv xs : map snd (cv xs) = map fcv (map snd xs).
  Proof. unfold samples_convert. rewrite !map_map. reflexivity. Qed.
  Lemma len_cv xs : List.length (cv xs) = List.length xs.
  Proof. apply map_length. Qed.
  Lemma members_cv fr p xs : members c fr p (cv xs) = cv (members c fr p xs).
  Proof. apply (filter_cv (fun t => (pstart c fr p <=? instant c t)%Z && (instant c t <? pstart c fr (p + 1))%Z)). Qed.
  Lemma mean_cv xs : mean_of (cv xs) = fcv (mean_of xs).
  Proof. unfold mean_of, fcv. apply functional_extensionality. intros k. rewrite <- nanmean_f by exact a0. unfold samples_convert. rewrite !map_map. reflexivity. Qed.
  Lemma resampled_cv fr xs : resampled c mean_of fr (cv xs) = cv (resampled c mean_of fr xs).
  Proof. unfold resampled. rewrite fst_cv. unfold samples_convert at 2. rewrite map_map. apply map_ext. intros p. cbn [fst snd]. rewrite members_cv, mean_cv. reflexivity. Qed.
  Lemma dropna_cv w xs : dropna w (cv xs) = cv (dropna w xs).
  Proof.
    unfold dropna, samples_convert. induction xs as [|s t IH]; [reflexivity|]. cbn [map filter fst snd].
    replace (forallb (fun k => negb (isnan (f (snd s k)))) (seq 0 w)) with (forallb (fun k => negb (isnan (snd s k))) (seq 0 w)).
    - destruct (forallb _ (seq 0 w)); cbn [map]; rewrite IH; reflexivity.
    - clear IH. induction (seq 0 w) as [|k r IHr]; [reflexivity|]. cbn [forallb]. rewrite f_isnan by exact a0. rewrite IHr. reflexivity.
  Qed.
  Lemma center_cv fr lo hi frames : center c fr lo hi (map fcv frames) = rmap cv (center c fr lo hi frames).
  Proof.
    unfold center. rewrite map_length. destruct (negb _); [reflexivity|]. cbn [rmap]. f_equal. generalize (map (midpoint c fr) (between lo hi)). intros l. unfold samples_convert. revert frames.
    induction l as [|t l IH]; intros [|x r]; [reflexivity|reflexivity|reflexivity|]. cbn [map combine fst snd]. rewrite IH. reflexivity.
  Qed.
  Lemma last_cv d s : last (cv d) (fst s, fcv (snd s)) = (fst (last d s), fcv (snd (last d s))).
  Proof. induction d as [|x [|y r] IH]; [reflexivity|reflexivity|]. exact IH. Qed.
  Lemma converted_cv w (l : smp) : converted a b w l (cv l).
  Proof. unfold converted. induction l as [|x r IH]; constructor; auto. Qed.
  (** ** seasons and years of calendar_average *)
  Lemma weighted_members fr p (ms : smp) : Forall (fun s => valid c (fst s)) ms ->
    members c fr p (weighted c fr ms) =
    map (fun s => (fst s, fun k => nmul (snd s k) (ndiv (ofZ (month_length c (fst s))) (ofZ (zsum (map (fun s' => month_length c (fst s')) (members c fr p ms))))))) (members c fr p ms).
  Proof.
    intros V. rewrite !(members_pnum c fr p) by (auto; unfold weighted; apply Forall_forall; intros s Hs; apply in_map_iff in Hs; destruct Hs as (u & <- & Hu); cbn [fst]; rewrite Forall_forall in V; auto).
    unfold weighted. assert (G : forall l, (forall s, In s l -> In s ms) ->
      filter (fun s => (pnum c fr (fst s) =? p)%Z) (map (fun s => let tot := zsum (map (fun s' => month_length c (fst s')) (members c fr (pnum c fr (fst s)) ms)) in
        (fst s, fun k => nmul (snd s k) (ndiv (ofZ (month_length c (fst s))) (ofZ tot)))) l)
      = map (fun s => (fst s, fun k => nmul (snd s k) (ndiv (ofZ (month_length c (fst s))) (ofZ (zsum (map (fun s' => month_length c (fst s')) (filter (fun s => (pnum c fr (fst s) =? p)%Z) ms)))))))
        (filter (fun s => (pnum c fr (fst s) =? p)%Z) l)); [|apply G; auto].
    induction l as [|s t IH]; intros I; [reflexivity|]. cbn [map filter fst]. cbv zeta in IH |- *. rewrite IH by (intros; apply I; right; auto).
    destruct (Z.eqb_spec (pnum c fr (fst s)) p) as [E|E]; [|reflexivity]. cbn [map]. f_equal. rewrite E, (members_pnum c fr p ms V). reflexivity.
  Qed.
  Lemma sum_cv fr p w (ms : smp) k : (k < w)%nat -> Forall (fun s => valid c (fst s) /\ forall k, (k < w)%nat -> isnan (snd s k) = false) ms ->
    sum_of (members c fr p (weighted c fr (cv ms))) k = f (sum_of (members c fr p (weighted c fr ms)) k).
  Proof.
    intros Hk H. assert (V : Forall (fun s => valid c (fst s)) ms) by (rewrite Forall_forall in *; intros s Hs; apply (H s Hs)).
    rewrite !weighted_members; auto.
    2:{ apply Forall_forall. intros s Hs. apply in_map_iff in Hs. destruct Hs as (u & <- & Hu). rewrite Forall_forall in V. apply (V u Hu). }
    rewrite members_cv. assert (HM : forall s, In s (members c fr p ms) -> isnan (snd s k) = false /\ (0 < month_length c (fst s))%Z).
    { intros s Hs. apply filter_In in Hs. rewrite Forall_forall in H. destruct (H s (proj1 Hs)) as [Vs Ns]. split; [apply Ns, Hk|].
      unfold month_length. pose proof (mlen_bounds c (yr (fst s)) (mo (fst s))). lia. }
    generalize dependent (members c fr p ms). intros l HM. unfold sum_of. destruct l as [|s0 l0]; [reflexivity|]. set (l := s0 :: l0) in *.
    change (cv l) with ((fst s0, fun k => f (snd s0 k)) :: cv l0). cbn [map].
    change (nansum (map (fun s => snd s k) (map (fun s => (fst s, fun k => nmul (snd s k) (ndiv (ofZ (month_length c (fst s))) (ofZ (zsum (map (fun s' => month_length c (fst s')) (cv l))))))) (cv l)))
      = f (nansum (map (fun s => snd s k) (map (fun s => (fst s, fun k => nmul (snd s k) (ndiv (ofZ (month_length c (fst s))) (ofZ (zsum (map (fun s' => month_length c (fst s')) l)))))) l)))).
    unfold samples_convert. rewrite !map_map. cbn [fst snd]. apply (days_f a b a0 (fun s => snd s k) (fun s => month_length c (fst s))); [discriminate|exact HM].
  Qed.
  Lemma resampled_valid (red : list (time * frame fl) -> frame fl) fr xs : Forall (fun s => valid c (fst s)) (resampled c red fr xs).
  Proof. apply Forall_forall. intros s Hs. apply in_map_iff in Hs. destruct Hs as (p & <- & _). apply (start_pnum c fr p). Qed.
  Lemma dropna_good w (xs : smp) : Forall (fun s => valid c (fst s)) xs -> Forall (fun s => valid c (fst s) /\ forall k, (k < w)%nat -> isnan (snd s k) = false) (dropna w xs).
  Proof.
    intros V. rewrite Forall_forall in *. intros s Hs. apply filter_In in Hs. destruct Hs as [Hs Hn]. split; [apply V, Hs|]. intros k Hk. rewrite forallb_forall in Hn.
    specialize (Hn k). rewrite in_seq in Hn. apply negb_true_iff, Hn. lia.
  Qed.
  Lemma center_rel fr lo hi w (frames frames' : list (frame fl)) : Forall2 (fun x y : frame fl => forall k, (k < w)%nat -> y k = f (x k)) frames frames' ->
    outcomes (converted a b w) (center c fr lo hi frames) (center c fr lo hi frames').
  Proof.
    intros H. unfold center. rewrite (ChunkFacts.Forall2_length H). destruct (negb _); [reflexivity|]. cbn [outcomes]. unfold converted. generalize (map (midpoint c fr) (between lo hi)). intros l. revert l.
    induction H as [|x y r r' E _ IH]; intros [|t l]; cbn [combine]; try constructor; auto.
  Qed.
  Lemma c122_cal x freq td : outcomes (converted a b (width (inp x))) (calendar_average c infer_freq x freq td) (calendar_average c infer_freq (ic x) freq td).
  Proof.
    unfold calendar_average. destruct (oget ValueError (cal_freq freq)) as [fr|e]; [|reflexivity]. cbn [bind]. cbv zeta. change (time_info (ic x) td) with (time_info x td).
    destruct (time_info x td) as [n|e]; [|reflexivity]. cbn [bind]. change (samples (inp (ic x))) with (cv (samples (inp x))). rewrite fst_cv.
    destruct (check_uniform c infer_freq _) as [u|e]; [|reflexivity]. cbn [bind]. change (width (inp (ic x))) with (width (inp x)). set (w := width (inp x)).
    destruct (String.eqb freq "season" || String.eqb freq "year").
    - rewrite resampled_cv, dropna_cv. pose proof (dropna_good w _ (resampled_valid mean_of Month (samples (inp x)))) as G.
      set (d := dropna w (resampled c mean_of Month (samples (inp x)))) in *. unfold resampled.
      replace (map fst (weighted c fr (cv d))) with (map fst (weighted c fr d)) by (unfold weighted, samples_convert; rewrite !map_map; reflexivity).
      generalize (bins c fr (map fst (weighted c fr d))). intros ps. destruct ps as [|p ps]; [reflexivity|]. cbn [map]. cbn [fst snd].
      match goal with |- outcomes _ (center _ _ _ ?h ?l) (center _ _ _ ?h' ?l') => replace h' with h end.
      + apply center_rel. change (Forall2 (fun x y => forall k, (k < w)%nat -> y k = f (x k))
          (map snd (map (fun p => (date_of c (pstart c fr p), sum_of (members c fr p (weighted c fr d)))) (p :: ps)))
          (map snd (map (fun p => (date_of c (pstart c fr p), sum_of (members c fr p (weighted c fr (cv d))))) (p :: ps)))).
        rewrite !map_map. cbn [snd]. generalize (p :: ps). intros l. induction l as [|q l IH]; constructor; auto. intros k Hk. apply (sum_cv fr q w d k Hk G).
      + f_equal. change (fst (last (map (fun p => (date_of c (pstart c fr p), sum_of (members c fr p (weighted c fr d)))) (p :: ps)) (date_of c (pstart c fr p), sum_of (members c fr p (weighted c fr d))))
          = fst (last (map (fun p => (date_of c (pstart c fr p), sum_of (members c fr p (weighted c fr (cv d))))) (p :: ps)) (date_of c (pstart c fr p), sum_of (members c fr p (weighted c fr (cv d)))))).
        generalize (p :: ps). intros l. revert p. induction l as [|q [|q' l] IH]; intros p; [reflexivity|reflexivity|]. apply (IH p).
    - rewrite resampled_cv, dropna_cv. set (d := dropna w _). destruct d as [|s d]; [reflexivity|].
      change (cv (s :: d)) with ((fst s, fcv (snd s)) :: cv d) at 1.
      change ((fst s, fcv (snd s)) :: cv d) with (cv (s :: d)). cbv iota. 
      change (outcomes (converted a b w) (center c fr (pnum c fr (fst s)) (pnum c fr (fst (last (s :: d) s))) (map snd (s :: d)))
        (center c fr (pnum c fr (fst s)) (pnum c fr (fst (last (cv (s :: d)) (fst s, fcv (snd s))))) (map snd (cv (s :: d))))).
      rewrite last_cv, snd_cv, center_cv. cbn [fst]. destruct (center c fr _ _ _) as [l|e]; cbn [rmap outcomes]; [apply converted_cv|reflexivity].
  Qed.
  Lemma having_cv key z xs : having key z (cv xs) = cv (having key z xs).
  Proof. apply (filter_cv (fun t => (key t =? z)%Z)). Qed.
  Lemma clim_tail fr y ks (F F' : Z -> frame fl) w : (forall z, F' z = fcv (F z)) ->
    outcomes (clim_converted a b w)
      match ks with [] => Err IndexError | k :: _ => do lo <- parse c fr y k ;; do hi <- parse c fr y (last ks k) ;; do l <- center c fr lo hi (map F ks) ;; Ok (Times l) end
      match ks with [] => Err IndexError | k :: _ => do lo <- parse c fr y k ;; do hi <- parse c fr y (last ks k) ;; do l <- center c fr lo hi (map F' ks) ;; Ok (Times l) end.
  Proof.
    intros H. destruct ks as [|k ks]; [reflexivity|]. destruct (parse c fr y k) as [lo|e]; [|reflexivity]. cbn [bind].
    destruct (parse c fr y (last _ _)) as [hi|e]; [|reflexivity]. cbn [bind].
    replace (map F' (k :: ks)) with (map fcv (map F (k :: ks))) by (rewrite map_map; apply map_ext; intros z; symmetry; apply H).
    rewrite center_cv. destruct (center c fr lo hi _) as [l|e]; cbn [rmap bind outcomes clim_converted]; [apply converted_cv|reflexivity].
  Qed.
  Lemma c122_clim x freq custom td : freq <> "season"%string ->
    outcomes (clim_converted a b (width (inp x))) (climatology_average c infer_freq empty_exc x freq custom td) (climatology_average c infer_freq empty_exc (ic x) freq custom td).
  Proof.
    intros NS. unfold climatology_average, frame. destruct (oget ValueError (clim_freq freq)) as [fr|e]; [|reflexivity]. cbn [bind]. cbv zeta. change (time_info (ic x) td) with (time_info x td).
    destruct (time_info x td) as [n|e]; [|reflexivity]. cbn [bind]. change (samples (inp (ic x))) with (cv (samples (inp x))). rewrite fst_cv.
    destruct (check_uniform c infer_freq _) as [u|e]; [|reflexivity]. cbn [bind]. apply String.eqb_neq in NS. rewrite NS.
    replace (map (fun s => yr (fst s)) (cv (samples (inp x)))) with (map (fun s => yr (fst s)) (samples (inp x))) by (unfold samples_convert; rewrite map_map; reflexivity).
    apply (clim_tail fr _ (keys (key fr) (map fst (samples (inp x)))) (fun z => mean_of (having (key fr) z (samples (inp x)))) (fun z => mean_of (having (key fr) z (cv (samples (inp x)))))).
    intros z. rewrite having_cv. apply mean_cv.
  Qed.
  Definition m2s_rest (ms : Z * Z * Z) (sel : list (time * frame fl)) : res (list (time * frame fl)) :=
    guard Nat.eqb (List.length sel) 0 raise empty_exc ;;
    let f := quarter ms in
    let means := map (fun p => (date_of c (86400 * mstart c (pmonth f p + 1))%Z, mean_of (members c f p sel))) (bins c f (map fst sel)) in
    Ok (filter (fun s => (mo (fst s) =? middle ms)%Z) means).
  Lemma m2s_tail w ms (s1 : smp) : outcomes (converted a b w) (m2s_rest ms s1) (m2s_rest ms (cv s1)).
  Proof.
    unfold m2s_rest, frame. rewrite len_cv. destruct (Nat.eqb _ 0); [reflexivity|]. cbv zeta. cbn [outcomes]. rewrite fst_cv.
    replace (map (fun p => (date_of c (86400 * mstart c (pmonth (quarter ms) p + 1))%Z, mean_of (members c (quarter ms) p (cv s1)))) (bins c (quarter ms) (map fst s1)))
      with (cv (map (fun p => (date_of c (86400 * mstart c (pmonth (quarter ms) p + 1))%Z, mean_of (members c (quarter ms) p s1))) (bins c (quarter ms) (map fst s1))))
      by (unfold samples_convert at 1; rewrite map_map; apply map_ext; intros p; cbn [fst snd]; rewrite members_cv, mean_cv; reflexivity).
    rewrite (filter_cv (fun t => (mo t =? middle ms)%Z)). apply converted_cv.
  Qed.
  Lemma c122_m2s x season td : outcomes (converted a b (width (inp x))) (month_to_season c empty_exc x season td) (month_to_season c empty_exc (ic x) season td).
  Proof.
    unfold month_to_season. change (time_info (ic x) td) with (time_info x td). destruct (time_info x td) as [n|e]; [|reflexivity]. cbn [bind]. cbv zeta.
    change (samples (inp (ic x))) with (cv (samples (inp x))). rewrite len_cv. destruct (negb _); [reflexivity|]. destruct (oget KeyError (find_season season)) as [ms|e]; [|reflexivity]. cbn [bind].
    rewrite (filter_cv (in_months ms)). set (sel := filter (fun s => in_months ms (fst s)) (samples (inp x))).
    set (s1 := if String.eqb season "DJF" then removelast sel else if String.eqb season "NDJ" then tl sel else sel).
    assert (E2 : cv s1 = if String.eqb season "DJF" then removelast (cv sel) else if String.eqb season "NDJ" then tl (cv sel) else cv sel).
    2: exact (eq_ind (cv s1) (fun z => outcomes (converted a b (width (inp x))) (m2s_rest ms s1) (m2s_rest ms z)) (m2s_tail _ ms s1) _ E2).
    unfold s1. destruct (String.eqb season "DJF"); [|destruct (String.eqb season "NDJ"); [destruct sel|]; reflexivity].
      clear s1. unfold samples_convert. clearbody sel. induction sel as [|s [|s' r] IH]; [reflexivity|reflexivity|]. cbn [removelast map] in *. rewrite IH. reflexivity.
  Qed.
End Conv.

Section Seasons.
  Variables (c : cal) (infer_freq : list time -> bool) (empty_exc : exc).
  Variables a b : R.
  Hypothesis a0 : a <> 0.
  Local Notation f := (convert a b).
  Local Notation cv := (samples_convert a b).
  Local Notation ic := (input_convert a b).
  Definition season_months (w : nat) (ms : Z * Z * Z) (xs : smp) : smp := dropna w (resampled c mean_of Month (filter (fun s => in_months ms (fst s)) xs)).
  Lemma season_rel w ms (xs : smp) :
    outcomes (fun fr fr' : nat -> fl => season_months w ms xs <> [] \/ b = 0 -> forall k, (k < w)%nat -> fr' k = f (fr k))
      (season_mean c empty_exc Month w ms xs) (season_mean c empty_exc Month w ms (cv xs)).
  Proof.
    unfold season_mean, season_months, frame. rewrite (filter_cv a b (in_months ms)). set (sel := filter (fun s : time * (nat -> fl) => in_months ms (fst s)) xs).
    change (List.length (samples_convert a b sel)) with (List.length (cv sel)). rewrite len_cv. destruct (Nat.eqb _ 0); [reflexivity|]. cbv zeta. cbn [outcomes]. rewrite resampled_cv, dropna_cv by exact a0.
    pose proof (dropna_good c w _ (resampled_valid c mean_of Month sel)) as G. set (d := dropna w (resampled c mean_of Month sel)) in *. intros D k Hk.
    destruct d as [|s0 d0].
    { destruct D as [D| ->]; [contradiction|]. cbn. f_equal. ring. }
    set (d := s0 :: d0) in *. unfold samples_convert. rewrite !map_map. cbn [fst snd].
    apply (days_f a b a0 (fun s => snd s k) (fun s => month_length c (fst s))); [discriminate|]. intros s Hs. rewrite Forall_forall in G. split; [apply (G s Hs), Hk|].
    unfold month_length. pose proof (mlen_bounds c (yr (fst s)) (mo (fst s))). lia.
  Qed.
  Lemma seasons_rel x custom td :
    (b = 0 \/ forall s ms, In s (requested custom) -> find_season s = Some ms -> season_months (width (inp x)) ms (samples (inp x)) <> []) ->
    outcomes (clim_converted a b (width (inp x))) (climatology_average c infer_freq empty_exc x "season" custom td) (climatology_average c infer_freq empty_exc (ic x) "season" custom td).
  Proof.
    intros H. unfold climatology_average. cbn [clim_freq String.eqb oget bind]. cbv zeta. change (oget ValueError (clim_freq "season")) with (Ok Month). cbn [bind].
    change (time_info (ic x) td) with (time_info x td). destruct (time_info x td) as [n|e]; [|reflexivity]. cbn [bind].
    change (samples (inp (ic x))) with (cv (samples (inp x))). rewrite fst_cv. destruct (check_uniform c infer_freq _) as [u|e]; [|reflexivity]. cbn [bind].
    change (String.eqb "season" "season") with true. cbv iota. fold (requested custom). destruct (negb _); [reflexivity|]. change (width (inp (ic x))) with (width (inp x)).
    set (w := width (inp x)) in *. set (xs := samples (inp x)) in *. revert H. generalize (requested custom). intros l H.
    set (F := fun xs (s : string) => do ms <- oget KeyError (find_season s) ;; do fr <- season_mean c empty_exc Month w ms xs ;; Ok (s, fr)).
    assert (K : outcomes (converted a b w) (mapM (F xs) l) (mapM (F (cv xs)) l)).
    { induction l as [|s t IH]; [constructor|]. cbn [mapM]. unfold F at 1 3. destruct (find_season s) as [ms|] eqn:E; cbn [oget bind]; [|reflexivity].
      pose proof (season_rel w ms xs) as S. destruct (season_mean c empty_exc Month w ms xs) as [fr|e], (season_mean c empty_exc Month w ms (cv xs)) as [fr'|e']; cbn [outcomes] in S; try contradiction; cbn [bind]; [|exact S].
      assert (IH' := IH ltac:(destruct H as [H|H]; [left; exact H|right; intros s1 ms1 I1; apply H; right; exact I1])). clear IH.
      destruct (mapM (F xs) t) as [r|e], (mapM (F (cv xs)) t) as [r'|e']; cbn [outcomes] in IH'; try contradiction; cbn [bind outcomes]; [|exact IH'].
      constructor; [|exact IH']. cbn [fst snd]. split; [reflexivity|]. apply S. destruct H as [H|H]; [right; exact H|left; apply (H s ms); [left; reflexivity|exact E]]. }
    change (outcomes (clim_converted a b w) (do l0 <- mapM (F xs) l ;; Ok (Seasons l0)) (do l0 <- mapM (F (cv xs)) l ;; Ok (Seasons l0))).
    destruct (mapM (F xs) l) as [r|e], (mapM (F (cv xs)) l) as [r'|e']; cbn [outcomes] in K; try contradiction; exact K.
  Qed.
  Lemma months_present x m ms : (0 < width (inp x))%nat -> all_valid c (samples (inp x)) -> all_tidy (width (inp x)) (samples (inp x)) -> (exists s, spells s m /\ find_season s = Some ms) ->
    (exists t, valid c t /\ in_season m t = true /\ complete Month (width (inp x)) (samples (inp x)) t) -> season_months (width (inp x)) ms (samples (inp x)) <> [].
  Proof.
    intros Hw V Ti (s & Sp & E) (t & Vt & St & Ct). destruct ms as [[m1 m2] m3]. destruct (proj1 (find_season_iff s m1 m2 m3) E) as (Sp' & E2 & E3).
    assert (m1 = m) by (apply (spells_unique s); auto). subst m1. set (xs := samples (inp x)) in *. set (w := width (inp x)) in *.
    assert (Vs : forall s, In s xs -> valid c (fst s)) by (unfold all_valid in V; rewrite Forall_forall in V; auto).
    unfold season_months. unfold frame in *. assert (ES : filter (fun s => in_months (m, m2, m3) (fst s)) xs = sel m xs). { unfold sel. apply filter_ext_in. intros u Hu. apply (months_in m); auto; [apply Sp|apply (Vs u Hu)]. }
    change (dropna w (resampled c mean_of Month (filter (fun s => in_months (m, m2, m3) (fst s)) xs)) <> []). rewrite ES.
    assert (V' : all_valid c (sel m xs)). { unfold all_valid in *. rewrite Forall_forall in *. intros u Hu. apply filter_In in Hu. apply V; tauto. }
    assert (Ti' : all_tidy w (sel m xs)). { unfold all_tidy in *. rewrite Forall_forall in *. intros u Hu. apply filter_In in Hu. apply Ti; tauto. }
    rewrite dropna_resampled. fold (surv c w (sel m xs)).
    assert (Q : In (tmonth t) (surv c w (sel m xs))) by (apply (In_surv c w); auto; apply (proj2 (sel_complete m xs w t Hw)); auto).
    destruct (surv c w (sel m xs)); [destruct Q|discriminate].
  Qed.
  Lemma c122_seasons x custom td : all_valid c (samples (inp x)) -> all_tidy (width (inp x)) (samples (inp x)) -> (0 < width (inp x))%nat ->
    (forall s m, In s (requested custom) -> spells s m -> exists t, valid c t /\ in_season m t = true /\ complete Month (width (inp x)) (samples (inp x)) t) ->
    outcomes (clim_converted a b (width (inp x))) (climatology_average c infer_freq empty_exc x "season" custom td) (climatology_average c infer_freq empty_exc (ic x) "season" custom td).
  Proof.
    intros V Ti Hw H. apply seasons_rel. right. intros s [[m m2] m3] Is E. destruct (proj1 (find_season_iff s m m2 m3) E) as (Sp & _).
    apply (months_present x m); eauto.
  Qed.
End Seasons.

Section Anomalies.
  Variables (c : cal) (infer_freq : list time -> bool) (empty_exc : exc).
  Variables a b : R.
  Hypothesis a0 : a <> 0.
  Local Notation f := (convert a b).
  Local Notation cv := (samples_convert a b).
  Local Notation ic := (input_convert a b).
  Local Notation CN := (climate_anomaly c infer_freq empty_exc).
  Lemma f_minus x y : nsub (f x) (f y) = convert a 0 (nsub x y).
  Proof. rewrite f_sub by exact a0. unfold convert. destruct (nmul (Fin a) (nsub x y)); cbn; try reflexivity. f_equal. ring. Qed.
  Lemma find_rel w n (l l' : list (string * (nat -> fl))) : converted a b w l l' ->
    match option_map snd (find (fun p => String.eqb (fst p) n) l), option_map snd (find (fun p => String.eqb (fst p) n) l') with
    | Some fr, Some fr' => forall k, (k < w)%nat -> fr' k = f (fr k) | None, None => True | _, _ => False end.
  Proof. intros H. induction H as [|x y r r' [E V] _ IH]; [exact I|]. cbn [find]. rewrite E. destruct (String.eqb (fst x) n); [exact V|exact IH]. Qed.
  Lemma having_rel w key z (l l' : smp) : converted a b w l l' -> converted a b w (having key z l) (having key z l').
  Proof. intros H. unfold converted, having, frame in *. induction H as [|x y r r' [E V] _ IH]; [constructor|]. cbn [filter]. rewrite E. destruct (key (fst x) =? z)%Z; [constructor; auto|exact IH]. Qed.
  (** what a date's anomaly subtracts can be converted *)
  Definition plain (x : fl) (l : list fl) : Prop := b = 0 \/ isnan x = true \/ exists m, l = [m] /\ isnan m = false.
  Lemma nansum_scale l : b = 0 -> nansum (map f l) = f (nansum l).
  Proof.
    intros ->. unfold nansum. replace (map (fun x => if isnan x then ofZ 0 else x) (map (convert a 0) l)) with (map (convert a 0) (map (fun x => if isnan x then ofZ 0 else x) l)).
    - rewrite nsum_f by exact a0. rewrite Rmult_0_r. reflexivity.
    - rewrite !map_map. apply map_ext. intros x. rewrite f_isnan by exact a0. destruct (isnan x); [|reflexivity]. cbn. f_equal. ring.
  Qed.
  Lemma plain_sub x l : plain x l -> nsub (f x) (nansum (map f l)) = convert a 0 (nsub x (nansum l)).
  Proof.
    intros [H|[H|(m & -> & H)]].
    - rewrite nansum_scale by exact H. apply f_minus.
    - destruct x; try discriminate. reflexivity.
    - replace (nansum (map f [m])) with (f m); [replace (nansum [m]) with m; [apply f_minus|]|]; unfold nansum; cbn [map]; rewrite ?(f_isnan a b a0), H; unfold nsum; cbn [fold_left].
      + destruct m; cbn; try reflexivity. f_equal. ring.
      + destruct (f m); cbn; try reflexivity. f_equal. ring.
  Qed.
  Definition clim_of (x : input fl) freq n : res (cout fl) :=
    if String.eqb freq "year" then rmap Times (calendar_average c infer_freq x freq (Some n)) else climatology_average c infer_freq empty_exc x freq [] (Some n).
  Lemma mapM_outcomes {A B C D : Type} (P : C -> D -> Prop) (F : A -> res C) (F' : B -> res D) (h : A -> B) l : (forall s, In s l -> outcomes P (F s) (F' (h s))) -> outcomes (Forall2 P) (mapM F l) (mapM F' (map h l)).
  Proof.
    induction l as [|s t IH]; intros H; [constructor|]. cbn [map mapM]. pose proof (H s (or_introl eq_refl)) as E. destruct (F s) as [y|e], (F' (h s)) as [y'|e']; cbn [outcomes] in E; try contradiction; cbn [bind]; [|exact E].
    assert (IH' := IH (fun u Hu => H u (or_intror Hu))). destruct (mapM F t) as [r|e], (mapM F' (map h t)) as [r'|e']; cbn [outcomes] in IH'; try contradiction; cbn [bind outcomes]; [|exact IH']. constructor; auto.
  Qed.
  Definition step_t freq (l : smp) (s : time * (nat -> fl)) : res (time * (nat -> fl)) :=
    match having (anom_key freq) (anom_key freq (fst s)) l with
    | [] => Err KeyError
    | g => Ok (fst s, subtract (snd s) (fun k => nansum (map (fun r => snd r k) g)))
    end.
  Definition step_s (l : list (string * (nat -> fl))) (s : time * (nat -> fl)) : res (time * (nat -> fl)) :=
    do fr <- oget KeyError (option_map snd (find (fun p => String.eqb (fst p) (season_name (fst s))) l)) ;; Ok (fst s, subtract (snd s) fr).
  Local Notation rel w := (fun e e' : time * (nat -> fl) => fst e' = fst e /\ forall k, (k < w)%nat -> snd e' k = convert a 0 (snd e k)).
  Lemma step_t_rel w freq l l' s : converted a b w l l' -> (forall k, (k < w)%nat -> plain (snd s k) (map (fun r => snd r k) (having (anom_key freq) (anom_key freq (fst s)) l))) ->
    outcomes (rel w) (step_t freq l s) (step_t freq l' (fst s, fcv a b (snd s))).
  Proof.
    intros H P. unfold step_t. cbn [fst snd]. pose proof (having_rel w (anom_key freq) (anom_key freq (fst s)) l l' H) as R. revert P R.
    generalize (having (anom_key freq) (anom_key freq (fst s)) l) (having (anom_key freq) (anom_key freq (fst s)) l'). intros g g' P R.
    assert (M : forall k, (k < w)%nat -> map (fun r => snd r k) g' = map f (map (fun r => snd r k) g)).
    { intros k Hk. rewrite map_map. clear -R Hk. induction R as [|? ? ? ? [_ V] _ IH]; [reflexivity|]. cbn [map]. rewrite IH, V by exact Hk. reflexivity. }
    destruct R as [|u u' r r' E R]; [reflexivity|]. cbn [outcomes fst snd]. split; [reflexivity|]. intros k Hk. unfold subtract. rewrite M by exact Hk. unfold fcv. apply plain_sub, P, Hk.
  Qed.
  Lemma step_s_rel w l l' s : converted a b w l l' -> outcomes (rel w) (step_s l s) (step_s l' (fst s, fcv a b (snd s))).
  Proof.
    intros H. unfold step_s. cbn [fst snd]. pose proof (find_rel w (season_name (fst s)) l l' H) as R.
    destruct (option_map snd (find _ l)) as [fr|], (option_map snd (find _ l')) as [fr'|]; try contradiction; cbn [oget bind]; [|reflexivity].
    cbn [outcomes fst snd]. split; [reflexivity|]. intros k Hk. unfold subtract. rewrite R by exact Hk. apply f_minus.
  Qed.
  Lemma anom_rel w x freq td :
    (forall n, time_info x td = Ok n -> outcomes (clim_converted a b w) (clim_of x freq n) (clim_of (ic x) freq n)) ->
    (forall n l s k, time_info x td = Ok n -> clim_of x freq n = Ok (Times l) -> In s (samples (inp x)) -> (k < w)%nat ->
       plain (snd s k) (map (fun r => snd r k) (having (anom_key freq) (anom_key freq (fst s)) l))) ->
    outcomes (converted a 0 w) (CN x freq td) (CN (ic x) freq td).
  Proof.
    intros H P. unfold climate_anomaly. change (time_info (ic x) td) with (time_info x td). destruct (time_info x td) as [n|e]; [|reflexivity]. cbn [bind]. destruct (negb _); [reflexivity|]. cbv zeta.
    fold (clim_of x freq n) (clim_of (ic x) freq n). specialize (H n eq_refl). specialize (P n). destruct (clim_of x freq n) as [o|e], (clim_of (ic x) freq n) as [o'|e']; cbn [outcomes] in H; try contradiction; [|exact H].
    cbn [bind]. change (samples (inp (ic x))) with (cv (samples (inp x))). destruct o as [l|l], o' as [l'|l']; try contradiction; cbn [clim_converted] in H.
    - exact (mapM_outcomes _ (step_t freq l) (step_t freq l') (fun s => (fst s, fcv a b (snd s))) (samples (inp x)) (fun s Is => step_t_rel w freq l l' s H (fun k Hk => P l s k eq_refl eq_refl Is Hk))).
    - exact (mapM_outcomes _ (step_s l) (step_s l') (fun s => (fst s, fcv a b (snd s))) (samples (inp x)) (fun s _ => step_s_rel w l l' s H)).
  Qed.
  Lemma converted_less {L} w w' (l l' : list (L * (nat -> fl))) : (w' <= w)%nat -> converted a b w l l' -> converted a b w' l l'.
  Proof. intros Hw H. unfold converted in *. induction H as [|x y r r' [E V] _ IH]; constructor; auto. split; [exact E|]. intros k Hk. apply V. lia. Qed.
  Lemma outcomes_weaken {A} (P Q : A -> A -> Prop) (u v : res A) : (forall x y, P x y -> Q x y) -> outcomes P u v -> outcomes Q u v.
  Proof. intros H. destruct u, v; cbn; auto. Qed.
  Lemma clim_less w w' o o' : (w' <= w)%nat -> clim_converted a b w o o' -> clim_converted a b w' o o'.
  Proof. intros Hw. destruct o, o'; cbn; auto; apply converted_less, Hw. Qed.
  Lemma clim_of_rel x freq n : freq <> "season"%string -> outcomes (clim_converted a b (width (inp x))) (clim_of x freq n) (clim_of (ic x) freq n).
  Proof.
    intros NS. unfold clim_of. destruct (String.eqb freq "year").
    - pose proof (c122_cal c infer_freq a b a0 x freq (Some n)) as H.
      destruct (calendar_average c infer_freq x freq (Some n)), (calendar_average c infer_freq (ic x) freq (Some n)); cbn [outcomes rmap] in *; auto.
    - apply c122_clim; auto.
  Qed.
  (** ** pure scaling: no conditions *)
  Lemma c122_scale x freq td : b = 0 -> outcomes (converted a 0 (width (inp x))) (CN x freq td) (CN (ic x) freq td).
  Proof.
    intros Z. apply anom_rel; [|intros; left; exact Z]. intros n _. destruct (String.eqb_spec freq "season") as [->|NS]; [|apply clim_of_rel, NS].
    unfold clim_of. cbn [String.eqb Ascii.eqb Bool.eqb]. apply seasons_rel; auto.
  Qed.
  (** ** seasons *)
  Lemma c122_anom_season x td : all_valid c (samples (inp x)) -> all_tidy (width (inp x)) (samples (inp x)) -> (0 < width (inp x))%nat ->
    (forall s m, In s (requested []) -> spells s m -> exists t, valid c t /\ in_season m t = true /\ complete Month (width (inp x)) (samples (inp x)) t) ->
    outcomes (converted a 0 (width (inp x))) (CN x "season" td) (CN (ic x) "season" td).
  Proof.
    intros V Ti Hw H. apply anom_rel.
    - intros n _. unfold clim_of. cbn [String.eqb Ascii.eqb Bool.eqb]. apply c122_seasons; auto.
    - intros n l s k _ E. exfalso. unfold clim_of in E. cbn [String.eqb Ascii.eqb Bool.eqb] in E. unfold climatology_average in E.
      change (oget ValueError (clim_freq "season")) with (Ok Month) in E. cbn [bind] in E. destruct (time_info x (Some n)); [|discriminate]. cbn [bind] in E.
      destruct (check_uniform _ _ _); [|discriminate]. cbn [bind] in E. change (String.eqb "season" "season") with true in E. cbv iota zeta in E. destruct (negb _); [discriminate|].
      destruct (mapM _ _); discriminate.
  Qed.
  (** ** days and months *)
  Lemma vals_cv l : vals (map f l) = map (fun r => a * r + b) (vals l).
  Proof. unfold vals. induction l as [|x t IH]; [reflexivity|]. cbn [map flat_map]. rewrite map_app, <- IH. f_equal. destruct x; cbn; try reflexivity; unfold fl_infsgn; destruct (Req_EM_T a 0); try reflexivity; destruct (Rlt_dec 0 a); reflexivity. Qed.
  Lemma avg_cv l : l <> [] -> avg (map (fun r => a * r + b) l) = a * avg l + b.
  Proof.
    intros NE. unfold avg. rewrite map_length. assert (P : 0 < INR (List.length l)) by (apply lt_0_INR; destruct l; [contradiction|cbn; lia]).
    assert (E : forall l, rsum (map (fun r => a * r + b) l) = a * rsum l + INR (List.length l) * b).
    { clear. induction l as [|x t IH]; [cbn; ring|]. cbn [map rsum List.length]. rewrite IH, S_INR. ring. }
    rewrite E. field. lra.
  Qed.
  Lemma present_cv l : mean_present (map f l) = f (mean_present l).
  Proof.
    unfold mean_present. rewrite vals_cv. destruct (vals l) as [|x t] eqn:E; [reflexivity|]. cbn [map].
    change (a * x + b :: map (fun r => a * r + b) t) with (map (fun r => a * r + b) (x :: t)). rewrite avg_cv by discriminate. reflexivity.
  Qed.
  Lemma in_key_cv fr t k (xs : smp) : in_key fr t k (cv xs) = map f (in_key fr t k xs).
  Proof. unfold in_key. rewrite (filter_cv a b (same_key fr t)). unfold samples_convert. rewrite !map_map. reflexivity. Qed.
  Lemma in_period_cv fr t k (xs : smp) : in_period fr t k (cv xs) = map f (in_period fr t k xs).
  Proof. unfold in_period. rewrite (filter_cv a b (same_period fr t)). unfold samples_convert. rewrite !map_map. reflexivity. Qed.
  Lemma tidy_cv w (xs : smp) : all_tidy w xs -> all_tidy w (cv xs).
  Proof.
    unfold all_tidy. rewrite !Forall_forall. intros H s Hs k Hk. apply in_map_iff in Hs. destruct Hs as (u & <- & Hu). cbn [snd]. destruct (H u Hu k Hk) as [->|(r & ->)]; [left; reflexivity|right; eexists; reflexivity].
  Qed.
  Lemma valid_cv (xs : smp) : all_valid c xs -> all_valid c (cv xs).
  Proof. unfold all_valid. rewrite !Forall_forall. intros H s Hs. apply in_map_iff in Hs. destruct Hs as (u & <- & Hu). apply (H u Hu). Qed.
  Lemma minus_cv x m : minus (f x) (f m) = convert a 0 (minus x m).
  Proof.
    destruct x, m; cbn; try reflexivity; try (unfold fl_infsgn; destruct (Req_EM_T a 0); try reflexivity; destruct (Rlt_dec 0 a); reflexivity). f_equal. ring.
  Qed.
  Lemma c122_anom_short x freq fr td y : anom_short freq fr -> all_valid c (samples (inp x)) -> all_tidy (width (inp x)) (samples (inp x)) ->
    label_year (map fst (samples (inp x))) y -> all_exist c fr y (map fst (samples (inp x))) ->
    outcomes (converted a 0 (width (inp x))) (CN x freq td) (CN (ic x) freq td).
  Proof.
    intros Sh V Ti LY A. assert (NS : freq <> "season"%string) by (destruct Sh as [[-> _]|[-> _]]; discriminate).
    assert (O : outcomes (converted a 0 0) (CN x freq td) (CN (ic x) freq td)).
    { apply anom_rel; [|intros; lia]. intros n _. eapply outcomes_weaken; [|apply clim_of_rel, NS]. intros o o'. apply clim_less. lia. }
    destruct (CN x freq td) as [out|e] eqn:E, (CN (ic x) freq td) as [out'|e'] eqn:E'; cbn [outcomes] in O |- *; try contradiction; [|exact O].
    pose proof (anom_out c infer_freq empty_exc x freq fr td y out Sh V Ti LY A E) as R. cbv zeta in R.
    assert (R' := anom_out c infer_freq empty_exc (ic x) freq fr td y out' Sh (valid_cv _ V) (tidy_cv _ _ Ti)). cbv zeta in R'.
    change (samples (inp (ic x))) with (cv (samples (inp x))) in R'. rewrite fst_cv in R'. specialize (R' LY A E'). change (width (inp (ic x))) with (width (inp x)) in R'.
    set (w := width (inp x)) in *. clear -R R' a0.
    set (P := fun (s e : time * (nat -> fl)) => fst e = fst s /\ forall k, (k < w)%nat -> snd e k = minus (snd s k) (mean_present (in_key fr (fst s) k (samples (inp x))))).
    set (P' := fun (s e : time * (nat -> fl)) => fst e = fst s /\ forall k, (k < w)%nat -> snd e k = minus (snd s k) (mean_present (in_key fr (fst s) k (cv (samples (inp x)))))).
    assert (G : forall l o o', Forall2 P l o -> Forall2 P' (cv l) o' -> converted a 0 w o o'); [|exact (G _ _ _ R R')].
    clear R R'. induction l as [|s t IH]; intros o o' R R'; inversion R; subst; inversion R'; subst; [constructor|]. constructor; [|apply IH; auto].
    match goal with H1 : P s ?e, H2 : P' _ ?e' |- _ => destruct H1 as [E1 V1], H2 as [E2 V2] end. cbn [fst snd] in E2, V2. split; [congruence|]. intros k Hk.
    rewrite V1, V2, in_key_cv, present_cv by exact Hk. apply minus_cv.
  Qed.
  (** ** years *)
  Lemma complete_cv fr w (xs : smp) t : complete fr w (cv xs) t <-> complete fr w xs t.
  Proof.
    unfold complete. split; intros H k Hk; specialize (H k Hk); rewrite ?in_period_cv, ?present_cv in *; destruct H as [r E].
    - destruct (mean_present (in_period fr t k xs)) eqn:M; eauto; unfold mean_present in M; destruct (vals _); discriminate.
    - rewrite E. eexists. reflexivity.
  Qed.
  Lemma by_days_cv k (xs : smp) ms : ms <> [] -> Forall (fun t => exists r, mean_present (in_period Month t k xs) = Fin r) ms -> by_days c k (cv xs) ms = f (by_days c k xs ms).
  Proof.
    intros NE H. unfold by_days. destruct ms as [|t0 ms0]; [contradiction|]. set (ms := t0 :: ms0) in *. unfold convert. cbn [nmul NumFl fl_mul nadd fl_add]. f_equal. unfold wavg. rewrite !map_map. cbn [fst snd].
    assert (P : 0 < rsum (map (fun t => IZR (days c t)) ms)).
    { apply rsum_pos; [discriminate|]. apply Forall_forall. intros z Hz. apply in_map_iff in Hz. destruct Hz as (t & <- & _). apply IZR_lt. unfold days. pose proof (mlen_bounds c (yr t) (mo t)). lia. }
    assert (E : forall l, Forall (fun t => exists r, mean_present (in_period Month t k xs) = Fin r) l ->
      rsum (map (fun t => IZR (days c t) * value (mean_present (in_period Month t k (cv xs)))) l) = a * rsum (map (fun t => IZR (days c t) * value (mean_present (in_period Month t k xs))) l) + b * rsum (map (fun t => IZR (days c t)) l)).
    { clear. induction l as [|t l IH]; intros H; [cbn; ring|]. inversion H as [|? ? [r Er] Hl]; subst. cbn [map rsum]. rewrite IH by exact Hl. rewrite in_period_cv, present_cv, Er. cbn. ring. }
    rewrite E by exact H. field. lra.
  Qed.
  Lemma c122_anom_year x td : all_valid c (samples (inp x)) -> all_tidy (width (inp x)) (samples (inp x)) -> (0 < width (inp x))%nat ->
    (exists n, n <> EmptyString /\ time_info x td = Ok n) -> check_uniform c infer_freq (map fst (samples (inp x))) = Ok tt ->
    let xs : smp := samples (inp x) in let w := width (inp x) in
    (forall s u, In s xs -> In u xs -> (yr (fst s) < yr (fst u) + 100)%Z) ->
    (forall s, In s xs -> exists u, In u xs /\ complete Month w xs (fst u) /\ yr (fst u) = yr (fst s)) ->
    outcomes (converted a 0 w) (CN x "year" td) (CN (ic x) "year" td).
  Proof.
    intros V Ti Hw Et Eu xs w Sp Co.
    destruct (anom_year_short c infer_freq empty_exc x td V Ti Hw Et Eu Sp) as (out & E & R).
    { intros s Hs. destruct (Co s Hs) as (u & Hu & Cu & Yu). exists u, u. repeat split; auto; unfold xs in *; lia. }
    assert (In_cv : forall s, In s (cv xs) -> exists u, In u xs /\ fst s = fst u) by (intros s Hs; apply in_map_iff in Hs; destruct Hs as (u & <- & Hu); eauto).
    destruct (anom_year_short c infer_freq empty_exc (ic x) td (valid_cv _ V) (tidy_cv _ _ Ti) Hw Et) as (out' & E' & R').
    { change (samples (inp (ic x))) with (cv xs). rewrite fst_cv. exact Eu. }
    { intros s u Hs Hu. destruct (In_cv s Hs) as (s1 & H1 & ->), (In_cv u Hu) as (u1 & H2 & ->). apply Sp; auto. }
    { intros s Hs. destruct (In_cv s Hs) as (s1 & H1 & ->). destruct (Co s1 H1) as (u & Hu & Cu & Yu).
      assert (Iu : In (fst u, fun k => f (snd u k)) (cv xs)) by (apply in_map_iff; eauto). eexists _, _. split; [exact Iu|]. split; [exact Iu|]. cbn [fst].
      assert (Cu' := proj2 (complete_cv Month w xs (fst u)) Cu). repeat split; auto; unfold xs in *; lia. }
    rewrite E, E'. cbn [outcomes]. change (samples (inp (ic x))) with (cv xs) in R'. change (width (inp (ic x))) with w in R'. fold xs w in R, R', V, Ti, Hw.
    assert (Cs : forall s, In s xs -> exists u, In u xs /\ complete Month w xs (fst u) /\ yr (fst u) = yr (fst s)) by exact Co.
    set (P := fun (s o : time * (nat -> fl)) => fst o = fst s /\ exists ms, complete_months c (same_period Year (fst s)) w xs ms /\ forall k, (k < w)%nat -> snd o k = minus (snd s k) (Fin (value (by_days c k xs ms)))).
    set (P' := fun (s o : time * (nat -> fl)) => fst o = fst s /\ exists ms, complete_months c (same_period Year (fst s)) w (cv xs) ms /\ forall k, (k < w)%nat -> snd o k = minus (snd s k) (Fin (value (by_days c k (cv xs) ms)))).
    assert (G : forall l o o', (forall s, In s l -> In s xs) -> Forall2 P l o -> Forall2 P' (cv l) o' -> converted a 0 w o o'); [|exact (G xs out out' (fun _ H => H) R R')].
    clear R R'. induction l as [|s t IH]; intros o o' I R R'; inversion R; subst; inversion R'; subst; [constructor|]. constructor; [|apply IH; auto; intros; apply I; right; auto].
    assert (Is : In s xs) by (apply I; left; reflexivity).
    match goal with H1 : P s ?e, H2 : P' _ ?e' |- _ => destruct H1 as [E1 (ms & C1 & V1)], H2 as [E2 (ms' & C2 & V2)] end. cbn [fst snd] in E2, C2, V2. split; [congruence|]. intros k Hk.
    rewrite V1, V2 by exact Hk.
    assert (C2' : complete_months c (same_period Year (fst s)) w xs ms').
    { destruct C2 as [Q1 Q2 Q3 Q4]. constructor; auto.
      - rewrite Forall_forall in *. intros z Hz. destruct (Q2 z Hz) as [Q5 Q6]. split; auto. apply complete_cv, Q6.
      - intros z Vz Pz Cz. apply Q3; auto. apply complete_cv, Cz. }
    assert (U : by_days c k xs ms' = by_days c k xs ms).
    { eapply ClimZero.by_days_unique; [exact C2'|exact C1|]. intros z u Vz Vu Szu. cbn [same_period] in *. apply andb_prop in Szu. destruct Szu as [Szu _]. apply Z.eqb_eq in Szu. rewrite Szu. reflexivity. }
    assert (NE : ms' <> []).
    { destruct (Cs s Is) as (u & Hu & Cu & Yu). destruct C2' as [_ _ Q3 _]. destruct (Q3 (fst u)) as (z & Hz & _).
      - unfold all_valid in V. rewrite Forall_forall in V. apply (V u Hu).
      - cbn [same_period]. apply Z.eqb_eq. symmetry. exact Yu.
      - exact Cu.
      - destruct ms'; [destruct Hz|discriminate]. }
    rewrite by_days_cv.
    - rewrite U. unfold by_days in U |- *. destruct ms as [|m0 ms0]; [destruct ms'; [contradiction|discriminate]|]. set (W := wavg _). rewrite <- minus_cv. reflexivity.
    - exact NE.
    - destruct C2' as [_ Q2 _ _]. rewrite Forall_forall in *. intros z Hz. apply (Q2 z Hz), Hk.
  Qed.
End Anomalies.
