(** Correlation: values returned by pearson_r. *)
From Coq Require Import Reals List Bool Arith ZArith Lra Lia String.
From Verif Require Import PyBase Num NumFacts PyFacts ListFacts Arr ArrFacts CellFacts Hybrid HybridFacts SpecSum SumFacts SpecStats Pearson PearsonFacts SphApi SphMore.
Import ListNotations.
Local Open Scope R_scope.

(** ** sums of possibly missing terms *)
Definition fill (v : option R) : R := match v with Some r => r | None => 0 end.
Definition tofl (v : option R) : fl := match v with Some r => Fin r | None => NaN end.
Lemma nansum_opt n (g : nat -> option R) f : (forall k, (k < n)%nat -> f k = tofl (g k)) ->
  nansum (map f (seq 0 n)) = Fin (bigsum n (fun k => fill (g k))).
Proof.
  intros H. unfold nansum. rewrite map_map. rewrite <- rsum_seq0, <- nsum_fin, map_map. f_equal. apply map_ext_in. intros k Hk. apply in_seq in Hk.
  rewrite H by lia. destruct (g k); reflexivity.
Qed.
Lemma nsum_opt n g f : (forall k, (k < n)%nat -> f k = Fin (g k)) -> nsum (map f (seq 0 n)) = Fin (bigsum n g).
Proof. intros H. rewrite <- rsum_seq0, <- nsum_fin, map_map. f_equal. apply map_ext_in. intros k Hk. apply in_seq in Hk. apply H; lia. Qed.

Lemma clip_fin c : -1 <= c <= 1 -> nclip (ofZ (-1)) (ofZ 1) (Fin c) = Fin c.
Proof.
  intros H. unfold nclip. change (ofZ (-1)) with (Fin (-1)). change (ofZ 1) with (Fin 1). rewrite nmax_fin, nmin_fin. f_equal.
  unfold Rmax, Rmin. destruct (Rle_dec c (-1)); destruct (Rle_dec _ 1); lra.
Qed.

(** a summation that gives the finite sum of the present terms *)
Definition summer (skipna : bool) : list fl -> fl := if skipna then nansum else nsum.
Lemma summer_opt skipna n (v : nat -> bool) g f : (forall k, (k < n)%nat -> if v k then f k = Fin (g k) else skipna = true /\ f k = NaN) ->
  summer skipna (map f (seq 0 n)) = Fin (bigsum n (fun k => if v k then g k else 0)).
Proof.
  intros H. unfold summer. destruct skipna.
  - rewrite (nansum_opt n (fun k => if v k then Some (g k) else None)).
    + f_equal. apply bigsum_ext. intros k Hk. destruct (v k); reflexivity.
    + intros k Hk. specialize (H k Hk). destruct (v k); [auto|destruct H as [_ ->]; reflexivity].
  - apply nsum_opt. intros k Hk. specialize (H k Hk). destruct (v k); [auto|destruct H; discriminate].
Qed.
Lemma masked_ext n (v : nat -> bool) (f g : nat -> R) : (forall k, (k < n)%nat -> if v k then f k = g k else g k = 0) -> bigsum n (fun k => if v k then f k else 0) = bigsum n g.
Proof. intros H. apply bigsum_ext. intros k Hk. specialize (H k Hk). destruct (v k); auto. Qed.

Lemma corr_end n w x y : good_weights n w -> 0 < wcov n w x x -> 0 < wcov n w y y ->
  nclip (ofZ (-1)) (ofZ 1) (ndiv (Fin (wcov n w x y)) (nsqrt (nmul (Fin (wcov n w x x)) (Fin (wcov n w y y))))) = Fin (wcorr n w x y).
Proof.
  intros G Hx Hy. change (@nmul fl NumFl) with fl_mul. change (@nsqrt fl NumFl) with fl_sqrt. change (@ndiv fl NumFl) with fl_div. cbn [fl_mul].
  assert (P : 0 < wcov n w x x * wcov n w y y) by (apply Rmult_lt_0_compat; auto).
  rewrite fsqrt_fin by lra. rewrite fdiv_fin by (apply Rgt_not_eq, sqrt_lt_R0; auto). apply (clip_fin (wcorr n w x y)). apply wcorr_range; auto.
Qed.

(** the weighted kernel: present triples, and triples whose weight is missing *)
Lemma kw_value skipna n (v : nat -> bool) (A B W : nat -> fl) x y w : good_weights n w ->
  (forall k, (k < n)%nat -> if v k then A k = Fin (x k) /\ B k = Fin (y k) /\ W k = Fin (w k) else skipna = true /\ W k = NaN /\ w k = 0) ->
  let num := wcov n w x y in let va := wcov n w x x in let vb := wcov n w y y in
  kw (summer skipna) n A B W = nclip (ofZ (-1)) (ofZ 1) (ndiv (Fin num) (nsqrt (nmul (Fin va) (Fin vb)))).
Proof.
  intros G H. assert (SW : summer skipna (map W (seq 0 n)) = Fin (bigsum n w)).
  { rewrite (summer_opt skipna n v w).
    - f_equal. apply masked_ext. intros k Hk. specialize (H k Hk). destruct (v k); [auto|tauto].
    - intros k Hk. specialize (H k Hk). destruct (v k); tauto. }
  assert (SM : forall U u, (forall k, (k < n)%nat -> v k = true -> U k = Fin (u k)) ->
      ndiv (summer skipna (map (fun k => nmul (U k) (W k)) (seq 0 n))) (summer skipna (map W (seq 0 n))) = Fin (wmean n w u)).
  { intros U u Q. rewrite SW, (summer_opt skipna n v (fun k => u k * w k)).
    - change (@ndiv fl NumFl) with fl_div. rewrite fdiv_fin by (destruct G; lra). unfold wmean. do 2 f_equal.
      apply masked_ext. intros k Hk. specialize (H k Hk). destruct (v k); [ring|]. destruct H as (_ & _ & ->). ring.
    - intros k Hk. specialize (H k Hk). destruct (v k) eqn:E.
      + rewrite Q by auto. destruct H as (_ & _ & ->). reflexivity.
      + destruct H as (? & -> & _). split; auto. destruct (U k); reflexivity. }
  assert (SV : forall U u V z mu mz, (forall k, (k < n)%nat -> v k = true -> U k = Fin (u k)) -> (forall k, (k < n)%nat -> v k = true -> V k = Fin (z k)) ->
      summer skipna (map (fun k => nmul (nmul (W k) (nsub (U k) (Fin mu))) (nsub (V k) (Fin mz))) (seq 0 n)) = Fin (bigsum n (fun k => w k * (u k - mu) * (z k - mz)))).
  { intros U u V z mu mz Q1 Q2. rewrite (summer_opt skipna n v (fun k => w k * (u k - mu) * (z k - mz))).
    - f_equal. apply masked_ext. intros k Hk. specialize (H k Hk). destruct (v k); [auto|]. destruct H as (_ & _ & ->). ring.
    - intros k Hk. specialize (H k Hk). destruct (v k) eqn:E.
      + rewrite Q1, Q2 by auto. destruct H as (_ & _ & ->). reflexivity.
      + destruct H as (? & -> & _). split; auto. }
  assert (QA : forall k, (k < n)%nat -> v k = true -> A k = Fin (x k)) by (intros k Hk E; specialize (H k Hk); rewrite E in H; tauto).
  assert (QB : forall k, (k < n)%nat -> v k = true -> B k = Fin (y k)) by (intros k Hk E; specialize (H k Hk); rewrite E in H; tauto).
  unfold kw. cbv zeta. rewrite (SM A x QA), (SM B y QB), (SV A x B y _ _ QA QB), (SV A x A x _ _ QA QA), (SV B y B y _ _ QB QB). reflexivity.
Qed.

Lemma count_opt n (v : nat -> bool) (A : nat -> fl) (x w : nat -> R) : (forall k, (k < n)%nat -> if v k then A k = Fin (x k) /\ w k = 1 else A k = NaN /\ w k = 0) ->
  let l := filter (fun z : fl => negb (isnan z)) (map A (seq 0 n)) in
  nsum l = Fin (bigsum n (fun k => w k * x k)) /\ INR (List.length l) = bigsum n w.
Proof.
  intros H l. subst l.
  assert (E : exists m, filter (fun z : fl => negb (isnan z)) (map A (seq 0 n)) = map Fin m /\ rsum m = bigsum n (fun k => w k * x k) /\ INR (List.length m) = bigsum n w).
  2:{ destruct E as (m & -> & E1 & E2). rewrite nsum_fin, E1, map_length, E2. auto. }
  clear - H. induction n as [|n IH]; [exists []; cbn; auto|].
  destruct IH as (m & E & E1 & E2); [intros k Hk; apply H; lia|].
  rewrite seq_S, map_app, filter_app, E. cbn [plus map filter].
  specialize (H n (Nat.lt_succ_diag_r n)). cbn [bigsum]. destruct (v n).
  - destruct H as [-> ->]. exists (m ++ [x n]). split; [rewrite map_app; reflexivity|]. rewrite rsum_app, E1, app_length, plus_INR, E2. cbn. split; lra.
  - destruct H as [-> ->]. exists m. cbn. rewrite app_nil_r. split; auto. split; lra.
Qed.
Definition meaner (skipna : bool) : list fl -> fl := if skipna then nanmean else nmean.
Lemma kn_value skipna n (v : nat -> bool) (A B : nat -> fl) x y w : good_weights n w ->
  (forall k, (k < n)%nat -> if v k then A k = Fin (x k) /\ B k = Fin (y k) /\ w k = 1 else skipna = true /\ A k = NaN /\ B k = NaN /\ w k = 0) ->
  let num := wcov n w x y in let va := wcov n w x x in let vb := wcov n w y y in
  kn (summer skipna) (meaner skipna) n A B = nclip (ofZ (-1)) (ofZ 1) (ndiv (Fin num) (nsqrt (nmul (Fin va) (Fin vb)))).
Proof.
  intros G H.
  assert (SM : forall U u, (forall k, (k < n)%nat -> if v k then U k = Fin (u k) /\ w k = 1 else U k = NaN /\ w k = 0) -> meaner skipna (map U (seq 0 n)) = Fin (wmean n w u)).
  { intros U u Q. unfold meaner. destruct skipna.
    - destruct (count_opt n v U u w Q) as [E1 E2]. unfold nanmean.
      destruct (filter (fun z : fl => negb (isnan z)) (map U (seq 0 n))) as [|z l]; [destruct G as [_ G]; cbn in E2; lra|].
      rewrite E1. change (ofZ (Z.of_nat (List.length (z :: l)))) with (Fin (IZR (Z.of_nat (List.length (z :: l))))). rewrite <- INR_IZR_INZ, E2.
      change (@ndiv fl NumFl) with fl_div. rewrite fdiv_fin by (destruct G; lra). reflexivity.
    - assert (Q' : forall k, (k < n)%nat -> U k = Fin (u k) /\ w k = 1) by (intros k Hk; specialize (H k Hk); specialize (Q k Hk); destruct (v k); [auto|destruct H; discriminate]).
      unfold nmean. rewrite (nsum_opt n u) by (intros; apply Q'; auto). rewrite map_length, seq_length.
      change (ofZ (Z.of_nat n)) with (Fin (IZR (Z.of_nat n))). rewrite <- INR_IZR_INZ.
      assert (E : INR n = bigsum n w) by (rewrite (bigsum_ext n w (fun _ => 1)) by (intros; apply Q'; auto); rewrite bigsum_const; ring).
      rewrite E. change (@ndiv fl NumFl) with fl_div. rewrite fdiv_fin by (destruct G; lra). unfold wmean. do 2 f_equal.
      apply bigsum_ext. intros k Hk. destruct (Q' k Hk) as [_ ->]. ring. }
  assert (SV : forall U u V z mu mz, (forall k, (k < n)%nat -> if v k then U k = Fin (u k) else U k = NaN) -> (forall k, (k < n)%nat -> if v k then V k = Fin (z k) else V k = NaN) ->
      summer skipna (map (fun k => nmul (nsub (U k) (Fin mu)) (nsub (V k) (Fin mz))) (seq 0 n)) = Fin (bigsum n (fun k => w k * (u k - mu) * (z k - mz)))).
  { intros U u V z mu mz Q1 Q2. rewrite (summer_opt skipna n v (fun k => (u k - mu) * (z k - mz))).
    - f_equal. apply masked_ext. intros k Hk. specialize (H k Hk). destruct (v k).
      + destruct H as (_ & _ & ->). ring.
      + destruct H as (_ & _ & _ & ->). ring.
    - intros k Hk. specialize (H k Hk). specialize (Q1 k Hk). specialize (Q2 k Hk). destruct (v k).
      + rewrite Q1, Q2. reflexivity.
      + destruct H as (? & _). rewrite Q1. split; auto. }
  assert (QA : forall k, (k < n)%nat -> if v k then A k = Fin (x k) else A k = NaN) by (intros k Hk; specialize (H k Hk); destruct (v k); tauto).
  assert (QB : forall k, (k < n)%nat -> if v k then B k = Fin (y k) else B k = NaN) by (intros k Hk; specialize (H k Hk); destruct (v k); tauto).
  unfold kn. cbv zeta. rewrite (SM A x), (SM B y) by (intros k Hk; specialize (H k Hk); destruct (v k); tauto).
  rewrite (SV A x B y _ _ QA QB), (SV A x A x _ _ QA QA), (SV B y B y _ _ QB QB). reflexivity.
Qed.

(** ** axes *)
Lemma inb_ins ax s i k : (ax < List.length s)%nat -> (k < nth ax s 0%nat)%nat -> inb (del ax s) i -> inb s (ins ax k i).
Proof.
  revert s i; induction ax as [|ax IH]; intros s i Hs Hk Hi.
  - destruct s as [|n s]; [cbn in Hs; lia|]. cbn in *. apply inb_cons; auto.
  - destruct s as [|n s]; [cbn in Hs; lia|]. unfold del in Hi. cbn [firstn skipn app] in Hi.
    inversion Hi as [|j n' i' s' Hj Hi' E1 E2]; subst. unfold ins. cbn [firstn skipn app]. apply inb_cons. split; [auto|].
    apply (IH s i'); auto. cbn in Hs. lia.
Qed.
Lemma rollaxis_cols {T} {N : Num T} (a : arr T) z ax : pyidx (ndim a) z = Some ax ->
  exists a', rollaxis a z = Ok a' /\ cols a' (nth ax (shp a) 0%nat) (del ax (shp a)) (fun k i => get a (ins ax k i)).
Proof. intros H. unfold rollaxis. rewrite H. cbn [oget bind]. eexists. split; [reflexivity|]. split; [reflexivity|]. intros. reflexivity. Qed.
Lemma pyidx_bound n z ax : pyidx n z = Some ax -> (ax < n)%nat.
Proof. unfold pyidx. destruct (_ && _) eqn:E; [|discriminate]. apply andb_true_iff in E. destruct E as [E1 E2]. apply Z.leb_le in E1. apply Z.ltb_lt in E2. intros Q. inversion Q. destruct (Z.ltb_spec z 0); lia. Qed.

(** ** missing values *)
Definition bad (a b : arr fl) i : bool := isnan (get a i) || isnan (get b i).
Lemma any_nan_false (a : arr fl) i : any_nan a = false -> inb (shp a) i -> isnan (get a i) = false.
Proof.
  unfold any_nan, ravel. intros H Hi. apply all_idx_inb in Hi. destruct (isnan (get a i)) eqn:E; auto.
  rewrite <- H. symmetry. apply existsb_exists. exists (get a i). split; auto. apply in_map; auto.
Qed.
Lemma match_nans_ok (a b : arr fl) w : shp a = shp b -> (forall v, w = Some v -> shp v = shp a) ->
  exists a' b' w', match_nans a b w = Ok (a', b', w') /\ shp a' = shp a /\ shp b' = shp b /\
    (forall i, inb (shp a) i -> get a' i = (if bad a b i then NaN else get a i) /\ get b' i = (if bad a b i then NaN else get b i)) /\
    match w, w' with
    | None, None => True
    | Some v, Some v' => shp v' = shp v /\ forall i, inb (shp a) i -> get v' i = if bad a b i then NaN else get v i
    | _, _ => False
    end.
Proof.
  intros E Hw. unfold match_nans. destruct (any_nan a || any_nan b) eqn:An.
  - rewrite (proj1 (reflect_iff _ _ (shape_eqb_spec (shp a) (shp b))) E). cbn [negb bind].
    destruct w as [v|].
    + rewrite (proj1 (reflect_iff _ _ (shape_eqb_spec (shp v) (shp a))) (Hw v eq_refl)). cbn [negb bind].
      do 3 eexists. split; [reflexivity|]. repeat split; reflexivity.
    + do 3 eexists. split; [reflexivity|]. repeat split; reflexivity.
  - apply orb_false_iff in An. destruct An as [Na Nb].
    assert (B : forall i, inb (shp a) i -> bad a b i = false) by (intros i Hi; unfold bad; rewrite !any_nan_false; auto; rewrite <- E; auto).
    exists a, b, w. split; [reflexivity|]. split; [auto|]. split; [auto|]. split.
    + intros i Hi. rewrite B by auto. auto.
    + destruct w; auto. split; auto. intros i Hi. rewrite B by auto. auto.
Qed.

(** ** the kernel along an axis *)
Definition wcol (w : option (arr fl)) (j : list nat) : fl := match w with Some v => get v j | None => Fin 1 end.
Lemma sample_total n w : good_weights n w -> exists k, (k < n)%nat /\ w k <> 0.
Proof.
  intros [_ G]. induction n as [|n IH]; [cbn in G; lra|]. cbn [bigsum] in G. destruct (Req_dec (w n) 0) as [E|E].
  - destruct IH as (k & Hk & Q); [lra|]. exists k. split; auto.
  - exists n. split; auto.
Qed.
Lemma kernel_value (a b : arr fl) w z ax skipna : shp b = shp a -> (forall v, w = Some v -> shp v = shp a) -> pyidx (ndim a) z = Some ax ->
  let n := nth ax (shp a) 0%nat in
  exists out, pearson_kernel a b w z skipna = Ok out /\ shp out = del ax (shp a) /\
    forall i x y wt, inb (del ax (shp a)) i ->
      sample skipna n (fun k => get a (ins ax k i)) (fun k => get b (ins ax k i)) (fun k => wcol w (ins ax k i)) x y wt ->
      good_weights n wt ->
      get out i = nclip (ofZ (-1)) (ofZ 1) (ndiv (Fin (wcov n wt x y)) (nsqrt (nmul (Fin (wcov n wt x x)) (Fin (wcov n wt y y))))).
Proof.
  intros Eb Ew Hz n. pose proof (pyidx_bound _ _ _ Hz) as Hax. unfold ndim in Hax.
  assert (M : exists a' b' w', (if skipna then match_nans a b w else Ok (a, b, w)) = Ok (a', b', w') /\ shp a' = shp a /\ shp b' = shp b /\
    (forall i, inb (shp a) i -> get a' i = (if skipna && bad a b i then NaN else get a i) /\ get b' i = (if skipna && bad a b i then NaN else get b i)) /\
    match w, w' with
    | None, None => True
    | Some v, Some v' => shp v' = shp v /\ forall i, inb (shp a) i -> get v' i = if skipna && bad a b i then NaN else get v i
    | _, _ => False
    end).
  { destruct skipna; [apply match_nans_ok; auto|]. exists a, b, w. repeat split; auto. destruct w; auto. }
  destruct M as (a' & b' & w' & EM & Sa & Sb & Gab & Gw). unfold pearson_kernel. rewrite EM. cbn [bind].
  destruct (rollaxis_cols a' z ax) as (a1 & Ea & Ca); [unfold ndim in *; rewrite Sa; auto|].
  destruct (rollaxis_cols b' z ax) as (b1 & Ebb & Cb); [unfold ndim in *; rewrite Sb, Eb; auto|].
  rewrite Ea, Ebb. cbn [bind]. rewrite Sa in Ca. rewrite Sb, Eb in Cb. fold n in Ca, Cb.
  change (if skipna then nansum else nsum) with (summer skipna). change (if skipna then nanmean else nmean) with (meaner skipna).
  assert (P : exists k, (k < n)%nat -> True) by (exists 0%nat; auto).
  destruct w as [v|].
  - destruct w' as [v'|]; [|contradiction]. destruct Gw as [Sv Gv]. pose proof (Ew v eq_refl) as Sv0. cbn [check_weights].
    destruct (forallb isnan (ravel v')) eqn:Fb.
    + (* every weight missing *)
      destruct (tail_cols (summer skipna) (meaner skipna) a1 b1 None _ _ _ _ (fun _ _ => NaN) Ca Cb ltac:(discriminate)) as (out & Eo & So & Go).
      exists out. split; [exact Eo|]. split; [auto|]. intros i x y wt Hi Sm Gd. exfalso.
      destruct (sample_total _ _ Gd) as (k & Hk & Hw). pose proof (inb_ins ax (shp a) i k Hax Hk Hi) as Hin.
      assert (I : isnan (get v' (ins ax k i)) = true).
      { rewrite forallb_forall in Fb. apply Fb. unfold ravel. apply in_map. apply all_idx_inb. rewrite Sv, Sv0. auto. }
      destruct (Sm k Hk) as [(Q1 & Q2 & Q3)|(_ & _ & Q)]; [|contradiction]. cbn [wcol] in Q3.
      rewrite Gv in I by auto. unfold bad in I. rewrite Q1, Q2, Q3 in I. cbn in I. rewrite andb_false_r in I. discriminate.
    + destruct (rollaxis_cols v' z ax) as (w1 & Ew1 & Cw); [unfold ndim in *; rewrite Sv, Sv0; auto|]. rewrite Ew1. cbn [bind].
      rewrite Sv, Sv0 in Cw. fold n in Cw.
      destruct (tail_cols (summer skipna) (meaner skipna) a1 b1 (Some w1) _ _ _ _ _ Ca Cb (fun u (Q : Some w1 = Some u) => match Q in _ = o return match o with Some u => cols u _ _ _ | None => True end with eq_refl => Cw end)) as (out & Eo & So & Go).
      exists out. split; [exact Eo|]. split; [auto|]. intros i x y wt Hi Sm Gd. rewrite Go by auto.
      apply (kw_value skipna n (fun k => negb (isnan (get a (ins ax k i)) || isnan (get b (ins ax k i)) || isnan (get v (ins ax k i))))); auto.
      intros k Hk. pose proof (inb_ins ax (shp a) i k Hax Hk Hi) as Hin. destruct (Gab _ Hin) as [Ga Gb]. rewrite Ga, Gb, Gv by auto. unfold bad. cbn [wcol] in Sm.
      destruct (Sm k Hk) as [(Q1 & Q2 & Q3)|(-> & Q & Q3)].
      * rewrite Q1, Q2, Q3. cbn. rewrite andb_false_r. auto.
      * cbn [andb]. destruct Q as [Q|[Q|Q]]; rewrite Q.
        -- cbn. auto.
        -- change (isnan NaN) with true. rewrite !orb_true_r. cbn. auto.
        -- change (isnan NaN) with true. rewrite !orb_true_r. cbn. split; [auto|]. split; [|auto]. destruct (_ || _); reflexivity.
  - destruct w' as [v'|]; [contradiction|]. cbn [check_weights].
    destruct (tail_cols (summer skipna) (meaner skipna) a1 b1 None _ _ _ _ (fun _ _ => NaN) Ca Cb ltac:(discriminate)) as (out & Eo & So & Go).
    exists out. split; [exact Eo|]. split; [auto|]. intros i x y wt Hi Sm Gd. rewrite Go by auto.
    apply (kn_value skipna n (fun k => negb (isnan (get a (ins ax k i)) || isnan (get b (ins ax k i))))); auto.
    intros k Hk. pose proof (inb_ins ax (shp a) i k Hax Hk Hi) as Hin. destruct (Gab _ Hin) as [Ga Gb]. rewrite Ga, Gb by auto. unfold bad. cbn [wcol] in Sm.
    destruct (Sm k Hk) as [(Q1 & Q2 & Q3)|(-> & Q & Q3)].
    + rewrite Q1, Q2. cbn. rewrite andb_false_r. inversion Q3. auto.
    + cbn [andb]. destruct Q as [Q|[Q|Q]]; [rewrite Q; cbn; auto|rewrite Q; change (isnan NaN) with true; rewrite !orb_true_r; cbn; auto|discriminate].
Qed.
