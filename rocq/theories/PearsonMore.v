(** Correlation: theorems about pearson_r. *)
From Coq Require Import Reals List Bool Arith ZArith Lra Lia String.
From Verif Require Import PyBase Num NumFacts PyFacts ListFacts Arr ArrFacts CellFacts Hybrid HybridFacts SpecSum SumFacts SpecStats Pearson PearsonFacts PearsonApi SphApi SphMore.
Import ListNotations.
Local Open Scope R_scope.

Lemma wcov_cs n w x y : good_weights n w -> wcov n w x x = 0 \/ wcov n w y y = 0 -> wcov n w x y = 0.
Proof. intros G H.
  pose proof (cauchy_schwarz n w (fun k => x k - wmean n w x) (fun k => y k - wmean n w y) (gw_nonneg _ _ G)) as C2. cbn beta in C2.
  change (wcov n w x y * wcov n w x y <= wcov n w x x * wcov n w y y) in C2. assert (Z : wcov n w x x * wcov n w y y = 0) by (destruct H as [-> | ->]; ring). nra.
Qed.
Lemma corr_flat n w x y : good_weights n w -> wcov n w x x = 0 \/ wcov n w y y = 0 ->
  nclip (ofZ (-1)) (ofZ 1) (ndiv (Fin (wcov n w x y)) (nsqrt (nmul (Fin (wcov n w x x)) (Fin (wcov n w y y))))) = NaN.
Proof.
  intros G H. rewrite (wcov_cs n w x y G H). change (@nmul fl NumFl) with fl_mul. cbn [fl_mul].
  replace (wcov n w x x * wcov n w y y) with 0 by (destruct H as [-> | ->]; ring).
  change (@nsqrt fl NumFl) with fl_sqrt. rewrite fsqrt_fin, sqrt_0 by lra. change (@ndiv fl NumFl) with fl_div. cbn [fl_div].
  destruct (Req_EM_T 0 0); [|contradiction]. destruct (Rlt_dec 0 0); [lra|]. try (destruct (Rlt_dec 0 0); [lra|]). try (destruct (total_order_T 0 0) as [[?|?]|?]; [lra| |lra]). reflexivity.
Qed.

(** missing values without skipna *)
Lemma clip_nan : nclip (ofZ (-1)) (ofZ 1) NaN = NaN. Proof. reflexivity. Qed.
Lemma div_nan_l (x : fl) : ndiv NaN x = NaN. Proof. destruct x; reflexivity. Qed.
Lemma sub_nan_l (x : fl) : nsub NaN x = NaN. Proof. destruct x; reflexivity. Qed.
Lemma sub_nan_r (x : fl) : nsub x NaN = NaN. Proof. destruct x; reflexivity. Qed.
Lemma mul_nan_l (x : fl) : nmul NaN x = NaN. Proof. destruct x; reflexivity. Qed.
Lemma mul_nan_r (x : fl) : nmul x NaN = NaN. Proof. destruct x; reflexivity. Qed.
Lemma nsum_hit n (f : nat -> fl) k : (k < n)%nat -> f k = NaN -> nsum (map f (seq 0 n)) = NaN.
Proof. intros Hk E. apply nsum_nan. rewrite <- E. apply in_map. apply in_seq. lia. Qed.
Lemma kn_nan n (A B : nat -> fl) k : (k < n)%nat -> A k = NaN \/ B k = NaN -> kn nsum nmean n A B = NaN.
Proof.
  intros Hk H. unfold kn. cbv zeta. rewrite (nsum_hit n (fun k => nmul (nsub (A k) _) (nsub (B k) _)) k Hk).
  - rewrite div_nan_l. apply clip_nan.
  - destruct H as [-> | ->]; [rewrite sub_nan_l; apply mul_nan_l|rewrite sub_nan_l; apply mul_nan_r].
Qed.
Lemma kw_nan n (A B W : nat -> fl) k : (k < n)%nat -> A k = NaN \/ B k = NaN \/ W k = NaN -> kw nsum n A B W = NaN.
Proof.
  intros Hk H. unfold kw. cbv zeta. rewrite (nsum_hit n (fun k => nmul (nmul (W k) (nsub (A k) _)) (nsub (B k) _)) k Hk).
  - rewrite div_nan_l. apply clip_nan.
  - destruct H as [-> |[-> | ->]]; rewrite ?sub_nan_l, ?mul_nan_l, ?mul_nan_r, ?mul_nan_l; reflexivity.
Qed.

Section Api.
  Variables (X D : Type) (xs : pin (T := fl) -> pin (T := fl) -> option D -> option (pin (T := fl)) -> bool -> bool -> res X).
  Notation call := (pearson_r X D xs).
  Notation RN := (RNp (T := fl) X).
  Definition given {A} (o : option A) : bool := match o with Some _ => true | None => false end.

  (** *** the value along an axis *)
  Lemma pearson_axis (a b : arr fl) (w : option (arr fl)) (z : Z) (ax : nat) dim skipna keep :
    shp b = shp a -> (forall v, w = Some v -> shp v = shp a) -> pyidx (ndim a) z = Some ax ->
    exists out, snd (call (PNd a) (PNd b) dim (option_map PNd w) skipna keep (Some z)) = Ok (RN out) /\ shp out = del ax (shp a) /\
      forall i x y wt, inb (del ax (shp a)) i ->
        sample skipna (nth ax (shp a) 0%nat) (fun k => get a (ins ax k i)) (fun k => get b (ins ax k i))
               (fun k => match w with Some v => get v (ins ax k i) | None => Fin 1 end) x y wt ->
        good_weights (nth ax (shp a) 0%nat) wt ->
        let n := nth ax (shp a) 0%nat in
        (0 < wcov n wt x x -> 0 < wcov n wt y y -> get out i = Fin (wcorr n wt x y)) /\
        (wcov n wt x x = 0 \/ wcov n wt y y = 0 -> get out i = NaN).
  Proof.
    intros Hb Hw Hz. destruct (kernel_value a b w z ax skipna Hb Hw Hz) as (out & E & S & G). exists out. split.
    - unfold pearson_r. cbn [snd is_da negb andb nd_only bind].
      replace (match option_map PNd w with Some w0 => rmap Some (nd_only w0) | None => Ok None end) with (Ok w : res (option (arr fl))) by (destruct w; reflexivity).
      cbn [bind]. rewrite E. reflexivity.
    - split; auto. intros i x y wt Hi Sm Gd. rewrite (G i x y wt Hi Sm Gd). split.
      + intros. apply corr_end; auto.
      + intros. apply corr_flat; auto.
  Qed.

  (** *** a missing value without skipna *)
  Lemma pearson_nan (a b : arr fl) (w : option (arr fl)) (z : Z) (ax : nat) dim keep :
    shp b = shp a -> (forall v, w = Some v -> shp v = shp a) -> pyidx (ndim a) z = Some ax ->
    exists out, snd (call (PNd a) (PNd b) dim (option_map PNd w) false keep (Some z)) = Ok (RN out) /\
      forall i k, inb (del ax (shp a)) i -> (k < nth ax (shp a) 0%nat)%nat ->
        get a (ins ax k i) = NaN \/ get b (ins ax k i) = NaN -> get out i = NaN.
  Proof.
    intros Hb Hw Hz. unfold pearson_r. cbn [snd is_da negb andb nd_only bind].
    replace (match option_map PNd w with Some w0 => rmap Some (nd_only w0) | None => Ok None end) with (Ok w : res (option (arr fl))) by (destruct w; reflexivity).
    cbn [bind]. unfold pearson_kernel. cbn [bind].
    destruct (rollaxis_cols a z ax Hz) as (a1 & Ea & Ca). destruct (rollaxis_cols b z ax) as (b1 & Eb & Cb); [unfold ndim in *; rewrite Hb; auto|].
    rewrite Ea, Eb. cbn [bind]. rewrite Hb in Cb.
    destruct (check_weights w) as [v|] eqn:Cw.
    - assert (Wv : w = Some v) by (unfold check_weights in Cw; destruct w as [u|]; [destruct (forallb _ _); inversion Cw; auto|discriminate]).
      destruct (rollaxis_cols v z ax) as (v1 & Ev & Cv); [unfold ndim in *; rewrite (Hw v Wv); auto|]. rewrite Ev. cbn [bind]. rewrite (Hw v Wv) in Cv.
      destruct (tail_cols nsum nmean a1 b1 (Some v1) _ _ _ _ _ Ca Cb (fun u (Q : Some v1 = Some u) => match Q in _ = o return match o with Some u => cols u _ _ _ | None => True end with eq_refl => Cv end)) as (out & Eo & So & Go).
      exists out. split; [rewrite Eo; reflexivity|]. intros i k Hi Hk H. rewrite Go by auto. apply (kw_nan _ _ _ _ k Hk). tauto.
    - destruct (tail_cols nsum nmean a1 b1 None _ _ _ _ (fun _ _ => NaN) Ca Cb ltac:(discriminate)) as (out & Eo & So & Go).
      exists out. split; [rewrite Eo; reflexivity|]. intros i k Hi Hk H. rewrite Go by auto. apply (kn_nan _ _ _ k Hk). auto.
  Qed.

  (** *** without an axis *)
  Definition values (p : pin (T := fl)) : option (list fl) :=
    match p with PNd a | PList a => Some (ravel a) | PDa d => Some (ravel (dat d)) | PDs => None end.
  Lemma ravel_values p l : values p = Some l -> np_ravel p = Ok (vec nnan l).
  Proof. destruct p; cbn; intros H; inversion H; auto. Qed.
  Lemma pearson_flatten a b w la lb lw dim skipna keep :
    is_da a = false -> is_da b = false -> values a = Some la -> values b = Some lb ->
    match w, lw with Some p, Some l => values p = Some l | None, None => True | _, _ => False end ->
    snd (call a b dim w skipna keep None) =
    snd (call (PNd (vec nnan la)) (PNd (vec nnan lb)) dim (option_map (fun l => PNd (vec nnan l)) lw) skipna keep (Some 0%Z)).
  Proof.
    intros Ha Hb Va Vb Hw. unfold pearson_r. rewrite Ha, Hb. cbn [snd is_da negb andb]. rewrite (ravel_values _ _ Va), (ravel_values _ _ Vb). cbn [bind nd_only].
    destruct w as [p|], lw as [l|]; try contradiction; cbn [option_map bind rmap nd_only]; [rewrite (ravel_values _ _ Hw)|]; reflexivity.
  Qed.
  Lemma pearson_all (a b : pin) w la lb lw dim skipna keep :
    is_da a = false -> is_da b = false -> values a = Some la -> values b = Some lb ->
    match w, lw with Some p, Some l => values p = Some l /\ List.length l = List.length la | None, None => True | _, _ => False end ->
    List.length lb = List.length la ->
    exists out, snd (call a b dim w skipna keep None) = Ok (RN out) /\ shp out = [] /\
      forall x y wt,
        sample skipna (List.length la) (fun k => nth k la NaN) (fun k => nth k lb NaN)
               (fun k => match lw with Some l => nth k l NaN | None => Fin 1 end) x y wt ->
        good_weights (List.length la) wt ->
        let n := List.length la in
        (0 < wcov n wt x x -> 0 < wcov n wt y y -> get out [] = Fin (wcorr n wt x y)) /\
        (wcov n wt x x = 0 \/ wcov n wt y y = 0 -> get out [] = NaN).
  Proof.
    intros Ha Hb Va Vb Hw Hl. rewrite (pearson_flatten a b w la lb lw) by (auto; destruct w, lw; tauto).
    assert (Hs : forall v, option_map (fun l => vec (@nnan fl NumFl) l) lw = Some v -> shp v = shp (vec (@nnan fl NumFl) la)).
    { intros v Q. destruct lw as [l|]; inversion Q. cbn. destruct w; [|contradiction]. destruct Hw as [_ ->]. reflexivity. }
    destruct (pearson_axis (vec nnan la) (vec nnan lb) (option_map (fun l => vec nnan l) lw) 0 0 dim skipna keep) as (out & E & S & G); auto; [cbn; congruence|].
    exists out. split.
    { rewrite <- E. destruct lw; reflexivity. }
    split; [auto|]. intros x y wt Sm Gd. apply (G [] x y wt); auto; [apply inb_nil|].
    intros k Hk. specialize (Sm k Hk). destruct lw; exact Sm.
  Qed.
  Lemma pearson_sizes_differ (a b : pin) la lb dim skipna keep :
    is_da a = false -> is_da b = false -> values a = Some la -> values b = Some lb ->
    skipna = false \/ (~ In NaN la /\ ~ In NaN lb) ->
    List.length la <> List.length lb -> List.length la <> 1%nat -> List.length lb <> 1%nat ->
    snd (call a b dim None skipna keep None) = Ok (RNone X).
  Proof.
    intros Ha Hb Va Vb Hs Hl H1 H2. rewrite (pearson_flatten a b None la lb None) by auto.
    unfold pearson_r. cbn [snd is_da negb andb nd_only bind option_map].
    assert (NN : forall l, ~ In NaN l -> any_nan (vec nnan l) = false).
    { intros l Q. unfold any_nan. rewrite ravel_vec. destruct (existsb isnan l) eqn:E; auto. apply existsb_exists in E. destruct E as (z & Hz & Ez). destruct z; try discriminate. contradiction. }
    assert (EM : (if skipna then match_nans (vec nnan la) (vec nnan lb) None else Ok (vec nnan la, vec nnan lb, None)) = Ok (vec nnan la, vec nnan lb, None) :> res (arr fl * arr fl * option (arr fl))).
    { destruct skipna; auto. destruct Hs as [|[Q1 Q2]]; [discriminate|]. unfold match_nans. rewrite (NN la Q1), (NN lb Q2). reflexivity. }
    unfold pearson_kernel. rewrite EM. cbn [bind check_weights].
    set (meanf := if skipna then nanmean else nmean). set (sumf := if skipna then nansum else nsum).
    destruct (rollaxis_cols (vec (@nnan fl NumFl) la) 0 0 eq_refl) as (a1 & Ea & Ca). destruct (rollaxis_cols (vec (@nnan fl NumFl) lb) 0 0 eq_refl) as (b1 & Eb & Cb).
    rewrite Ea, Eb. cbn [bind].
    destruct (colrow_map2 nsub _ _ _ _ _ _ Ca (cols_red meanf _ _ _ _ Ca)) as (am & Eam & [Sam _]). rewrite Eam. cbn [bind].
    destruct (colrow_map2 nsub _ _ _ _ _ _ Cb (cols_red meanf _ _ _ _ Cb)) as (bm & Ebm & [Sbm _]). rewrite Ebm. cbn [bind].
    assert (B : bshape (shp am) (shp bm) = None).
    { rewrite Sam, Sbm. cbn [shp vec nth]. change (del 0 [List.length la]) with (@nil nat). change (del 0 [List.length lb]) with (@nil nat).
      unfold bshape. cbn [rev app bshape_rev]. unfold bdim. rewrite (proj2 (Nat.eqb_neq _ _) Hl), (proj2 (Nat.eqb_neq _ _) H1), (proj2 (Nat.eqb_neq _ _) H2). reflexivity. }
    unfold np_map2 at 1. rewrite B. reflexivity.
  Qed.

  (** *** dispatch *)
  Lemma pearson_warns a b dim w skipna keep axis : fst (call a b dim w skipna keep axis) = true <-> dim <> None /\ axis <> None.
  Proof. unfold pearson_r. cbn [fst]. destruct dim, axis; split; intros H; try discriminate; try (destruct H; congruence); auto; split; discriminate. Qed.
  Lemma pearson_labelled a b dim w skipna keep axis : is_da a = true \/ is_da b = true ->
    snd (call a b dim w skipna keep axis) =
    match xs a b dim w skipna keep with Ok x => Ok (RXr X x) | Err ValueError => Ok (RNone X) | Err e => Err e end.
  Proof.
    intros H. unfold pearson_r. cbn [snd]. replace (negb (is_da a) && negb (is_da b)) with false by (destruct (is_da a), (is_da b); destruct H; try discriminate; reflexivity).
    destruct (xs a b dim w skipna keep) as [x|e]; [reflexivity|]. destruct e; reflexivity.
  Qed.
  Lemma pearson_datasets b dim w skipna keep axis : is_da b = false ->
    snd (call PDs b dim w skipna keep axis) = Err (match axis with None => TypeError | Some _ => AttributeError end).
  Proof. intros H. unfold pearson_r. rewrite H. cbn [snd is_da negb andb]. destruct axis; reflexivity. Qed.
  Lemma pearson_list_axis a b dim w skipna keep z : is_da b = false -> snd (call (PList a) b dim w skipna keep (Some z)) = Err AttributeError.
  Proof. intros H. unfold pearson_r. rewrite H. reflexivity. Qed.
  Lemma pearson_never_valueerror a b dim w skipna keep axis : snd (call a b dim w skipna keep axis) <> Err ValueError.
  Proof.
    assert (S : forall r, swallow X (T := fl) r <> Err ValueError) by (intros [x|e]; [discriminate|destruct e; discriminate]).
    unfold pearson_r. cbn [snd]. destruct (negb (is_da a) && negb (is_da b)); [|apply S]. destruct axis; [apply S|].
    destruct a; cbn [np_ravel bind]; try discriminate; destruct b; cbn [np_ravel bind]; try discriminate;
      (destruct w as [p|]; [destruct p; cbn [np_ravel rmap bind]; try discriminate; apply S|cbn [bind]; apply S]).
  Qed.

  (** *** a weight vector along the reduced axis *)
  Lemma rollaxis_1 (v : arr fl) q z : shp v = [q] -> (z = 0 \/ z = -1)%Z -> exists v1, rollaxis v z = Ok v1 /\ shp v1 = [q].
  Proof. intros Hs H. unfold rollaxis, ndim. rewrite Hs. destruct H as [-> | ->]; cbn; eexists; split; reflexivity. Qed.
  Lemma pearson_weight_vector_none (a b v : arr fl) z ax q m r dim skipna keep :
    shp b = shp a -> pyidx (ndim a) z = Some ax -> shp v = [q] -> nth ax (shp a) 0%nat = q -> del ax (shp a) = r ++ [m] ->
    skipna = false \/ (forall i, inb (shp a) i -> get a i <> NaN /\ get b i <> NaN) ->
    m <> q -> m <> 1%nat -> q <> 1%nat -> (exists k, (k < q)%nat /\ get v [k] <> NaN) ->
    snd (call (PNd a) (PNd b) dim (Some (PNd v)) skipna keep (Some z)) = Ok (RNone X).
  Proof.
    intros Hb Hz Sv Hq Hd Hs Hm Hm1 Hq1 (kk & Hkk & Hvk). unfold pearson_r. cbn [snd is_da negb andb nd_only bind rmap].
    assert (EM : (if skipna then match_nans a b (Some v) else Ok (a, b, Some v)) = Ok (a, b, Some v)).
    { destruct skipna; auto. destruct Hs as [|Q]; [discriminate|]. unfold match_nans.
      assert (NN : forall c : arr fl, (forall i, inb (shp c) i -> get c i <> NaN) -> any_nan c = false).
      { intros c K. unfold any_nan. destruct (existsb isnan (ravel c)) eqn:E; auto. apply existsb_exists in E. destruct E as (y & Hy & Ey).
        unfold ravel in Hy. apply in_map_iff in Hy. destruct Hy as (i & <- & Hi). apply all_idx_inb in Hi. specialize (K i Hi). destruct (get c i); try discriminate. congruence. }
      rewrite (NN a), (NN b); [reflexivity| |]; intros i Hi; [rewrite Hb in Hi|]; apply Q; auto. }
    unfold pearson_kernel. rewrite EM. cbn [bind].
    assert (Cw : check_weights (Some v) = Some v).
    { cbn [check_weights]. destruct (forallb isnan (ravel v)) eqn:E; auto. exfalso. rewrite forallb_forall in E.
      assert (I : isnan (get v [kk]) = true) by (apply E; unfold ravel; apply in_map; apply all_idx_inb; rewrite Sv; apply inb_cons; split; [auto|apply inb_nil]).
      destruct (get v [kk]); try discriminate. congruence. }
    rewrite Cw.
    destruct (rollaxis_cols a z ax Hz) as (a1 & Ea & Ca). destruct (rollaxis_cols b z ax) as (b1 & Eb & Cb); [unfold ndim in *; rewrite Hb; auto|].
    rewrite Ea, Eb. cbn [bind]. destruct (rollaxis v z) as [v1|e] eqn:Ev.
    - cbn [bind]. assert (Sv1 : shp v1 = [q]).
      { unfold rollaxis, ndim in Ev. rewrite Sv in Ev. cbn [List.length] in Ev. destruct (pyidx 1 z) as [j|] eqn:Ej; [|discriminate]. pose proof (pyidx_bound _ _ _ Ej) as B.
        assert (j = 0%nat) by lia. subst j. cbn in Ev. inversion Ev. reflexivity. }
      destruct Ca as [Sa1 _]. unfold np_map2 at 1. rewrite Sa1, Sv1.
      assert (Bn : bshape (nth ax (shp a) 0%nat :: del ax (shp a)) [q] = None).
      { rewrite Hd. unfold bshape. change (nth ax (shp a) 0%nat :: r ++ [m]) with ((nth ax (shp a) 0%nat :: r) ++ [m]). rewrite rev_app_distr. cbn [rev app bshape_rev].
        unfold bdim. destruct (Nat.eqb_spec m q); [contradiction|]. destruct (Nat.eqb_spec m 1); [contradiction|]. destruct (Nat.eqb_spec q 1); [contradiction|]. reflexivity. }
      rewrite Bn. reflexivity.
    - cbn [bind]. unfold rollaxis in Ev. destruct (pyidx (ndim v) z); cbn in Ev; [discriminate|]. inversion Ev. reflexivity.
  Qed.
End Api.

(** ** the square case *)
Section Square.
  Lemma rowscalar_map2 (f : fl -> fl -> fl) a b n A B : row a [n] A -> row b [] B -> exists c, np_map2 f a b = Ok c /\ row c [n] (fun i => f (A i) (B [])).
  Proof.
    intros [Sa Ga] [Sb Gb]. unfold np_map2. rewrite Sa, Sb. cbn [bshape bshape_rev rev app option_map]. eexists. split; [reflexivity|]. split; [reflexivity|]. cbn [get].
    intros i Hi. rewrite bidx_refl by auto. rewrite Ga by auto. rewrite <- (Gb []) by apply inb_nil. f_equal. f_equal. unfold bidx. destruct (skipn _ i); reflexivity.
  Qed.
  Lemma bshape_rev_sym a b : bshape_rev a b = bshape_rev b a.
  Proof.
    revert b; induction a as [|x a IH]; intros [|y b]; cbn [bshape_rev]; auto. rewrite IH.
    assert (Q : bdim x y = bdim y x); [|rewrite Q; reflexivity]. unfold bdim.
    destruct (Nat.eqb_spec x y), (Nat.eqb_spec y x), (Nat.eqb_spec x 1), (Nat.eqb_spec y 1); subst; auto; congruence.
  Qed.
  Lemma rowcol_map2 (f : fl -> fl -> fl) a b n r A B : row a r A -> cols b n r B -> exists c, np_map2 f a b = Ok c /\ cols c n r (fun k i => f (A i) (B k i)).
  Proof.
    intros [Sa Ga] [Sb Gb]. unfold np_map2. rewrite Sa, Sb. unfold bshape. rewrite bshape_rev_sym. fold (bshape (n :: r) r). rewrite bshape_drop. eexists. split; [reflexivity|]. split; [reflexivity|]. cbn [get].
    intros k i Hk Hi. rewrite bidx_drop by auto. rewrite bidx_refl by (apply inb_cons; auto). rewrite Ga, Gb by auto. reflexivity.
  Qed.
  Variables (n : nat) (F G : nat -> nat -> R) (w : nat -> R) (a b v : arr fl).
  Hypotheses (Hn : (0 < n)%nat) (Sa : shp a = [n; n]) (Sb : shp b = [n; n]) (Sv : shp v = [n])
    (Ga : forall k j, (k < n)%nat -> (j < n)%nat -> get a [k; j] = Fin (F k j)) (Gb : forall k j, (k < n)%nat -> (j < n)%nat -> get b [k; j] = Fin (G k j))
    (Gv : forall k, (k < n)%nat -> get v [k] = Fin (w k)) (Wt : bigsum n w <> 0).
  (** what is subtracted in column j: the sum of the column scaled by the j-th weight *)
  Definition off (H : nat -> nat -> R) j := w j * bigsum n (fun k => H k j) / bigsum n w.
  Definition prod (H K : nat -> nat -> R) j := bigsum n (fun k => w j * (H k j - off H j) * (K k j - off K j)).
  Lemma square_kernel : exists out, pearson_kernel a b (Some v) 0 false = Ok out /\ shp out = [n] /\
    forall j, (j < n)%nat -> get out [j] = nclip (ofZ (-1)) (ofZ 1) (ndiv (Fin (prod F G j)) (nsqrt (Fin (prod F F j * prod G G j)))).
  Proof.
    unfold pearson_kernel. cbn [bind].
    assert (Cw : check_weights (Some v) = Some v).
    { cbn [check_weights]. destruct (forallb isnan (ravel v)) eqn:E; auto. exfalso. rewrite forallb_forall in E.
      assert (I : isnan (get v [0%nat]) = true) by (apply E; unfold ravel; apply in_map; apply all_idx_inb; rewrite Sv; apply inb_cons; split; [auto|apply inb_nil]).
      rewrite Gv in I by auto. discriminate. }
    rewrite Cw.
    assert (Ca : exists a1, rollaxis a 0 = Ok a1 /\ cols a1 n [n] (fun k i => Fin (F k (hd 0%nat i)))).
    { destruct (rollaxis_cols a 0 0) as (a1 & E & C1 & C2); [unfold ndim; rewrite Sa; reflexivity|]. exists a1. split; auto. rewrite Sa in C1, C2. cbn in C1. split; auto.
      intros k i Hk Hi. rewrite C2 by auto. destruct i as [|j [|]]; inversion Hi as [|? ? ? ? Hj Hr]; subst; try (inversion Hr; fail). cbn [ins firstn skipn app hd]. apply Ga; auto. }
    assert (Cb : exists a1, rollaxis b 0 = Ok a1 /\ cols a1 n [n] (fun k i => Fin (G k (hd 0%nat i)))).
    { destruct (rollaxis_cols b 0 0) as (a1 & E & C1 & C2); [unfold ndim; rewrite Sb; reflexivity|]. exists a1. split; auto. rewrite Sb in C1, C2. cbn in C1. split; auto.
      intros k i Hk Hi. rewrite C2 by auto. destruct i as [|j [|]]; inversion Hi as [|? ? ? ? Hj Hr]; subst; try (inversion Hr; fail). cbn [ins firstn skipn app hd]. apply Gb; auto. }
    assert (Cv : exists a1, rollaxis v 0 = Ok a1 /\ row a1 [n] (fun i => Fin (w (hd 0%nat i))) /\ cols a1 n [] (fun k _ => Fin (w k))).
    { destruct (rollaxis_cols v 0 0) as (a1 & E & C1 & C2); [unfold ndim; rewrite Sv; reflexivity|]. exists a1. split; auto. rewrite Sv in C1, C2. cbn in C1. split; split; auto.
      - intros i Hi. destruct i as [|j [|]]; inversion Hi as [|? ? ? ? Hj Hr]; subst; try (inversion Hr; fail). rewrite C2; [apply Gv; auto|auto|apply inb_nil].
      - intros k i Hk Hi. rewrite C2 by auto. inversion Hi; subst. apply Gv; auto. }
    clear Cw. destruct Ca as (a1 & Ea & Ca), Cb as (b1 & Eb & Cb), Cv as (v1 & Ev & Rv & Cv). rewrite Ea, Eb, Ev. cbn [bind].
    destruct (colrow_map2 nmul _ _ _ _ _ _ Ca Rv) as (aw & Eaw & Caw). rewrite Eaw. cbn [bind].
    destruct (rowscalar_map2 ndiv _ _ _ _ _ (cols_red nsum _ _ _ _ Caw) (cols_red nsum _ _ _ _ Cv)) as (ma & Ema & Rma). rewrite Ema. cbn [bind].
    destruct (colrow_map2 nmul _ _ _ _ _ _ Cb Rv) as (bw & Ebw & Cbw). rewrite Ebw. cbn [bind].
    destruct (rowscalar_map2 ndiv _ _ _ _ _ (cols_red nsum _ _ _ _ Cbw) (cols_red nsum _ _ _ _ Cv)) as (mb & Emb & Rmb). rewrite Emb. cbn [bind].
    destruct (colrow_map2 nsub _ _ _ _ _ _ Ca Rma) as (am & Eam & Cam). rewrite Eam. cbn [bind].
    destruct (colrow_map2 nsub _ _ _ _ _ _ Cb Rmb) as (bm & Ebm & Cbm). rewrite Ebm. cbn [bind].
    destruct (rowcol_map2 nmul _ _ _ _ _ _ Rv Cam) as (wa & Ewa & Cwa). rewrite Ewa. cbn [bind].
    destruct (rowcol_map2 nmul _ _ _ _ _ _ Rv Cbm) as (wb & Ewb & Cwb). rewrite Ewb. cbn [bind].
    destruct (cols_map2 nmul _ _ _ _ _ _ Cwa Cbm) as (p & Ep & Cp). rewrite Ep. cbn [bind].
    destruct (cols_map2 nmul _ _ _ _ _ _ Cwa Cam) as (qa & Eqa & Cqa). rewrite Eqa. cbn [bind].
    destruct (cols_map2 nmul _ _ _ _ _ _ Cwb Cbm) as (qb & Eqb & Cqb). rewrite Eqb. cbn [bind].
    destruct (row_map2 nmul _ _ _ _ _ (cols_red nsum _ _ _ _ Cqa) (cols_red nsum _ _ _ _ Cqb)) as (q & Eq & Rq). rewrite Eq. cbn [bind].
    destruct (row_map2 ndiv _ _ _ _ _ (cols_red nsum _ _ _ _ Cp) (row_amap nsqrt _ _ _ Rq)) as (z & Ez & Rz). rewrite Ez. cbn [bind].
    eexists. split; [reflexivity|]. destruct (row_amap (nclip (ofZ (-1)) (ofZ 1)) _ _ _ Rz) as [So Go]. split; [exact So|].
    intros j Hj. assert (Hi : inb [n] [j]) by (apply inb_cons; split; [auto|apply inb_nil]). rewrite (Go [j] Hi). cbn [hd].
    rewrite !(nsum_opt n w (fun k => Fin (w k))) by auto.
    rewrite (nsum_opt n (fun k => F k j * w j) (fun k => nmul (Fin (F k j)) (Fin (w j)))) by reflexivity.
    rewrite (nsum_opt n (fun k => G k j * w j) (fun k => nmul (Fin (G k j)) (Fin (w j)))) by reflexivity.
    change (@ndiv fl NumFl (Fin (bigsum n (fun k => F k j * w j))) (Fin (bigsum n w))) with (fl_div (Fin (bigsum n (fun k => F k j * w j))) (Fin (bigsum n w))).
    change (@ndiv fl NumFl (Fin (bigsum n (fun k => G k j * w j))) (Fin (bigsum n w))) with (fl_div (Fin (bigsum n (fun k => G k j * w j))) (Fin (bigsum n w))).
    rewrite !fdiv_fin by auto. rewrite !bigsum_scal_r.
    assert (O : forall H, bigsum n (fun k => H k j) * w j / bigsum n w = off H j) by (intros; unfold off; field; auto). rewrite !O.
    rewrite (nsum_opt n (fun k => w j * (F k j - off F j) * (G k j - off G j)) (fun k => nmul (nmul (Fin (w j)) (nsub (Fin (F k j)) (Fin (off F j)))) (nsub (Fin (G k j)) (Fin (off G j))))) by reflexivity.
    rewrite (nsum_opt n (fun k => w j * (F k j - off F j) * (F k j - off F j)) (fun k => nmul (nmul (Fin (w j)) (nsub (Fin (F k j)) (Fin (off F j)))) (nsub (Fin (F k j)) (Fin (off F j))))) by reflexivity.
    rewrite (nsum_opt n (fun k => w j * (G k j - off G j) * (G k j - off G j)) (fun k => nmul (nmul (Fin (w j)) (nsub (Fin (G k j)) (Fin (off G j)))) (nsub (Fin (G k j)) (Fin (off G j))))) by reflexivity.
    reflexivity.
  Qed.
End Square.

(** silently not the weighted correlation of the column *)
Definition sq_a : arr fl := mkArr [2%nat; 2%nat] (fun i => Fin (match i with [0%nat; 0%nat] => 0 | [1%nat; 0%nat] => 1 | [0%nat; 1%nat] => 0 | _ => 1 end)).
Definition sq_b : arr fl := mkArr [2%nat; 2%nat] (fun i => Fin (match i with [0%nat; _] => 1 | _ => 2 end)).
Definition sq_w : arr fl := mkArr [2%nat] (fun i => Fin (match i with [0%nat] => 1 | _ => 3 end)).

Lemma square_refuted : exists (a b v : arr fl) (x y wt : nat -> R) out,
  shp a = [2; 2]%nat /\ shp b = [2; 2]%nat /\ shp v = [2%nat] /\
  (forall k, (k < 2)%nat -> get a [k; 0%nat] = Fin (x k) /\ get b [k; 0%nat] = Fin (y k) /\ get v [k] = Fin (wt k)) /\
  good_weights 2 wt /\ wcorr 2 wt x y = 1 /\
  pearson_kernel a b (Some v) 0 false = Ok out /\ get out [0%nat] <> Fin 1.
Proof.
  set (F := fun k j : nat => match k with O => 0 | _ => 1 end). set (G := fun k j : nat => match k with O => 1 | _ => 2 end). set (w := fun k : nat => match k with O => 1 | _ => 3 end).
  assert (Wt : bigsum 2 w <> 0) by (cbn; lra).
  destruct (square_kernel 2 F G w sq_a sq_b sq_w ltac:(lia) eq_refl eq_refl eq_refl) as (out & E & S & V); auto.
  - intros k j Hk Hj. destruct k as [|[|]]; [| |lia]; destruct j as [|[|]]; try lia; reflexivity.
  - exists sq_a, sq_b, sq_w, (fun k => F k 0%nat), (fun k => G k 0%nat), w, out. split; [reflexivity|]. split; [reflexivity|]. split; [reflexivity|].
    assert (Gd : good_weights 2 w) by (split; [intros k Hk; unfold w; destruct k; lra|cbn; lra]).
    split; [intros k Hk; destruct k as [|[|]]; [| |lia]; repeat split; reflexivity|]. split; auto. split.
    + assert (Cv : 0 < wcov 2 w (fun k => F k 0%nat) (fun k => F k 0%nat)) by (unfold wcov, wmean; cbn; lra).
      rewrite <- (wcorr_self 2 w (fun k => F k 0%nat) Cv). rewrite wcorr_sym.
      rewrite <- (wcorr_affine 2 w (fun k => F k 0%nat) (fun k => F k 0%nat) 1 1 Gd ltac:(lra) Cv Cv). unfold wcorr.
      rewrite !(wcov_ext 2 w w (fun k => G k 0%nat) (fun k => 1 + 1 * F k 0%nat) (fun k => F k 0%nat) (fun k => F k 0%nat)) by (intros [|[|]] Hk; try lia; cbn; repeat split; lra).
      rewrite (wcov_ext 2 w w (fun k => G k 0%nat) (fun k => 1 + 1 * F k 0%nat) (fun k => G k 0%nat) (fun k => 1 + 1 * F k 0%nat)) by (intros [|[|]] Hk; try lia; cbn; repeat split; lra).
      reflexivity.
    + split; [exact E|]. rewrite V by lia.
      assert (P1 : prod 2 w F G 0 = 7/8) by (unfold prod, off; cbn; lra). assert (P2 : prod 2 w F F 0 = 5/8) by (unfold prod, off; cbn; lra). assert (P3 : prod 2 w G G 0 = 13/8) by (unfold prod, off; cbn; lra).
      rewrite P1, P2, P3. change (@nsqrt fl NumFl) with fl_sqrt. rewrite fsqrt_fin by lra.
      assert (Q : 0 < sqrt (5/8 * (13/8))) by (apply sqrt_lt_R0; lra). change (@ndiv fl NumFl) with fl_div. rewrite fdiv_fin by lra.
      pose proof (sqrt_sqrt (5/8 * (13/8)) ltac:(lra)) as QQ. assert (7/8 < sqrt (5/8 * (13/8))) by nra.
      assert (B : 0 < 7/8 / sqrt (5/8 * (13/8)) < 1).
      { split; [apply Rdiv_lt_0_compat; lra|]. apply (Rmult_lt_reg_r (sqrt (5/8 * (13/8)))); auto. unfold Rdiv. rewrite Rmult_assoc, Rinv_l by lra. lra. }
      rewrite clip_fin by lra. intros Z. inversion Z. lra.
Qed.
Lemma pearson_square_refuted (X D : Type) xs (dim : option D) keep : exists (a b v : arr fl) (x y wt : nat -> R) out,
  shp a = [2; 2]%nat /\ shp b = [2; 2]%nat /\ shp v = [2%nat] /\
  (forall k, (k < 2)%nat -> get a [k; 0%nat] = Fin (x k) /\ get b [k; 0%nat] = Fin (y k) /\ get v [k] = Fin (wt k)) /\
  good_weights 2 wt /\ wcorr 2 wt x y = 1 /\
  snd (pearson_r X D xs (PNd a) (PNd b) dim (Some (PNd v)) false keep (Some 0%Z)) = Ok (RNp X out) /\ get out [0%nat] <> Fin 1.
Proof.
  destruct square_refuted as (a & b & v & x & y & wt & out & H1 & H2 & H3 & H4 & H5 & H6 & H7 & H8).
  exists a, b, v, x, y, wt, out. split; [exact H1|]. split; [exact H2|]. split; [exact H3|]. split; [exact H4|]. split; [exact H5|]. split; [exact H6|]. split; [|exact H8].
  unfold pearson_r. cbn [snd is_da negb andb nd_only bind rmap]. rewrite H7. reflexivity.
Qed.

(** the dispatch test tells DataArrays from everything else *)
Lemma da_iff (p : pin (T := fl)) : is_da p = true <-> exists d, p = PDa d.
Proof. destruct p; cbn; split; try discriminate; eauto; intros [d H]; discriminate. Qed.
Lemma not_da (p : pin (T := fl)) : (forall d, p <> PDa d) -> is_da p = false.
Proof. intros H. destruct (is_da p) eqn:E; [|reflexivity]. apply da_iff in E. destruct E as [d E]. destruct (H d E). Qed.
