(** Proofs about the spherical harmonics model: closed form of decomposition and recomposition. *)
From Coq Require Import Reals List Bool Arith ZArith Lia Lra String.
From Verif Require Import PyBase Num Arr NumFacts ArrFacts CellFacts Hybrid HybridFacts GradFacts Spherical SpecSum SumFacts SpecSph XrFacts PsiApi.
Import ListNotations.

(** ** positions *)
Lemma tri_S n : (S n * (S n + 1) / 2 = n * (n + 1) / 2 + S n)%nat.
Proof. replace (S n * (S n + 1))%nat with (n * (n + 1) + S n * 2)%nat by lia. rewrite Nat.div_add by lia. lia. Qed.
Lemma pos_S n m : pos (S n) m = (pos n 0 + S n + m)%nat.
Proof. unfold pos. rewrite tri_S. lia. Qed.
Lemma pos_m n m : pos n m = (pos n 0 + m)%nat. Proof. unfold pos. lia. Qed.
Lemma count_pos L : count L = pos (S L) 0.
Proof. unfold count, pos. rewrite Nat.add_0_r. f_equal. lia. Qed.
Lemma pos_mono n n' : (n <= n')%nat -> (pos n 0 <= pos n' 0)%nat.
Proof. intros H. induction H; auto. rewrite pos_S. lia. Qed.
Lemma pos_lt L n m : (m <= n <= L)%nat -> (pos n m < count L)%nat.
Proof. intros H. rewrite count_pos. assert (pos (S n) 0 <= pos (S L) 0)%nat by (apply pos_mono; lia). rewrite pos_S in H0. rewrite pos_m. lia. Qed.
Lemma pos_inj n m n' m' : (m <= n)%nat -> (m' <= n')%nat -> pos n m = pos n' m' -> n = n' /\ m = m'.
Proof.
  intros H H' E. rewrite (pos_m n m), (pos_m n' m') in E.
  destruct (lt_eq_lt_dec n n') as [[Hl| ->]|Hl].
  - assert (pos (S n) 0 <= pos n' 0)%nat by (apply pos_mono; lia). rewrite pos_S in H0. lia.
  - lia.
  - assert (pos (S n') 0 <= pos n 0)%nat by (apply pos_mono; lia). rewrite pos_S in H0. lia.
Qed.
Lemma pos_surj L k : (k < count L)%nat -> exists n m, (m <= n <= L)%nat /\ pos n m = k.
Proof.
  rewrite count_pos. induction L as [|L IH]; intros H.
  - exists 0%nat, 0%nat. unfold pos in *. cbn in *. lia.
  - destruct (lt_dec k (pos (S L) 0)) as [Hk|Hk].
    + destruct (IH Hk) as (n & m & Hnm & E). exists n, m. split; auto. lia.
    + exists (S L), (k - pos (S L) 0)%nat. rewrite pos_S in H. rewrite (pos_m (S L) (k - _)). lia.
Qed.

Lemma pairs_S L : harmonic_pairs (S L) = harmonic_pairs L ++ map (fun m => (S L, m)) (seq 0 (S L + 1)).
Proof.
  unfold harmonic_pairs. replace (S L + 1)%nat with (S (L + 1)) at 1 by lia. rewrite seq_S, flat_map_app. f_equal.
  cbn [flat_map]. rewrite app_nil_r. replace (0 + (L + 1))%nat with (S L) by lia. reflexivity.
Qed.
Lemma pairs_length L : List.length (harmonic_pairs L) = count L.
Proof.
  rewrite count_pos. induction L as [|L IH]; [reflexivity|]. rewrite pairs_S, app_length, IH, map_length, seq_length.
  rewrite (pos_S (S L)). lia.
Qed.
Lemma pairs_nth L n m d : (m <= n <= L)%nat -> nth (pos n m) (harmonic_pairs L) d = (n, m).
Proof.
  induction L as [|L IH]; intros H.
  - assert (n = 0 /\ m = 0)%nat as [-> ->] by lia. reflexivity.
  - rewrite pairs_S. destruct (Nat.eq_dec n (S L)) as [->|].
    + rewrite app_nth2; rewrite pairs_length, count_pos; [|rewrite (pos_m (S L)); lia].
      replace (pos (S L) m - pos (S L) 0)%nat with m by (rewrite (pos_m (S L)); lia).
      rewrite (nth_indep _ d (S L, 0%nat)) by (rewrite map_length, seq_length; lia).
      rewrite map_nth, seq_nth by lia. reflexivity.
    + rewrite app_nth1 by (rewrite pairs_length; apply pos_lt; lia). apply IH. lia.
Qed.

(** ** broadcasting shapes *)
Lemma bdim_1l b : bdim 1 b = Some b.
Proof. unfold bdim. destruct (Nat.eqb_spec 1 b); [subst|]; reflexivity. Qed.
Lemma bdim_1r b : bdim b 1 = Some b.
Proof. unfold bdim. destruct (Nat.eqb_spec b 1); [subst|]; reflexivity. Qed.
Lemma bshape_h3 H a b : bshape [H; 1; 1] [1; a; b] = Some [H; a; b].
Proof. unfold bshape. cbn [rev app bshape_rev]. rewrite !bdim_1l, !bdim_1r. reflexivity. Qed.
Lemma bshape_h2 H a b : bshape [H; 1; 1] [a; b] = Some [H; a; b].
Proof. unfold bshape. cbn [rev app bshape_rev]. rewrite !bdim_1l. reflexivity. Qed.
Lemma bshape_23 H a b : bshape [a; b] [H; a; b] = Some [H; a; b].
Proof. unfold bshape. cbn [rev app bshape_rev]. rewrite !bdim_refl. reflexivity. Qed.
Lemma idx1 n i : (i < n)%nat -> (if Nat.eqb n 1 then 0 else i)%nat = i.
Proof. destruct (Nat.eqb_spec n 1); lia. Qed.
Lemma bidx_h H h i j : (h < H)%nat -> bidx [H; 1; 1] [h; i; j] = [h; 0; 0]%nat.
Proof. intros E. unfold bidx. cbn. rewrite idx1; auto. Qed.
Lemma bidx_2 a b h i j : (i < a)%nat -> (j < b)%nat -> bidx [a; b] [h; i; j] = [i; j].
Proof. intros. unfold bidx. cbn. rewrite !idx1; auto. Qed.
Lemma bidx_3 H a b h i j : (h < H)%nat -> (i < a)%nat -> (j < b)%nat -> bidx [H; a; b] [h; i; j] = [h; i; j].
Proof. intros. unfold bidx. cbn. rewrite !idx1; auto. Qed.
Lemma bidx_1ab a b h i j : (i < a)%nat -> (j < b)%nat -> bidx [1; a; b] [h; i; j] = [0%nat; i; j].
Proof. intros. unfold bidx. cbn. rewrite !idx1; auto. Qed.

Section G.
  Context {T : Type} {N : Num T}.
  Variable Y : nat -> nat -> T -> T -> T * T.

  Lemma harmonics_2 L (p t : arr T) a b : shp p = [a; b] -> shp t = [a; b] ->
    exists h, harmonics Y L p t = Ok h /\ shp h = [count L; a; b] /\
      forall n m i j, (m <= n <= L)%nat -> (i < a)%nat -> (j < b)%nat ->
        get h [pos n m; i; j] = Y n m (get p [i; j]) (get t [i; j]).
  Proof.
    intros Hp Ht. unfold harmonics. unfold np_map2 at 1. rewrite Hp, Ht, bshape_refl. cbn [bind].
    unfold np_map2. cbn [shp expand12 vec]. rewrite pairs_length, bshape_h2. eexists. split; [reflexivity|]. split; [reflexivity|].
    intros n m i j Hnm Hi Hj. pose proof (pos_lt L n m Hnm) as Hk. cbn [get]. rewrite bidx_h by auto. rewrite bidx_2 by auto.
    cbn [hd vec get expand12]. rewrite !(pairs_nth L n m) by auto. cbn [fst snd].
    rewrite !bidx_refl by (apply inb2; auto). reflexivity.
  Qed.
  Lemma harmonics_3 L (p t : arr T) a b : shp p = [a; b] -> shp t = [a; b] ->
    exists h, harmonics Y L (expand0 p) (expand0 t) = Ok h /\ shp h = [count L; a; b] /\
      forall n m i j, (m <= n <= L)%nat -> (i < a)%nat -> (j < b)%nat ->
        get h [pos n m; i; j] = Y n m (get p [i; j]) (get t [i; j]).
  Proof.
    intros Hp Ht. unfold harmonics. unfold np_map2 at 1. cbn [shp expand0]. rewrite Hp, Ht, bshape_refl. cbn [bind].
    unfold np_map2. cbn [shp expand12 vec]. rewrite pairs_length, bshape_h3. eexists. split; [reflexivity|]. split; [reflexivity|].
    intros n m i j Hnm Hi Hj. pose proof (pos_lt L n m Hnm) as Hk. cbn [get]. rewrite bidx_h by auto. rewrite bidx_1ab by auto.
    cbn [hd vec get expand12]. rewrite !(pairs_nth L n m) by auto. cbn [fst snd].
    rewrite !bidx_refl by (constructor; [lia|]; apply inb2; auto). reflexivity.
  Qed.

  Definition zmult (m : nat) : Z := match m with O => 1%Z | S _ => 2%Z end.
  Lemma scale_res_ok L tot : shp (scale_res Y L tot) = [count L] /\
    forall n m, (m <= n <= L)%nat -> get (scale_res Y L tot) [pos n m] = cmul (creal (ofZ (zmult m))) (scale_val Y tot).
  Proof.
    unfold scale_res. cbn [shp get vec]. split; [unfold scale_mul; rewrite !map_length, pairs_length; reflexivity|].
    intros n m Hnm. pose proof (pos_lt L n m Hnm) as Hk. cbn [hd]. unfold scale_mul. rewrite map_map.
    set (g := fun _ => _). rewrite (nth_indep _ _ (g (0, 0)%nat)) by (rewrite map_length, pairs_length; auto).
    rewrite (map_nth g), pairs_nth by auto. unfold g. cbn [snd]. destruct m; reflexivity.
  Qed.

  (** entry (n, m) of decomposition, for any values (NaN included); [sum] is the plain sum for ndarrays and
      the NaN-skipping one for DataArrays *)
  Definition entry (sum : list (T * T) -> T * T) (tot : T) (d w th ph : arr T) a b n m : T * T :=
    cmul (sum (map (fun ij => cmul (creal (nmul (get d ij) (get w ij))) (Y n m (get ph ij) (get th ij))) (all_idx [a; b])))
         (cmul (creal (ofZ (zmult m))) (scale_val Y tot)).

  Lemma decomposition_np_ok old (d w : arr T) th ph L a b : shp d = [a; b] -> shp w = [a; b] ->
    vshape th = [a; b] -> vshape ph = [a; b] -> th <> VOther -> ph <> VOther ->
    exists r, decomposition Y old (VNd d) (VNd w) th ph L = Ok (ZNd r) /\ shp r = [count L] /\
      forall n m, (m <= n <= L)%nat -> get r [pos n m] = entry csum (nsum (ravel w)) d w (vvalues th) (vvalues ph) a b n m.
  Proof.
    intros Hd Hw Ht Hp Nt Np. unfold decomposition. unfold rank. cbn [vshape]. rewrite Hw. cbn [List.length Nat.ltb Nat.leb].
    unfold decomposition_np.
    assert (Et : shp (vvalues th) = [a; b]) by (destruct th; cbn in *; congruence).
    assert (Ep : shp (vvalues ph) = [a; b]) by (destruct ph; cbn in *; congruence).
    unfold np_map2 at 1. rewrite Hd, Hw, bshape_refl. cbn [bind].
    destruct (harmonics_3 L _ _ a b Ep Et) as (h & Eh & Sh & Gh). rewrite Eh. cbn [bind].
    unfold np_map2 at 1. cbn [shp amap]. rewrite Sh, bshape_23. cbn [bind].
    destruct (scale_res_ok L (nsum (ravel w))) as [Ss Gs].
    unfold np_map2, sum12. cbn [shp hd tl skipn]. rewrite Ss, bshape_refl. cbn [bind]. eexists. split; [reflexivity|]. split; [reflexivity|].
    intros n m Hnm. pose proof (pos_lt L n m Hnm) as Hk. cbn [get].
    rewrite !bidx_refl by (repeat constructor; auto). rewrite Gs by auto. unfold entry. f_equal. f_equal.
    cbn [hd shp tl get firstn]. apply map_ext_in. intros ij Hij. apply all_idx_inb in Hij.
    inversion Hij as [|i ? ij' ? Hi Hij']; subst. inversion Hij' as [|j ? ? ? Hj Hn]; subst. inversion Hn; subst.
    cbn [app]. rewrite bidx_2, bidx_3 by auto. cbn [get amap]. rewrite Gh by auto. rewrite !bidx_refl by auto. reflexivity.
  Qed.

  Lemma sindex_nth ds x j : NoDup ds -> nth_error ds j = Some x -> sindex x ds = Some j.
  Proof.
    intros Hn Hj. destruct (sindex_In x ds) as (k & E & Hk & Hx); [eapply nth_error_In; eauto|].
    rewrite E. f_equal. pose proof (sindex_Some _ _ _ E) as Hk'. rewrite NoDup_nth_error in Hn. apply Hn; congruence.
  Qed.
  Lemma on_grid_ok ds s (v : val T) : NoDup ds -> List.length ds = List.length s -> on_grid ds s v ->
    relabel_ok v ds = true /\ shp (vvalues v) = s /\ vshape v = s /\ v <> VOther.
  Proof.
    intros Hn Hl H.
    assert (Hs : vshape v = s /\ shp (vvalues v) = s /\ v <> VOther) by (destruct v as [x|x|x|]; cbn in *; intuition congruence).
    destruct Hs as (Hs & Hv & Ho). split; [|auto]. unfold relabel_ok. rewrite Hs, Hl, Nat.eqb_refl. cbn [andb].
    assert (K : forall d : da T, (forall name c, In (name, c) (coords d) ->
        Forall2 (fun x n => exists j, nth_error ds j = Some x /\ nth_error s j = Some n) (cdims c) (shp (cdat c))) ->
      forallb (fun c => forallb (fun p : string * nat => match sindex (fst p) ds with
                    | Some j => Nat.eqb (nth j s 0%nat) (snd p) | None => false end)
                    (combine (cdims (snd c)) (shp (cdat (snd c))))) (coords d) = true).
    { intros d Hc. apply forallb_forall. intros [nm c] Hin. specialize (Hc nm c Hin). cbn [snd].
      induction Hc as [|x n xs ns (j & Hj & Hs') Hc IH]; cbn; auto. rewrite IH, (sindex_nth ds x j) by auto.
      rewrite (nth_error_nth _ _ _ Hs'), Nat.eqb_refl. reflexivity. }
    destruct v as [x|x|x|]; auto; cbn in H; apply K; tauto.
  Qed.

  (** the weights argument as an array and the total used for normalisation *)
  Definition total_of (w : val T) : T := match w with VNd x => nsum (ravel x) | v => nansum (ravel (vvalues v)) end.
  Lemma decomposition_xr_ok old (d : da T) w th ph L a b : wf_da d -> shp (dat d) = [a; b] -> weights_fit d w ->
    on_grid (dims d) [a; b] th -> on_grid (dims d) [a; b] ph ->
    exists r, decomposition Y old (VDa d) w th ph L = Ok (ZDa r) /\ dims r = ["harmonic"%string] /\ shp (dat r) = [count L] /\
      forall n m, (m <= n <= L)%nat ->
        get (dat r) [pos n m] = entry cnansum (total_of w) (dat d) (vvalues w) (vvalues th) (vvalues ph) a b n m.
  Proof.
    intros [Wl Wn] Hd Hw Ht Hp.
    assert (Ll : List.length (dims d) = List.length [a; b]) by (rewrite Wl, Hd; reflexivity).
    destruct (on_grid_ok (dims d) [a; b] th Wn Ll Ht) as (Rt & Et & Vt & Nt).
    destruct (on_grid_ok (dims d) [a; b] ph Wn Ll Hp) as (Rp & Ep & Vp & Np).
    assert (Vw : vshape w = [a; b]).
    { destruct w as [x|x|x|]; cbn in Hw |- *; [congruence| | |contradiction]; destruct Hw as (_ & _ & _ & Hs & _); congruence. }
    unfold decomposition. unfold rank. rewrite Vw. cbn [List.length Nat.ltb Nat.leb].
    unfold decomposition_xr. fold (total_of w).
    assert (Sd : exists sd, scaled_xr d w = Ok sd /\ shp (dat sd) = [a; b] /\
      forall ij, inb [a; b] ij -> get (dat sd) ij = nmul (get (dat d) ij) (get (vvalues w) ij)).
    { destruct w as [x|x|x|]; cbn in Hw; [| | |contradiction]; cbn [scaled_xr vvalues].
      - unfold np_map2. rewrite Hd, Hw, Hd, bshape_refl. cbn [bind shp].
        destruct (shape_eqb_spec [a; b] [a; b]) as [_|C]; [|congruence]. cbn [negb]. eexists. split; [reflexivity|].
        cbn [dat shp get]. split; auto. intros ij Hij. rewrite !bidx_refl by auto. reflexivity.
      - destruct (xr_map2_same nmul d x Hw) as (r & E & _ & _ & S & _ & _ & G). exists r. rewrite Hd in *. auto.
      - destruct (xr_map2_same nmul d x Hw) as (r & E & _ & _ & S & _ & _ & G). exists r. rewrite Hd in *. auto. }
    destruct Sd as (sd & Esd & Ssd & Gsd). rewrite Esd. cbn [bind]. unfold ndim. rewrite Ssd, Hd. cbn [List.length Nat.eqb negb].
    rewrite Rt, Rp. cbn [andb negb]. rewrite andb_false_r. cbn [andb].
    assert (Hh : exists h, (if old then harmonics Y L (expand0 (vvalues ph)) (expand0 (vvalues th)) else harmonics Y L (vvalues ph) (vvalues th)) = Ok h
      /\ shp h = [count L; a; b] /\ forall n m i j, (m <= n <= L)%nat -> (i < a)%nat -> (j < b)%nat ->
          get h [pos n m; i; j] = Y n m (get (vvalues ph) [i; j]) (get (vvalues th) [i; j])).
    { destruct old; [apply harmonics_3|apply harmonics_2]; auto. }
    destruct Hh as (h & Eh & Sh & Gh). rewrite Eh. cbn [bind]. rewrite Ll. cbn [List.length Nat.ltb Nat.leb]. rewrite Sh. cbn [tl hd firstn].
    destruct (shape_eqb_spec [a; b] [a; b]) as [_|C]; [|congruence]. cbn [negb Nat.ltb Nat.leb].
    destruct (scale_res_ok L (total_of w)) as [Ss Gs].
    unfold np_map2. cbn [shp]. rewrite Ss, bshape_refl. cbn [bind]. eexists. split; [reflexivity|]. cbn [dims dat shp get].
    split; auto. split; auto.
    intros n m Hnm. pose proof (pos_lt L n m Hnm) as Hk.
    rewrite !bidx_refl by (repeat constructor; auto). rewrite Gs by auto. unfold entry. f_equal. f_equal.
    cbn [hd]. apply map_ext_in. intros ij Hij. apply all_idx_inb in Hij. rewrite Gsd by auto.
    inversion Hij as [|i ? ij' ? Hi Hij']; subst. inversion Hij' as [|j ? ? ? Hj Hn]; subst. inversion Hn; subst.
    rewrite Gh by auto. reflexivity.
  Qed.

  Lemma map_pairs {A} L (f : nat -> A) (g : nat * nat -> A) : (forall n m, (m <= n <= L)%nat -> f (pos n m) = g (n, m)) ->
    map f (seq 0 (count L)) = map g (harmonic_pairs L).
  Proof.
    intros H. apply nth_ext with (d := f 0%nat) (d' := g (0, 0)%nat).
    - rewrite !map_length, seq_length, pairs_length. reflexivity.
    - intros k Hk. rewrite map_length, seq_length in Hk. destruct (pos_surj L k Hk) as (n & m & Hnm & <-).
      rewrite map_nth, (map_nth g), seq_nth, pairs_nth, Nat.add_0_l by auto. auto.
  Qed.

  (** value of recomposition at a grid point, for any coefficients *)
  Definition point (sum : list T -> T) (c : arr (T * T)) (L : nat) (p t : T) : T :=
    nadd (sum (map (fun nm => nmul (fst (Y (fst nm) (snd nm) p t)) (fst (get c [pos (fst nm) (snd nm)]))) (harmonic_pairs L)))
         (sum (map (fun nm => nmul (snd (Y (fst nm) (snd nm) p t)) (snd (get c [pos (fst nm) (snd nm)]))) (harmonic_pairs L))).

  Lemma recompose_ok sum (h c : arr (T * T)) L a b (P Q : arr T) : shp h = [count L; a; b] -> shp c = [count L] ->
    (forall n m i j, (m <= n <= L)%nat -> (i < a)%nat -> (j < b)%nat -> get h [pos n m; i; j] = Y n m (get P [i; j]) (get Q [i; j])) ->
    exists r, recompose sum h (expand12 c) = Ok r /\ shp r = [a; b] /\
      forall i j, (i < a)%nat -> (j < b)%nat -> get r [i; j] = point sum c L (get P [i; j]) (get Q [i; j]).
  Proof.
    intros Sh Sc Gh. unfold recompose.
    assert (Se : shp (expand12 c) = [count L; 1; 1]%nat) by (unfold expand12; rewrite Sc; reflexivity).
    assert (Bs : bshape [count L; a; b] [count L; 1; 1] = Some [count L; a; b]).
    { unfold bshape. cbn [rev app bshape_rev]. rewrite !bdim_1r, bdim_refl. reflexivity. }
    unfold np_map2 at 1. cbn [amap shp]. rewrite Sh, Se, Bs. cbn [bind].
    unfold np_map2 at 1. cbn [amap shp]. rewrite Sh, Se, Bs. cbn [bind].
    unfold np_map2. cbn [sum0 shp tl]. rewrite bshape_refl. eexists. split; [reflexivity|]. split; [reflexivity|].
    intros i j Hi Hj. cbn [get]. rewrite bidx_refl by (apply inb2; auto). cbn [hd sum0 get shp]. unfold point.
    f_equal; f_equal; apply map_pairs; intros n m Hnm; pose proof (pos_lt L n m Hnm) as Hk; cbn [fst snd];
      rewrite bidx_3, bidx_h by auto; cbn [amap get]; rewrite Gh by auto; unfold expand12; rewrite Sc; reflexivity.
  Qed.

  Lemma recomposition_np_ok old (c : arr (T * T)) th ph L a b : shp c = [count L] ->
    vshape th = [a; b] -> vshape ph = [a; b] -> th <> VOther -> ph <> VOther ->
    exists r, recomposition Y old (ZNd c) th ph L = Ok (VNd r) /\ shp r = [a; b] /\
      forall i j, (i < a)%nat -> (j < b)%nat -> get r [i; j] = point nsum c L (get (vvalues ph) [i; j]) (get (vvalues th) [i; j]).
  Proof.
    intros Sc Ht Hp Nt Np. unfold recomposition, ndim. rewrite Sc. cbn [List.length Nat.eqb].
    assert (Et : shp (vvalues th) = [a; b]) by (destruct th; cbn in *; congruence).
    assert (Ep : shp (vvalues ph) = [a; b]) by (destruct ph; cbn in *; congruence).
    destruct (harmonics_3 L _ _ a b Ep Et) as (h & Eh & Sh & Gh). rewrite Eh. cbn [bind].
    destruct (recompose_ok nsum h c L a b _ _ Sh Sc Gh) as (r & Er & Sr & Gr). rewrite Er. cbn [bind]. eauto.
  Qed.

  Lemma recomposition_xr_ok old (c : da (T * T)) (th : da T) ph L a b : shp (dat c) = [count L] ->
    shp (dat th) = [a; b] -> List.length (dims th) = 2%nat -> ~ In "harmonic"%string (dims th) -> vshape ph = [a; b] -> plain_labels ph ->
    exists r, recomposition Y old (ZDa c) (VDa th) ph L = Ok (VDa r) /\ dims r = dims th /\ shp (dat r) = [a; b] /\
      forall i j, (i < a)%nat -> (j < b)%nat ->
        get (dat r) [i; j] = point nansum (dat c) L (get (vvalues ph) [i; j]) (get (dat th) [i; j]).
  Proof.
    intros Sc Ht Hl Hn Hp Xp. unfold recomposition, ndim. rewrite Sc. cbn [List.length Nat.eqb Nat.ltb Nat.leb].
    rewrite (proj2 (smem_false _ _) Hn), andb_false_r.
    replace (is_xr ph) with true by (destruct ph; cbn in *; tauto). cbn [negb]. rewrite andb_false_r.
    replace (match ph with VDa p | VSubDa p => smem "harmonic" (dims p) | _ => false end) with false
      by (destruct ph; cbn in Xp; auto; symmetry; apply smem_false; auto). rewrite andb_false_r.
    assert (Ep : shp (vvalues ph) = [a; b]) by (destruct ph; cbn in *; tauto).
    cbn [vvalues]. destruct (harmonics_3 L _ _ a b Ep Ht) as (h & Eh & Sh & Gh). rewrite Eh. cbn [bind]. rewrite Hl, Sh. cbn [List.length Nat.ltb Nat.leb Nat.eqb negb hd].
    rewrite (firstn_all2 (dims th)) by lia. rewrite (proj2 (smem_false _ _) Hn).
    rewrite Nat.eqb_refl. cbn [orb negb].
    destruct (recompose_ok nansum h (dat c) L a b _ _ Sh Sc Gh) as (r & Er & Sr & Gr). rewrite Er. cbn [bind].
    eexists. split; [reflexivity|]. auto.
  Qed.
End G.
