(** Spherical functions: arguments that are not full two-dimensional grids. *)
From Coq Require Import Reals List Bool Arith ZArith Lia Lra String.
From Verif Require Import PyBase Num Arr NumFacts ArrFacts CellFacts Hybrid HybridFacts GradFacts Spherical SpecSum SumFacts SpecSph XrFacts SphFacts SphApi.
Import ListNotations.

(** the weights [w] of shape [sw] spread over an a-by-b grid *)
Definition spread {T} (a b : nat) (w : arr T) : arr T := mkArr [a; b] (fun i => get w (bidx (shp w) i)).

Section G.
  Context {T : Type} {N : Num T}.
  Variable Y : nat -> nat -> T -> T -> T * T.

  (** weights of fewer than two axes *)
  Lemma c106_weights_rank old data w th ph L : (List.length (vshape w) < 2)%nat -> decomposition Y old data w th ph L = Err ValueError.
  Proof. intros H. unfold decomposition, rank. rewrite (proj2 (Nat.ltb_lt _ _) H). reflexivity. Qed.

  (** weights that would enlarge labelled data *)
  Lemma c106_labelled old (d : arr T) (w : da T) th ph L : List.length (shp (dat w)) = 2%nat -> decomposition Y old (VNd d) (VDa w) th ph L = Err ValueError.
  Proof. intros Hw. unfold decomposition, rank. cbn [vshape]. rewrite Hw. reflexivity. Qed.
  Lemma c106_enlarge old (d : da T) (w : arr T) th ph L s : List.length (shp w) = 2%nat ->
    bshape (shp (dat d)) (shp w) = Some s -> s <> shp (dat d) -> decomposition Y old (VDa d) (VNd w) th ph L = Err ValueError.
  Proof.
    intros Hw Hb Hs. unfold decomposition, rank. cbn [vshape]. rewrite Hw. cbn [Nat.ltb Nat.leb]. unfold decomposition_xr.
    cbn [scaled_xr]. unfold np_map2. rewrite Hb. cbn [bind shp].
    destruct (shape_eqb_spec s (shp (dat d))); [contradiction|]. reflexivity.
  Qed.

  (** labelled points *)
  Lemma c106_points_xr (d : da T) w th ph L n : shp (dat d) = [n] -> List.length (dims d) = 1%nat -> List.length (vshape w) = 2%nat -> w <> VOther ->
    forall z, decomposition Y false (VDa d) w th ph L <> Ok z.
  Proof.
    intros Hd Hl Hw Hv z. unfold decomposition, rank. rewrite Hw. cbn [Nat.ltb Nat.leb]. unfold decomposition_xr.
    destruct (scaled_xr d w) as [sd|]; cbn [bind]; [|discriminate]. destruct (negb (Nat.eqb _ _)); [discriminate|]. destruct (negb false && _); [discriminate|].
    destruct (harmonics Y L _ _) as [h|]; cbn [bind]; [|discriminate]. rewrite Hl. cbn. discriminate.
  Qed.
  Lemma c106_recompose_points_xr old (c : da (T * T)) (th : da T) ph L r : (List.length (dims th) < 2)%nat -> recomposition Y old (ZDa c) (VDa th) ph L <> Ok r.
  Proof.
    intros H. unfold recomposition. destruct (Nat.eqb _ 0); [discriminate|]. destruct (Nat.ltb 1 _); [discriminate|].
    destruct (negb old && _); [discriminate|]. destruct (negb old && _); [discriminate|]. destruct (negb old && _); [discriminate|].
    destruct (harmonics Y L _ _) as [h|]; cbn [bind]; [|discriminate]. rewrite (proj2 (Nat.ltb_lt _ _) H). discriminate.
  Qed.

  Lemma harmonics_points L (p t : arr T) n : shp p = [n] -> shp t = [n] ->
    exists h, harmonics Y L (expand0 p) (expand0 t) = Ok h /\ shp h = [count L; 1; n]%nat /\
      forall k m i, (m <= k <= L)%nat -> (i < n)%nat -> get h [pos k m; 0%nat; i] = Y k m (get p [i]) (get t [i]).
  Proof.
    intros Hp Ht. unfold harmonics. unfold np_map2 at 1. cbn [shp expand0]. rewrite Hp, Ht, bshape_refl. cbn [bind].
    unfold np_map2. cbn [shp expand12 vec]. rewrite pairs_length.
    change [1%nat; n] with (1 :: n :: nil)%nat. rewrite bshape_h2. eexists. split; [reflexivity|]. split; [reflexivity|].
    intros k m i Hkm Hi. pose proof (pos_lt L k m Hkm) as Hk. cbn [get]. rewrite bidx_h by auto. rewrite bidx_2 by (auto; lia).
    cbn [hd vec get expand12]. rewrite !(pairs_nth L k m) by auto. cbn [fst snd].
    rewrite !bidx_refl by (repeat constructor; auto; lia). reflexivity.
  Qed.

  (** plain points: recomposition returns a 1-by-n array *)
  Lemma recompose_points old (c : arr (T * T)) th ph L n : shp c = [count L] -> vshape th = [n] -> vshape ph = [n] -> th <> VOther -> ph <> VOther ->
    exists r, recomposition Y old (ZNd c) th ph L = Ok (VNd r) /\ shp r = [1%nat; n] /\
      forall i, (i < n)%nat -> get r [0%nat; i] = point Y nsum c L (get (vvalues ph) [i]) (get (vvalues th) [i]).
  Proof.
    intros Sc Ht Hp Nt Np. unfold recomposition, ndim. rewrite Sc. cbn [List.length Nat.eqb].
    assert (Et : shp (vvalues th) = [n]) by (destruct th; cbn in *; congruence).
    assert (Ep : shp (vvalues ph) = [n]) by (destruct ph; cbn in *; congruence).
    destruct (harmonics_points L _ _ n Ep Et) as (h & Eh & Sh & Gh). rewrite Eh. cbn [bind].
    destruct (recompose_ok Y nsum h c L 1 n (mkArr [1%nat; n] (fun i => get (vvalues ph) (tl i))) (mkArr [1%nat; n] (fun i => get (vvalues th) (tl i))) Sh Sc) as (r & Er & Sr & Gr).
    { intros k m i j Hk Hi Hj. assert (i = 0%nat) by lia. subst i. rewrite Gh by auto. reflexivity. }
    rewrite Er. cbn [bind]. exists r. split; auto. split; auto. intros i Hi. rewrite Gr by lia. reflexivity.
  Qed.

  (** plain data, weights spread by broadcasting *)
  Lemma bshape_spread a b sw : In sw [[a; 1]; [1; b]; [1; 1]]%nat -> bshape [a; b] sw = Some [a; b].
  Proof.
    intros [<-|[<-|[<-|[]]]]; unfold bshape; cbn [rev app bshape_rev]; rewrite ?bdim_refl, ?bdim_1r, ?bdim_refl, ?bdim_1r; reflexivity.
  Qed.
  Lemma decomposition_np_spread old (d w : arr T) th ph L a b : shp d = [a; b] -> In (shp w) [[a; 1]; [1; b]; [1; 1]]%nat ->
    vshape th = [a; b] -> vshape ph = [a; b] -> th <> VOther -> ph <> VOther ->
    exists r, decomposition Y old (VNd d) (VNd w) th ph L = Ok (ZNd r) /\ shp r = [count L] /\
      forall n m, (m <= n <= L)%nat -> get r [pos n m] = entry Y csum (nsum (ravel w)) d (spread a b w) (vvalues th) (vvalues ph) a b n m.
  Proof.
    intros Hd Hw Ht Hp Nt Np. unfold decomposition. unfold rank. cbn [vshape].
    assert (R : List.length (shp w) = 2%nat) by (destruct Hw as [<-|[<-|[<-|[]]]]; reflexivity).
    rewrite R. cbn [Nat.ltb Nat.leb]. unfold decomposition_np.
    assert (Et : shp (vvalues th) = [a; b]) by (destruct th; cbn in *; congruence).
    assert (Ep : shp (vvalues ph) = [a; b]) by (destruct ph; cbn in *; congruence).
    unfold np_map2 at 1. rewrite Hd, (bshape_spread a b (shp w) Hw). cbn [bind].
    destruct (harmonics_3 Y L _ _ a b Ep Et) as (h & Eh & Sh & Gh). rewrite Eh. cbn [bind].
    unfold np_map2 at 1. cbn [shp amap]. rewrite Sh, bshape_23. cbn [bind].
    destruct (scale_res_ok Y L (nsum (ravel w))) as [Ss Gs].
    unfold np_map2, sum12. cbn [shp hd tl skipn]. rewrite Ss, bshape_refl. cbn [bind]. eexists. split; [reflexivity|]. split; [reflexivity|].
    intros n m Hnm. pose proof (pos_lt L n m Hnm) as Hk. cbn [get].
    rewrite !bidx_refl by (repeat constructor; auto). rewrite Gs by auto. unfold entry. f_equal. f_equal.
    cbn [hd shp tl get firstn]. apply map_ext_in. intros ij Hij. apply all_idx_inb in Hij.
    inversion Hij as [|i ? ij' ? Hi Hij']; subst. inversion Hij' as [|j ? ? ? Hj Hn]; subst. inversion Hn; subst.
    cbn [app]. rewrite bidx_2, bidx_3 by auto. cbn [get amap]. rewrite Gh by auto. rewrite bidx_refl by auto. reflexivity.
  Qed.

  Lemma decomposition_xr_spread old (d : da T) (w : arr T) th ph L a b : wf_da d -> shp (dat d) = [a; b] -> In (shp w) [[a; 1]; [1; b]; [1; 1]]%nat ->
    on_grid (dims d) [a; b] th -> on_grid (dims d) [a; b] ph ->
    exists r, decomposition Y old (VDa d) (VNd w) th ph L = Ok (ZDa r) /\ dims r = ["harmonic"%string] /\ shp (dat r) = [count L] /\
      forall n m, (m <= n <= L)%nat -> get (dat r) [pos n m] = entry Y cnansum (nsum (ravel w)) (dat d) (spread a b w) (vvalues th) (vvalues ph) a b n m.
  Proof.
    intros [Wl Wn] Hd Hw Ht Hp.
    assert (Ll : List.length (dims d) = List.length [a; b]) by (rewrite Wl, Hd; reflexivity).
    destruct (on_grid_ok (dims d) [a; b] th Wn Ll Ht) as (Rt & Et & Vt & Nt).
    destruct (on_grid_ok (dims d) [a; b] ph Wn Ll Hp) as (Rp & Ep & Vp & Np).
    assert (R : List.length (shp w) = 2%nat) by (destruct Hw as [<-|[<-|[<-|[]]]]; reflexivity).
    unfold decomposition. unfold rank. cbn [vshape]. rewrite R. cbn [Nat.ltb Nat.leb].
    unfold decomposition_xr. cbn [scaled_xr].
    unfold np_map2 at 1. rewrite Hd, (bshape_spread a b (shp w) Hw). cbn [bind shp].
    destruct (shape_eqb_spec [a; b] [a; b]) as [_|C]; [|congruence]. cbn [negb bind]. unfold ndim. cbn [dat shp]. rewrite Hd. cbn [List.length Nat.eqb negb].
    rewrite Rt, Rp. cbn [andb negb]. rewrite andb_false_r. cbn [andb].
    assert (Hh : exists h, (if old then harmonics Y L (expand0 (vvalues ph)) (expand0 (vvalues th)) else harmonics Y L (vvalues ph) (vvalues th)) = Ok h
      /\ shp h = [count L; a; b] /\ forall n m i j, (m <= n <= L)%nat -> (i < a)%nat -> (j < b)%nat ->
          get h [pos n m; i; j] = Y n m (get (vvalues ph) [i; j]) (get (vvalues th) [i; j])).
    { destruct old; [apply harmonics_3|apply harmonics_2]; auto. }
    destruct Hh as (h & Eh & Sh & Gh). rewrite Eh. cbn [bind]. rewrite Ll. cbn [List.length Nat.ltb Nat.leb]. rewrite Sh. cbn [tl hd firstn].
    destruct (shape_eqb_spec [a; b] [a; b]) as [_|C]; [|congruence]. cbn [negb Nat.ltb Nat.leb].
    destruct (scale_res_ok Y L (nsum (ravel w))) as [Ss Gs].
    unfold np_map2. cbn [shp]. rewrite Ss, bshape_refl. cbn [bind]. eexists. split; [reflexivity|]. cbn [dims dat shp get].
    split; auto. split; auto.
    intros n m Hnm. pose proof (pos_lt L n m Hnm) as Hk.
    rewrite !bidx_refl by (repeat constructor; auto). rewrite Gs by auto. unfold entry. f_equal. f_equal.
    cbn [hd]. apply map_ext_in. intros ij Hij. apply all_idx_inb in Hij. rewrite bidx_refl by auto.
    inversion Hij as [|i ? ij' ? Hi Hij']; subst. inversion Hij' as [|j ? ? ? Hj Hn]; subst. inversion Hn; subst.
    rewrite Gh by auto. reflexivity.
  Qed.
End G.

(** weights given once per row, once per column or once, standing for the weights ww of all grid points; the last
    argument is the number of grid points each of them stands for *)
Inductive stands_for (a b : nat) (w : arr fl) (ww : nat -> nat -> R) : nat -> Prop :=
| sf_rows u : shp w = [a; 1]%nat -> (forall i, (i < a)%nat -> get w [i; 0%nat] = Fin (u i)) -> (forall i j, ww i j = u i) -> stands_for a b w ww b
| sf_cols u : shp w = [1; b]%nat -> (forall j, (j < b)%nat -> get w [0%nat; j] = Fin (u j)) -> (forall i j, ww i j = u j) -> stands_for a b w ww a
| sf_one u : shp w = [1; 1]%nat -> get w [0; 0]%nat = Fin u -> (forall i j, ww i j = u) -> stands_for a b w ww (a * b).

Lemma stands_total a b w ww k : stands_for a b w ww k -> gridsum a b ww <> 0%R ->
  In (shp w) [[a; 1]; [1; b]; [1; 1]]%nat /\ (exists tot, nsum (ravel w) = Fin tot /\ (INR k * tot = gridsum a b ww)%R) /\
  forall i j, (i < a)%nat -> (j < b)%nat -> get (spread a b w) [i; j] = Fin (ww i j).
Proof.
  intros H HS. destruct H as [u Sw Gw E|u Sw Gw E|u Sw Gw E].
  - split; [left; auto|]. split.
    + exists (bigsum a u). split.
      * change w with (vvalues (VNd w)). rewrite (zval_eta_ravel (VNd w) a 1 (fun i _ => u i)); try discriminate; [|exact Sw|].
        -- rewrite nsum_fin, rsum_all_idx2. cbn [nth]. f_equal. unfold gridsum. apply bigsum_ext. intros i _. cbn. lra.
        -- intros i j Hi Hj. assert (j = 0%nat) by lia. subst. apply Gw. auto.
      * unfold gridsum. rewrite <- bigsum_scal. apply bigsum_ext. intros i _. rewrite <- bigsum_const. apply bigsum_ext. intros j _. rewrite E. reflexivity.
    + intros i j Hi Hj. unfold spread. cbn [get]. rewrite Sw, E. unfold bidx. cbn. rewrite idx1 by auto. apply Gw. auto.
  - split; [right; left; auto|]. split.
    + exists (bigsum b u). split.
      * change w with (vvalues (VNd w)). rewrite (zval_eta_ravel (VNd w) 1 b (fun _ j => u j)); try discriminate; [|exact Sw|].
        -- rewrite nsum_fin, rsum_all_idx2. cbn [nth]. f_equal. unfold gridsum. cbn [bigsum]. rewrite Rplus_0_l. reflexivity.
        -- intros i j Hi Hj. assert (i = 0%nat) by lia. subst. apply Gw. auto.
      * unfold gridsum. rewrite <- bigsum_const. apply bigsum_ext. intros i _. apply bigsum_ext. intros j _. rewrite E. reflexivity.
    + intros i j Hi Hj. unfold spread. cbn [get]. rewrite Sw, E. unfold bidx. cbn. rewrite idx1 by auto. apply Gw. auto.
  - split; [right; right; left; auto|]. split.
    + exists u. split.
      * change w with (vvalues (VNd w)). rewrite (zval_eta_ravel (VNd w) 1 1 (fun _ _ => u)); try discriminate; [|exact Sw|].
        -- rewrite nsum_fin, rsum_all_idx2. f_equal. unfold gridsum. cbn. lra.
        -- intros i j Hi Hj. assert (i = 0%nat) by lia. assert (j = 0%nat) by lia. subst. exact Gw.
      * rewrite mult_INR, Rmult_assoc, <- bigsum_const. unfold gridsum. apply bigsum_ext. intros i _. rewrite <- bigsum_const. apply bigsum_ext. intros j _. rewrite E. reflexivity.
    + intros i j Hi Hj. unfold spread. cbn [get]. rewrite Sw, E. exact Gw.
Qed.

(** a plain or labelled grid with its angles *)
Definition data_grid (a b : nat) (data th ph : val fl) : Prop :=
  match data with
  | VNd d => shp d = [a; b] /\ vshape th = [a; b] /\ vshape ph = [a; b] /\ th <> VOther /\ ph <> VOther
  | VDa d => wf_da d /\ shp (dat d) = [a; b] /\ on_grid (dims d) [a; b] th /\ on_grid (dims d) [a; b] ph
  | _ => False
  end.

Section Fl.
  Variables (Y : nat -> nat -> fl -> fl -> fl * fl) (Yr Yi : nat -> nat -> R -> R -> R) (y0 : R).
  Hypothesis HY : sph_oracle Y Yr Yi y0.

  Lemma c106_spread old data w th ph L a b f ww t p k : data_grid a b data th ph -> stands_for a b w ww k ->
    field data a b f -> field th a b t -> field ph a b p -> gridsum a b ww <> 0%R ->
    exists z, decomposition Y old data (VNd w) th ph L = Ok z /\ zkind data z /\ zlen z = [count L] /\
      forall n m, (m <= n <= L)%nat ->
        zcell z (pos n m) = (Fin (INR k * coefficient a b ww f (fun i j => Yr n m (p i j) (t i j)) y0 m),
                             Fin (INR k * coefficient a b ww f (fun i j => Yi n m (p i j) (t i j)) y0 m)).
  Proof.
    intros Hg Hw Hf Ht Hp HS. destruct (stands_total a b w ww k Hw HS) as (Iw & (tot & Et & Ek) & Gw).
    assert (Nk : INR k <> 0%R) by (intros Z; rewrite Z in Ek; lra).
    assert (Ntot : tot <> 0%R) by (intros Z; rewrite Z in Ek; lra).
    pose proof (so_nz _ _ _ _ HY) as Hy.
    assert (Ent : forall sum n m (d : arr fl), (forall i j, (i < a)%nat -> (j < b)%nat -> get d [i; j] = Fin (f i j)) -> th <> VOther -> ph <> VOther ->
      (forall (F G : list nat -> R), sum (map (fun x => (Fin (F x), Fin (G x))) (all_idx [a; b])) = (Fin (rsum (map F (all_idx [a; b]))), Fin (rsum (map G (all_idx [a; b]))))) ->
      entry Y sum (Fin tot) d (spread a b w) (vvalues th) (vvalues ph) a b n m =
        (Fin (INR k * coefficient a b ww f (fun i j => Yr n m (p i j) (t i j)) y0 m), Fin (INR k * coefficient a b ww f (fun i j => Yi n m (p i j) (t i j)) y0 m))).
    { intros sum n m d Gd Nt Np Hsum. rewrite (entry_total Y Yr Yi y0 HY sum tot d (spread a b w) (vvalues th) (vvalues ph) a b f ww t p n m); auto.
      - unfold coefficient. rewrite <- Ek. apply f_equal2; apply f_equal; field; auto.
      - intros i j Hi Hj. split; [auto|]. split; [auto|]. split; apply (field_get _ a b); auto. }
    destruct data as [d|d|d|]; cbn in Hg; try contradiction.
    - destruct Hg as (Sd & St & Sp & Nt & Np).
      destruct (decomposition_np_spread Y old d w th ph L a b Sd Iw St Sp Nt Np) as (r & Er & Sr & Gr).
      exists (ZNd r). split; auto. split; [exact I|]. split; auto. intros n m Hnm. cbn [zcell]. rewrite Gr, Et by auto. apply Ent; auto.
      intros F G. apply csum_fin.
    - destruct Hg as (Wd & Sd & Ht' & Hp').
      destruct (decomposition_xr_spread Y old d w th ph L a b Wd Sd Iw Ht' Hp') as (r & Er & Dr & Sr & Gr).
      assert (Ll : List.length (dims d) = List.length [a; b]) by (destruct Wd as [Wl _]; rewrite Wl, Sd; reflexivity).
      destruct (on_grid_ok (dims d) [a; b] th (proj2 Wd) Ll Ht') as (_ & _ & _ & Nt).
      destruct (on_grid_ok (dims d) [a; b] ph (proj2 Wd) Ll Hp') as (_ & _ & _ & Np).
      exists (ZDa r). split; auto. split; auto. split; auto. intros n m Hnm. cbn [zcell]. rewrite Gr, Et by auto. apply Ent; auto.
      intros F G. apply cnansum_fin.
  Qed.

  Lemma c106_points old c th ph L n (t p : nat -> R) cr ci : shp c = [count L] -> vshape th = [n] -> vshape ph = [n] -> th <> VOther -> ph <> VOther ->
    (forall i, (i < n)%nat -> get (vvalues th) [i] = Fin (t i) /\ get (vvalues ph) [i] = Fin (p i)) ->
    (forall k m, (m <= k <= L)%nat -> get c [pos k m] = (Fin (cr k m), Fin (ci k m))) ->
    exists r, recomposition Y old (ZNd c) th ph L = Ok (VNd r) /\ shp r = [1%nat; n] /\
      forall i, (i < n)%nat -> get r [0%nat; i] = Fin (harmsum L (fun k m => Yr k m (p i) (t i) * cr k m + Yi k m (p i) (t i) * ci k m)%R).
  Proof.
    intros Sc St Sp Nt Np Hv Hc. destruct (recompose_points Y old c th ph L n Sc St Sp Nt Np) as (r & Er & Sr & Gr).
    exists r. split; auto. split; auto. intros i Hi. rewrite Gr by auto. destruct (Hv i Hi) as [-> ->].
    apply (point_fin Y Yr Yi y0 HY nsum c L (p i) (t i) cr ci); [apply nsum_fin|auto].
  Qed.
End Fl.

Lemma c106_voronoi_rank (areas : list (fl * fl * fl) -> res (list fl)) th ph :
  (is_nd th = true \/ (exists d, th = VDa d) /\ is_xr ph = true) -> (List.length (vshape th) < 2)%nat -> scale_voronoi areas th ph = Err IndexError.
Proof.
  intros Hk Hr. unfold scale_voronoi, flatten2, ndim. destruct Hk as [H|((d & ->) & H)].
  - destruct th as [t|t|t|]; cbn in H; try discriminate. cbn [vshape] in Hr. rewrite (proj2 (Nat.ltb_lt _ _) Hr). cbn [bind]. destruct ph; reflexivity.
  - cbn [vshape] in Hr. rewrite (proj2 (Nat.ltb_lt _ _) Hr). destruct ph; cbn in H; try discriminate; reflexivity.
Qed.
