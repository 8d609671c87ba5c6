(** Theorems about the spherical harmonics API over finite fields. *)
From Coq Require Import Reals List Bool Arith ZArith Lia Lra String FunctionalExtensionality.
From Verif Require Import PyBase Num Arr NumFacts ArrFacts CellFacts Hybrid HybridFacts GradFacts Spherical SpecSum SumFacts SpecGrad SpecSph SphFacts XrFacts PsiApi.
Import ListNotations.
Local Open Scope R_scope.

Lemma cmul_fin a b c d : cmul (Fin a, Fin b) (Fin c, Fin d) = (Fin (a * c - b * d), Fin (a * d + b * c)).
Proof. reflexivity. Qed.
Lemma creal_fin a : creal (Fin a) = (Fin a, Fin 0). Proof. reflexivity. Qed.
Lemma csum_fin {A} (f g : A -> R) l : csum (map (fun x => (Fin (f x), Fin (g x))) l) = (Fin (rsum (map f l)), Fin (rsum (map g l))).
Proof.
  unfold csum. rewrite !map_map. cbn [fst snd]. rewrite <- (map_map f Fin), <- (map_map g Fin), !nsum_fin. reflexivity.
Qed.
Lemma cnansum_fin {A} (f g : A -> R) l : cnansum (map (fun x => (Fin (f x), Fin (g x))) l) = (Fin (rsum (map f l)), Fin (rsum (map g l))).
Proof. unfold cnansum. rewrite map_map. cbn [cisnan fst snd isnan NumFl fl_isnan orb]. apply csum_fin. Qed.
Lemma nansum_fin l : nansum (map Fin l) = Fin (rsum l).
Proof. unfold nansum. rewrite map_map. cbn [isnan NumFl fl_isnan]. apply nsum_fin. Qed.

Lemma zval_eta_ravel (v : val fl) a b w : v <> VOther -> vshape v = [a; b] -> field v a b w ->
  ravel (vvalues v) = map Fin (map (fun ij => w (nth 0 ij 0%nat) (nth 1 ij 0%nat)) (all_idx [a; b])).
Proof.
  intros Ho Hs Hf. unfold ravel. replace (shp (vvalues v)) with [a; b] by (destruct v; cbn in *; congruence).
  rewrite map_map. apply map_ext_in. intros ij Hij. apply all_idx_inb in Hij.
  inversion Hij as [|i ? ij' ? Hi Hij']; subst. inversion Hij' as [|j ? ? ? Hj Hn]; subst. inversion Hn; subst.
  cbn [nth]. rewrite <- (Hf i j Hi Hj). destruct v; cbn in *; congruence.
Qed.
Lemma field_get (v : val fl) a b w i j : v <> VOther -> field v a b w -> (i < a)%nat -> (j < b)%nat -> get (vvalues v) [i; j] = Fin (w i j).
Proof. intros Ho Hf Hi Hj. rewrite <- Hf by auto. destruct v; cbn in *; congruence. Qed.

Section Api.
  Variables (Y : nat -> nat -> fl -> fl -> fl * fl) (Yr Yi : nat -> nat -> R -> R -> R) (y0 : R).
  Hypothesis HY : sph_oracle Y Yr Yi y0.

  Lemma scale_val_fin S : S <> 0 -> scale_val Y (Fin S) = (Fin (1 / (S * (y0 * y0))), Fin 0).
  Proof.
    intros HS. unfold scale_val. change (ofZ 0) with (Fin 0). rewrite (so_fin _ _ _ _ HY), (so_00 _ _ _ _ HY), (so_real _ _ _ _ HY).
    change (ofZ 1) with (Fin 1). rewrite !creal_fin, !cmul_fin. unfold cdiv. cbn [fst snd].
    pose proof (so_nz _ _ _ _ HY) as Hy.
    assert (H : S * (y0 * y0) <> 0) by (apply Rmult_integral_contrapositive; split; auto; apply Rmult_integral_contrapositive; auto).
    change (@ndiv fl NumFl) with fl_div. cbn [nmul nadd nsub NumFl fl_mul fl_add fl_sub].
    set (u := S * (y0 * y0 - 0 * 0) - 0 * (y0 * 0 + 0 * y0)). assert (Eu : u = S * (y0 * y0)) by (unfold u; ring).
    set (v := S * (y0 * 0 + 0 * y0) + 0 * (y0 * y0 - 0 * 0)). assert (Ev : v = 0) by (unfold v; ring). rewrite Ev, Eu.
    assert (S * (y0 * y0) * (S * (y0 * y0)) + 0 * 0 <> 0).
    { rewrite Rmult_0_l, Rplus_0_r. apply Rmult_integral_contrapositive; auto. }
    rewrite !fdiv_fin by auto. apply f_equal2; apply f_equal; field; auto.
  Qed.

  Lemma IZR_zmult m : IZR (zmult m) = mult m. Proof. destruct m; reflexivity. Qed.

  Lemma entry_total sum tot (d w th ph : arr fl) a b f ww t p n m :
    (forall (F G : list nat -> R), sum (map (fun x => (Fin (F x), Fin (G x))) (all_idx [a; b])) = (Fin (rsum (map F (all_idx [a; b]))), Fin (rsum (map G (all_idx [a; b]))))) ->
    (forall i j, (i < a)%nat -> (j < b)%nat -> get d [i; j] = Fin (f i j) /\ get w [i; j] = Fin (ww i j) /\ get th [i; j] = Fin (t i j) /\ get ph [i; j] = Fin (p i j)) ->
    tot <> 0 ->
    entry Y sum (Fin tot) d w th ph a b n m =
    (Fin (mult m * gridsum a b (fun i j => f i j * ww i j * Yr n m (p i j) (t i j)) / (tot * (y0 * y0))),
     Fin (mult m * gridsum a b (fun i j => f i j * ww i j * Yi n m (p i j) (t i j)) / (tot * (y0 * y0)))).
  Proof.
    intros Hsum H HS. unfold entry. rewrite scale_val_fin by auto. change (ofZ (zmult m)) with (Fin (IZR (zmult m))). rewrite creal_fin, cmul_fin.
    rewrite IZR_zmult.
    erewrite map_ext_in with (g := fun ij => (Fin ((fun ij => f (nth 0 ij 0%nat) (nth 1 ij 0%nat) * ww (nth 0 ij 0%nat) (nth 1 ij 0%nat) * Yr n m (p (nth 0 ij 0%nat) (nth 1 ij 0%nat)) (t (nth 0 ij 0%nat) (nth 1 ij 0%nat))) ij),
       Fin ((fun ij => f (nth 0 ij 0%nat) (nth 1 ij 0%nat) * ww (nth 0 ij 0%nat) (nth 1 ij 0%nat) * Yi n m (p (nth 0 ij 0%nat) (nth 1 ij 0%nat)) (t (nth 0 ij 0%nat) (nth 1 ij 0%nat))) ij))).
    2:{ intros ij Hij. apply all_idx_inb in Hij.
        inversion Hij as [|i ? ij' ? Hi Hij']; subst. inversion Hij' as [|j ? ? ? Hj Hn]; subst. inversion Hn; subst. cbn [nth].
        destruct (H i j Hi Hj) as (-> & -> & -> & ->). rewrite (so_fin _ _ _ _ HY).
        change (nmul (Fin (f i j)) (Fin (ww i j))) with (Fin (f i j * ww i j)). rewrite creal_fin, cmul_fin.
        apply f_equal2; apply f_equal; ring. }
    rewrite Hsum, !rsum_all_idx2. cbn [nth]. rewrite cmul_fin.
    pose proof (so_nz _ _ _ _ HY) as Hy.
    apply f_equal2; apply f_equal; field; auto.
  Qed.
  Lemma entry_fin sum (d w th ph : arr fl) a b f ww t p n m :
    (forall (F G : list nat -> R), sum (map (fun x => (Fin (F x), Fin (G x))) (all_idx [a; b])) = (Fin (rsum (map F (all_idx [a; b]))), Fin (rsum (map G (all_idx [a; b]))))) ->
    (forall i j, (i < a)%nat -> (j < b)%nat -> get d [i; j] = Fin (f i j) /\ get w [i; j] = Fin (ww i j) /\ get th [i; j] = Fin (t i j) /\ get ph [i; j] = Fin (p i j)) ->
    gridsum a b ww <> 0 ->
    entry Y sum (Fin (gridsum a b ww)) d w th ph a b n m =
    (Fin (coefficient a b ww f (fun i j => Yr n m (p i j) (t i j)) y0 m), Fin (coefficient a b ww f (fun i j => Yi n m (p i j) (t i j)) y0 m)).
  Proof. intros Hsum H HS. rewrite (entry_total sum _ d w th ph a b f ww t p n m) by auto. reflexivity. Qed.

  (** C51: entries of decomposition *)
  Lemma c51_decomposition old data w th ph L a b f ww t p :
    same_grid a b data w th ph -> field data a b f -> field w a b ww -> field th a b t -> field ph a b p ->
    gridsum a b ww <> 0 ->
    exists z, decomposition Y old data w th ph L = Ok z /\ zkind data z /\ zlen z = [count L] /\
      forall n m, (m <= n <= L)%nat ->
        zcell z (pos n m) = (Fin (coefficient a b ww f (fun i j => Yr n m (p i j) (t i j)) y0 m),
                             Fin (coefficient a b ww f (fun i j => Yi n m (p i j) (t i j)) y0 m)).
  Proof.
    intros Hg Hf Hw Ht Hp HS. destruct Hg as [d x -> -> Sd Sx St Sp Nt Np|d -> Wd Sd Hwf Ht' Hp'].
    - destruct (decomposition_np_ok Y old d x th ph L a b Sd Sx St Sp Nt Np) as (r & Er & Sr & Gr).
      exists (ZNd r). split; auto. split; [exact I|]. split; auto. intros n m Hnm. cbn [zcell]. rewrite Gr by auto.
      assert (Etot : nsum (ravel x) = Fin (gridsum a b ww)).
      { change x with (vvalues (VNd x)). rewrite (zval_eta_ravel (VNd x) a b ww) by (auto; discriminate).
        rewrite nsum_fin, rsum_all_idx2. reflexivity. }
      rewrite Etot. apply entry_fin; auto.
      + intros F G. apply csum_fin.
      + intros i j Hi Hj. split; [apply (Hf i j); auto|]. split; [apply (Hw i j); auto|].
        split; apply (field_get _ a b); auto.
    - destruct (decomposition_xr_ok Y old d w th ph L a b Wd Sd Hwf Ht' Hp') as (r & Er & Dr & Sr & Gr).
      exists (ZDa r). split; auto. split; auto. split; auto. intros n m Hnm. cbn [zcell]. rewrite Gr by auto.
      assert (Ll : List.length (dims d) = List.length [a; b]) by (destruct Wd as [Wl _]; rewrite Wl, Sd; reflexivity).
      destruct (on_grid_ok (dims d) [a; b] th (proj2 Wd) Ll Ht') as (_ & _ & _ & Nt).
      destruct (on_grid_ok (dims d) [a; b] ph (proj2 Wd) Ll Hp') as (_ & _ & _ & Np).
      assert (Vw : vshape w = [a; b] /\ w <> VOther).
      { destruct w as [x|x|x|]; cbn in Hwf |- *; [split; congruence| | |contradiction]; destruct Hwf as (_ & _ & _ & Hs & _); split; congruence. }
      destruct Vw as [Vw Nw].
      assert (Etot : total_of w = Fin (gridsum a b ww)).
      { pose proof (zval_eta_ravel w a b ww Nw Vw Hw) as Er'.
        assert (G : nansum (ravel (vvalues w)) = Fin (gridsum a b ww)).
        { rewrite Er', nansum_fin, rsum_all_idx2. reflexivity. }
        assert (G' : nsum (ravel (vvalues w)) = Fin (gridsum a b ww)).
        { rewrite Er', nsum_fin, rsum_all_idx2. reflexivity. }
        destruct w as [x|x|x|]; cbn [total_of]; auto. }
      rewrite Etot. apply entry_fin; auto.
      + intros F G. apply cnansum_fin.
      + intros i j Hi Hj. split; [apply (Hf i j); auto|].
        repeat split; apply (field_get _ a b); auto.
  Qed.

  Lemma harmsum_pairs L (g : nat -> nat -> R) : rsum (map (fun nm => g (fst nm) (snd nm)) (harmonic_pairs L)) = harmsum L g.
  Proof.
    unfold harmonic_pairs, harmsum. rewrite map_flat_map, rsum_flat_map, rsum_seq0. replace (L + 1)%nat with (S L) by lia.
    apply bigsum_ext. intros n _. rewrite map_map. cbn [fst snd]. rewrite rsum_seq0. replace (n + 1)%nat with (S n) by lia. reflexivity.
  Qed.
  Lemma harmsum_ext L f g : (forall n m, (m <= n <= L)%nat -> f n m = g n m) -> harmsum L f = harmsum L g.
  Proof. intros H. apply bigsum_ext. intros n Hn. apply bigsum_ext. intros m Hm. apply H. lia. Qed.
  Lemma harmsum_plus L f g : harmsum L (fun n m => f n m + g n m) = harmsum L f + harmsum L g.
  Proof. unfold harmsum. rewrite <- bigsum_plus. apply bigsum_ext. intros. apply bigsum_plus. Qed.
  Lemma harmsum_scal L c f : harmsum L (fun n m => c * f n m) = c * harmsum L f.
  Proof. unfold harmsum. rewrite <- bigsum_scal. apply bigsum_ext. intros. apply bigsum_scal. Qed.
  Lemma harmsum_single L n m f : (m <= n <= L)%nat -> (forall n' m', (m' <= n' <= L)%nat -> same n m n' m' = false -> f n' m' = 0) ->
    harmsum L f = f n m.
  Proof.
    intros H H0. unfold harmsum. rewrite (bigsum_single (S L) n); [|lia|].
    - apply bigsum_single; [lia|]. intros m' Hm' Hne. apply H0; [lia|]. unfold same. rewrite Nat.eqb_refl. destruct (Nat.eqb_spec m m'); [congruence|reflexivity].
    - intros n' Hn' Hne. apply bigsum_0. intros m' Hm'. apply H0; [lia|]. unfold same. destruct (Nat.eqb_spec n n'); [congruence|reflexivity].
  Qed.
  Lemma gridsum_harmsum L a b (f : nat -> nat -> nat -> nat -> R) :
    gridsum a b (fun i j => harmsum L (fun n m => f n m i j)) = harmsum L (fun n m => gridsum a b (f n m)).
  Proof. unfold harmsum. rewrite gridsum_bigsum. apply bigsum_ext. intros n _. apply gridsum_bigsum. Qed.

  Lemma point_fin sum (c : arr (fl * fl)) L p t cr ci :
    (forall l, sum (map Fin l) = Fin (rsum l)) ->
    (forall n m, (m <= n <= L)%nat -> get c [pos n m] = (Fin (cr n m), Fin (ci n m))) ->
    point Y sum c L (Fin p) (Fin t) = Fin (harmsum L (fun n m => Yr n m p t * cr n m + Yi n m p t * ci n m)).
  Proof.
    intros Hs Hc. unfold point.
    assert (In_ok : forall nm, In nm (harmonic_pairs L) -> (snd nm <= fst nm <= L)%nat).
    { intros nm H. unfold harmonic_pairs in H. apply in_flat_map in H. destruct H as (n & Hn & H). apply in_map_iff in H.
      destruct H as (m & <- & Hm). apply in_seq in Hn, Hm. cbn. lia. }
    erewrite (map_ext_in (fun nm => nmul (fst (Y (fst nm) (snd nm) (Fin p) (Fin t))) (fst (get c [pos (fst nm) (snd nm)]))))
      with (g := fun nm => Fin ((fun nm => Yr (fst nm) (snd nm) p t * cr (fst nm) (snd nm)) nm)).
    2:{ intros nm H. rewrite (so_fin _ _ _ _ HY), Hc by auto. reflexivity. }
    erewrite (map_ext_in (fun nm => nmul (snd (Y (fst nm) (snd nm) (Fin p) (Fin t))) (snd (get c [pos (fst nm) (snd nm)]))))
      with (g := fun nm => Fin ((fun nm => Yi (fst nm) (snd nm) p t * ci (fst nm) (snd nm)) nm)).
    2:{ intros nm H. rewrite (so_fin _ _ _ _ HY), Hc by auto. reflexivity. }
    rewrite <- (map_map (fun nm : nat * nat => Yr (fst nm) (snd nm) p t * cr (fst nm) (snd nm)) Fin), <- (map_map (fun nm : nat * nat => Yi (fst nm) (snd nm) p t * ci (fst nm) (snd nm)) Fin), !Hs.
    rewrite (harmsum_pairs L (fun n m => Yr n m p t * cr n m)), (harmsum_pairs L (fun n m => Yi n m p t * ci n m)), harmsum_plus. reflexivity.
  Qed.

  (** C51: values of recomposition *)
  Lemma c51_recomposition old z th ph L a b t p cr ci :
    angles_fit z th ph a b -> zlen z = [count L] -> field th a b t -> field ph a b p ->
    (forall n m, (m <= n <= L)%nat -> zcell z (pos n m) = (Fin (cr n m), Fin (ci n m))) ->
    exists r, recomposition Y old z th ph L = Ok r /\ rkind z th r a b /\
      field r a b (fun i j => harmsum L (fun n m => Yr n m (p i j) (t i j) * cr n m + Yi n m (p i j) (t i j) * ci n m)).
  Proof.
    intros Ha Hz Ht Hp Hc. destruct z as [c|c]; cbn [zlen zcell] in *.
    - destruct Ha as (St & Sp & Nt & Np).
      destruct (recomposition_np_ok Y old c th ph L a b Hz St Sp Nt Np) as (r & Er & Sr & Gr). exists (VNd r). split; auto. split; auto.
      intros i j Hi Hj. cbn [cell]. rewrite Gr by auto. rewrite (field_get ph a b p), (field_get th a b t) by auto.
      apply point_fin; auto. apply nsum_fin.
    - destruct Ha as (th' & -> & St & Hl & Hn & Sp & Xp).
      destruct (recomposition_xr_ok Y old c th' ph L a b Hz St Hl Hn Sp Xp) as (r & Er & Dr & Sr & Gr). exists (VDa r). split; auto. split.
      { cbn. auto. }
      intros i j Hi Hj. cbn [cell]. rewrite Gr by auto. rewrite (field_get ph a b p) by (auto; destruct ph; cbn in *; tauto || congruence).
      pose proof (Ht i j Hi Hj) as E. cbn [cell] in E. rewrite E.
      apply point_fin; auto. apply nansum_fin.
  Qed.

  (** C52: round trip *)
  Lemma coef_rr L a b ww yr yi A B : exact_quadrature L a b ww y0 yr yi -> gridsum a b ww <> 0 ->
    forall n m, (m <= n <= L)%nat ->
      coefficient a b ww (fun i j => harmsum L (fun n m => yr n m i j * A n m + yi n m i j * B n m)) (yr n m) y0 m = A n m /\
      (m <> 0%nat -> coefficient a b ww (fun i j => harmsum L (fun n m => yr n m i j * A n m + yi n m i j * B n m)) (yi n m) y0 m = B n m).
  Proof.
    intros HQ HS n m Hnm. pose proof (so_nz _ _ _ _ HY) as Hy.
    assert (Hm : mult m <> 0) by (destruct m; cbn; lra).
    unfold coefficient. split; [|intros Hm0].
    - assert (E : gridsum a b (fun i j => harmsum L (fun n m => yr n m i j * A n m + yi n m i j * B n m) * ww i j * yr n m i j) = gridsum a b ww * (y0 * y0) / mult m * A n m).
      { transitivity (gridsum a b (fun i j => harmsum L (fun n' m' => A n' m' * (ww i j * yr n m i j * yr n' m' i j) + B n' m' * (ww i j * yr n m i j * yi n' m' i j)))).
        { apply gridsum_ext. intros i j _ _. rewrite Rmult_assoc, Rmult_comm, <- harmsum_scal. apply harmsum_ext. intros. ring. }
        rewrite gridsum_harmsum, (harmsum_single L n m); auto.
        - rewrite gridsum_plus, !gridsum_scal, (eq_rr _ _ _ _ _ _ _ HQ), (eq_ri _ _ _ _ _ _ _ HQ) by auto.
          unfold same. rewrite !Nat.eqb_refl. cbn [andb]. ring.
        - intros n' m' H' Hs. rewrite gridsum_plus, !gridsum_scal, (eq_rr _ _ _ _ _ _ _ HQ), (eq_ri _ _ _ _ _ _ _ HQ), Hs by auto. ring. }
      rewrite E. field. auto.
    - assert (E : gridsum a b (fun i j => harmsum L (fun n m => yr n m i j * A n m + yi n m i j * B n m) * ww i j * yi n m i j) = gridsum a b ww * (y0 * y0) / mult m * B n m).
      { transitivity (gridsum a b (fun i j => harmsum L (fun n' m' => A n' m' * (ww i j * yr n' m' i j * yi n m i j) + B n' m' * (ww i j * yi n m i j * yi n' m' i j)))).
        { apply gridsum_ext. intros i j _ _. rewrite Rmult_assoc, Rmult_comm, <- harmsum_scal. apply harmsum_ext. intros. ring. }
        rewrite gridsum_harmsum, (harmsum_single L n m); auto.
        - rewrite gridsum_plus, !gridsum_scal, (eq_ri _ _ _ _ _ _ _ HQ), (eq_ii _ _ _ _ _ _ _ HQ) by auto.
          unfold same. rewrite !Nat.eqb_refl. destruct (Nat.eqb_spec m 0); [contradiction|]. cbn [andb negb]. ring.
        - intros n' m' H' Hs. rewrite gridsum_plus, !gridsum_scal, (eq_ri _ _ _ _ _ _ _ HQ), (eq_ii _ _ _ _ _ _ _ HQ), Hs by auto. cbn [andb]. ring. }
      rewrite E. field. auto.
  Qed.

  Lemma c52_roundtrip old data w th ph L a b f ww t p A B :
    same_grid a b data w th ph -> field data a b f -> field w a b ww -> field th a b t -> field ph a b p ->
    (forall d, data = VDa d -> exists t, th = VDa t /\ ~ In "harmonic"%string (dims t) /\ plain_labels ph) ->
    gridsum a b ww <> 0 ->
    exact_quadrature L a b ww y0 (fun n m i j => Yr n m (p i j) (t i j)) (fun n m i j => Yi n m (p i j) (t i j)) ->
    (forall i j, (i < a)%nat -> (j < b)%nat ->
       f i j = harmsum L (fun n m => Yr n m (p i j) (t i j) * A n m + Yi n m (p i j) (t i j) * B n m)) ->
    exists z r, decomposition Y old data w th ph L = Ok z /\ recomposition Y old z th ph L = Ok r /\ field r a b f.
  Proof.
    intros Hg Hf Hw Ht Hp Hx HS HQ Hband.
    destruct (c51_decomposition old data w th ph L a b f ww t p Hg Hf Hw Ht Hp HS) as (z & Ez & Kz & Lz & Gz).
    exists z.
    assert (Ha : angles_fit z th ph a b).
    { destruct Hg as [d x -> -> Sd Sx St Sp Nt Np|d -> Wd Sd Hwf Ht' Hp'].
      - destruct z; [|destruct Kz]. cbn. auto.
      - destruct z; [destruct Kz|]. destruct (Hx d eq_refl) as (t' & -> & Hn & Xp). cbn. exists t'.
        assert (Ll : List.length (dims d) = List.length [a; b]) by (destruct Wd as [Wl _]; rewrite Wl, Sd; reflexivity).
        destruct (on_grid_ok (dims d) [a; b] ph (proj2 Wd) Ll Hp') as (_ & _ & Vp & Np).
        destruct (on_grid_ok (dims d) [a; b] (VDa t') (proj2 Wd) Ll Ht') as (_ & Et & _). cbn in Et. assert (Hl2 : List.length (dims t') = 2%nat) by (rewrite (proj1 Ht'); exact Ll). auto 10. }
    destruct (c51_recomposition old z th ph L a b t p _ _ Ha Lz Ht Hp Gz) as (r & Er & Kr & Fr).
    exists r. split; auto. split; auto. intros i j Hi Hj. rewrite Fr by auto. apply f_equal. rewrite (Hband i j Hi Hj).
    apply harmsum_ext. intros n m Hnm. destruct (coef_rr L a b ww _ _ A B HQ HS n m Hnm) as [E1 E2].
    assert (X : forall y, coefficient a b ww f y y0 m = coefficient a b ww (fun i j => harmsum L (fun n m => Yr n m (p i j) (t i j) * A n m + Yi n m (p i j) (t i j) * B n m)) y y0 m).
    { intros y. unfold coefficient. do 2 f_equal. apply gridsum_ext. intros. rewrite Hband by auto. reflexivity. }
    rewrite !X. cbv beta in E1, E2. rewrite E1. f_equal. destruct (Nat.eq_dec m 0) as [->|Hm].
    - rewrite (so_real _ _ _ _ HY). ring.
    - rewrite E2 by auto. reflexivity.
  Qed.

  (** C52: linearity and rescaling of the weights *)
  Lemma c52_linear old data1 data2 data3 w th ph L a b f g ww t p al be :
    same_grid a b data1 w th ph -> same_grid a b data2 w th ph -> same_grid a b data3 w th ph ->
    field data1 a b f -> field data2 a b g -> field data3 a b (fun i j => al * f i j + be * g i j) ->
    field w a b ww -> field th a b t -> field ph a b p -> gridsum a b ww <> 0 ->
    exists z1 z2 z3, decomposition Y old data1 w th ph L = Ok z1 /\ decomposition Y old data2 w th ph L = Ok z2 /\
      decomposition Y old data3 w th ph L = Ok z3 /\
      forall k, (k < count L)%nat -> exists x1 y1 x2 y2, zcell z1 k = (Fin x1, Fin y1) /\ zcell z2 k = (Fin x2, Fin y2) /\
        zcell z3 k = (Fin (al * x1 + be * x2), Fin (al * y1 + be * y2)).
  Proof.
    intros G1 G2 G3 F1 F2 F3 Hw Ht Hp HS.
    destruct (c51_decomposition old _ w th ph L a b f ww t p G1 F1 Hw Ht Hp HS) as (z1 & E1 & _ & _ & V1).
    destruct (c51_decomposition old _ w th ph L a b g ww t p G2 F2 Hw Ht Hp HS) as (z2 & E2 & _ & _ & V2).
    destruct (c51_decomposition old _ w th ph L a b _ ww t p G3 F3 Hw Ht Hp HS) as (z3 & E3 & _ & _ & V3).
    exists z1, z2, z3. repeat (split; auto). intros k Hk. destruct (pos_surj L k Hk) as (n & m & Hnm & <-).
    rewrite V1, V2, V3 by auto. do 4 eexists. split; [reflexivity|]. split; [reflexivity|].
    assert (X : forall y, coefficient a b ww (fun i j => al * f i j + be * g i j) y y0 m = al * coefficient a b ww f y y0 m + be * coefficient a b ww g y y0 m).
    { intros y. unfold coefficient. pose proof (so_nz _ _ _ _ HY) as Hy.
      transitivity (mult m * gridsum a b (fun i j => al * (f i j * ww i j * y i j) + be * (g i j * ww i j * y i j)) / (gridsum a b ww * (y0 * y0))).
      { do 2 f_equal. apply gridsum_ext. intros. ring. }
      rewrite gridsum_plus, !gridsum_scal. field. auto. }
    rewrite !X. reflexivity.
  Qed.

  Lemma c52_rescale old data w1 w2 th ph L a b f ww t p c :
    same_grid a b data w1 th ph -> same_grid a b data w2 th ph -> field data a b f ->
    field w1 a b ww -> field w2 a b (fun i j => c * ww i j) -> c <> 0 -> field th a b t -> field ph a b p -> gridsum a b ww <> 0 ->
    exists z1 z2, decomposition Y old data w1 th ph L = Ok z1 /\ decomposition Y old data w2 th ph L = Ok z2 /\
      forall k, (k < count L)%nat -> zcell z2 k = zcell z1 k.
  Proof.
    intros G1 G2 Hf W1 W2 Hc Ht Hp HS.
    assert (HS2 : gridsum a b (fun i j => c * ww i j) <> 0) by (rewrite gridsum_scal; apply Rmult_integral_contrapositive; auto).
    destruct (c51_decomposition old _ w1 th ph L a b f ww t p G1 Hf W1 Ht Hp HS) as (z1 & E1 & _ & _ & V1).
    destruct (c51_decomposition old _ w2 th ph L a b f _ t p G2 Hf W2 Ht Hp HS2) as (z2 & E2 & _ & _ & V2).
    exists z1, z2. repeat (split; auto). intros k Hk. destruct (pos_surj L k Hk) as (n & m & Hnm & <-).
    rewrite V1, V2 by auto. pose proof (so_nz _ _ _ _ HY) as Hy.
    assert (X : forall y, coefficient a b (fun i j => c * ww i j) f y y0 m = coefficient a b ww f y y0 m).
    { intros y. unfold coefficient. rewrite gridsum_scal.
      replace (gridsum a b (fun i j => f i j * (c * ww i j) * y i j)) with (c * gridsum a b (fun i j => f i j * ww i j * y i j)).
      2:{ rewrite <- gridsum_scal. apply gridsum_ext. intros. ring. }
      field. auto. }
    rewrite !X. reflexivity.
  Qed.

  (** C73: the first coefficient is the weighted mean, so recomposition at max_harm = 0 gives it back everywhere *)
  Lemma c73_mean old data w th ph a b f ww t p :
    same_grid a b data w th ph -> field data a b f -> field w a b ww -> field th a b t -> field ph a b p ->
    (forall d, data = VDa d -> exists t, th = VDa t /\ ~ In "harmonic"%string (dims t) /\ plain_labels ph) ->
    gridsum a b ww <> 0 ->
    exists z r, decomposition Y old data w th ph 0 = Ok z /\ recomposition Y old z th ph 0 = Ok r /\
      field r a b (fun _ _ => gridsum a b (fun i j => ww i j * f i j) / gridsum a b ww).
  Proof.
    intros Hg Hf Hw Ht Hp Hx HS.
    destruct (c51_decomposition old data w th ph 0 a b f ww t p Hg Hf Hw Ht Hp HS) as (z & Ez & Kz & Lz & Gz).
    exists z.
    assert (Ha : angles_fit z th ph a b).
    { destruct Hg as [d x -> -> Sd Sx St Sp Nt Np|d -> Wd Sd Hwf Ht' Hp'].
      - destruct z; [|destruct Kz]. cbn. auto.
      - destruct z; [destruct Kz|]. destruct (Hx d eq_refl) as (t' & -> & Hn & Xp). cbn. exists t'.
        assert (Ll : List.length (dims d) = List.length [a; b]) by (destruct Wd as [Wl _]; rewrite Wl, Sd; reflexivity).
        destruct (on_grid_ok (dims d) [a; b] ph (proj2 Wd) Ll Hp') as (_ & _ & Vp & Np).
        destruct (on_grid_ok (dims d) [a; b] (VDa t') (proj2 Wd) Ll Ht') as (_ & Et & _). cbn in Et. assert (Hl2 : List.length (dims t') = 2%nat) by (rewrite (proj1 Ht'); exact Ll). auto 10. }
    destruct (c51_recomposition old z th ph 0 a b t p _ _ Ha Lz Ht Hp Gz) as (r & Er & Kr & Fr).
    exists r. split; auto. split; auto. intros i j Hi Hj. rewrite Fr by auto. apply f_equal. unfold harmsum. cbn [bigsum].
    rewrite (so_real _ _ _ _ HY), (so_00 _ _ _ _ HY). unfold coefficient. cbn [mult].
    replace (gridsum a b (fun i0 j0 => f i0 j0 * ww i0 j0 * Yr 0%nat 0%nat (p i0 j0) (t i0 j0))) with (y0 * gridsum a b (fun i j => ww i j * f i j)).
    2:{ rewrite <- gridsum_scal. apply gridsum_ext. intros. rewrite (so_00 _ _ _ _ HY). ring. }
    pose proof (so_nz _ _ _ _ HY) as Hy. field. auto.
  Qed.
End Api.

Lemma c51_positions L k : (k < count L)%nat -> exists! nm : nat * nat, (snd nm <= fst nm <= L)%nat /\ pos (fst nm) (snd nm) = k.
Proof.
  intros Hk. destruct (pos_surj L k Hk) as (n & m & Hnm & E). exists (n, m). split; [auto|].
  intros [n' m'] [H' E']. cbn [fst snd] in *. destruct (pos_inj n m n' m') as [-> ->]; [lia|lia|congruence|reflexivity].
Qed.
Lemma c51_positions_lt L n m : (m <= n <= L)%nat -> (pos n m < count L)%nat.
Proof. apply pos_lt. Qed.
