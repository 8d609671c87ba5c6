(** Spherical functions: several fields, or several sets of coefficients, in one plain array. *)
From Coq Require Import Reals List Bool Arith ZArith Lia Lra String.
From Verif Require Import PyBase Num Arr NumFacts ArrFacts CellFacts Hybrid HybridFacts GradFacts Spherical SpecSum SumFacts SpecGrad SpecSph XrFacts SphFacts PsiApi SphApi.
Import ListNotations.

(** field number k of a stack *)
Definition layer {T} (d : arr T) (k : nat) : arr T := mkArr (tl (shp d)) (fun i => get d (k :: i)).

Section G.
  Context {T : Type} {N : Num T}.
  Variable Y : nat -> nat -> T -> T -> T * T.

  Lemma bshape_33 K H a b : bshape [K; a; b] [H; a; b] = option_map (fun k => [k; a; b]) (bdim K H).
  Proof. unfold bshape. cbn [rev app bshape_rev]. rewrite !bdim_refl. destruct (bdim K H); reflexivity. Qed.
  Lemma bshape_32 K a b : bshape [K; a; b] [a; b] = Some [K; a; b].
  Proof. unfold bshape. cbn [rev app bshape_rev]. rewrite !bdim_refl. reflexivity. Qed.
  Lemma bdim_none K H : K <> H -> K <> 1%nat -> H <> 1%nat -> bdim K H = None.
  Proof. intros A B C. unfold bdim. rewrite !(proj2 (Nat.eqb_neq _ _)) by auto. reflexivity. Qed.

  Lemma stack_rejected old (d w : arr T) th ph L K a b : shp d = [K; a; b] -> shp w = [a; b] ->
    vshape th = [a; b] -> vshape ph = [a; b] -> th <> VOther -> ph <> VOther ->
    K <> count L -> K <> 1%nat -> count L <> 1%nat -> decomposition Y old (VNd d) (VNd w) th ph L = Err ValueError.
  Proof.
    intros Hd Hw Ht Hp Nt Np K1 K2 K3. unfold decomposition. unfold rank. cbn [vshape]. rewrite Hw. cbn [List.length Nat.ltb Nat.leb].
    unfold decomposition_np.
    assert (Et : shp (vvalues th) = [a; b]) by (destruct th; cbn in *; congruence).
    assert (Ep : shp (vvalues ph) = [a; b]) by (destruct ph; cbn in *; congruence).
    unfold np_map2 at 1. rewrite Hd, Hw, bshape_32. cbn [bind].
    destruct (harmonics_3 Y L _ _ a b Ep Et) as (h & Eh & Sh & Gh). rewrite Eh. cbn [bind].
    unfold np_map2 at 1. cbn [shp amap]. rewrite Sh, bshape_33, bdim_none by auto. reflexivity.
  Qed.

  (** the pairing of fields with harmonics *)
  Lemma stack_paired old (d w : arr T) th ph L K a b : shp d = [K; a; b] -> shp w = [a; b] ->
    vshape th = [a; b] -> vshape ph = [a; b] -> th <> VOther -> ph <> VOther -> (K = 1%nat \/ K = count L) ->
    exists r, decomposition Y old (VNd d) (VNd w) th ph L = Ok (ZNd r) /\ shp r = [count L] /\
      forall n m, (m <= n <= L)%nat -> get r [pos n m] =
        entry Y csum (nsum (ravel w)) (layer d (if Nat.eqb K 1 then 0 else pos n m)) w (vvalues th) (vvalues ph) a b n m.
  Proof.
    intros Hd Hw Ht Hp Nt Np HK. unfold decomposition. unfold rank. cbn [vshape]. rewrite Hw. cbn [List.length Nat.ltb Nat.leb].
    unfold decomposition_np.
    assert (Et : shp (vvalues th) = [a; b]) by (destruct th; cbn in *; congruence).
    assert (Ep : shp (vvalues ph) = [a; b]) by (destruct ph; cbn in *; congruence).
    unfold np_map2 at 1. rewrite Hd, Hw, bshape_32. cbn [bind].
    destruct (harmonics_3 Y L _ _ a b Ep Et) as (h & Eh & Sh & Gh). rewrite Eh. cbn [bind].
    assert (Bd : bdim K (count L) = Some (count L)) by (destruct HK as [->| ->]; [apply bdim_1l|apply bdim_refl]).
    unfold np_map2 at 1. cbn [shp amap]. rewrite Sh, bshape_33, Bd. cbn [bind option_map].
    destruct (scale_res_ok Y L (nsum (ravel w))) as [Ss Gs].
    unfold np_map2, sum12. cbn [shp hd tl skipn]. rewrite Ss, bshape_refl. cbn [bind]. eexists. split; [reflexivity|]. split; [reflexivity|].
    intros n m Hnm. pose proof (pos_lt L n m Hnm) as Hk. cbn [get].
    rewrite !bidx_refl by (repeat constructor; auto). rewrite Gs by auto. unfold entry. f_equal. f_equal.
    cbn [hd shp tl get firstn]. apply map_ext_in. intros ij Hij. apply all_idx_inb in Hij.
    inversion Hij as [|i ? ij' ? Hi Hij']; subst. inversion Hij' as [|j ? ? ? Hj Hn]; subst. inversion Hn; subst.
    cbn [app]. rewrite (bidx_3 (count L)) by auto. rewrite Gh by auto.
    assert (Eb : bidx [K; a; b] [pos n m; i; j] = [if Nat.eqb K 1 then 0 else pos n m; i; j]%nat) by (unfold bidx; cbn; rewrite (idx1 a i), (idx1 b j) by auto; reflexivity).
    rewrite Eb. cbn [get amap layer].
    assert (Eb2 : bidx [K; a; b] [if Nat.eqb K 1 then 0 else pos n m; i; j]%nat = [if Nat.eqb K 1 then 0 else pos n m; i; j]%nat).
    { unfold bidx. cbn. rewrite (idx1 a i), (idx1 b j) by auto. destruct (Nat.eqb K 1); reflexivity. }
    rewrite Eb2, bidx_2 by auto. reflexivity.
  Qed.

  (** a single harmonic: every field is decomposed *)
  Lemma stack_constant old (d w : arr T) th ph K a b : shp d = [K; a; b] -> shp w = [a; b] ->
    vshape th = [a; b] -> vshape ph = [a; b] -> th <> VOther -> ph <> VOther ->
    exists r, decomposition Y old (VNd d) (VNd w) th ph 0 = Ok (ZNd r) /\ shp r = [K] /\
      forall k, (k < K)%nat -> get r [k] = entry Y csum (nsum (ravel w)) (layer d k) w (vvalues th) (vvalues ph) a b 0 0.
  Proof.
    intros Hd Hw Ht Hp Nt Np. unfold decomposition. unfold rank. cbn [vshape]. rewrite Hw. cbn [List.length Nat.ltb Nat.leb].
    unfold decomposition_np.
    assert (Et : shp (vvalues th) = [a; b]) by (destruct th; cbn in *; congruence).
    assert (Ep : shp (vvalues ph) = [a; b]) by (destruct ph; cbn in *; congruence).
    unfold np_map2 at 1. rewrite Hd, Hw, bshape_32. cbn [bind].
    destruct (harmonics_3 Y 0 _ _ a b Ep Et) as (h & Eh & Sh & Gh). rewrite Eh. cbn [bind].
    change (count 0) with 1%nat in *.
    unfold np_map2 at 1. cbn [shp amap]. rewrite Sh, bshape_33, bdim_1r. cbn [bind option_map].
    destruct (scale_res_ok Y 0 (nsum (ravel w))) as [Ss Gs]. change (count 0) with 1%nat in *.
    assert (B1 : bshape [K] [1%nat] = Some [K]) by (unfold bshape; cbn [rev app bshape_rev]; rewrite bdim_1r; reflexivity).
    unfold np_map2, sum12. cbn [shp hd tl skipn]. rewrite Ss, B1. cbn [bind]. eexists. split; [reflexivity|]. split; [reflexivity|].
    intros k Hk. cbn [get].
    assert (Z0 : bidx [1%nat] [k] = [pos 0 0]) by reflexivity. rewrite Z0, Gs by lia.
    rewrite bidx_refl by (repeat constructor; auto). unfold entry. f_equal. f_equal.
    cbn [hd shp tl get firstn]. apply map_ext_in. intros ij Hij. apply all_idx_inb in Hij.
    inversion Hij as [|i ? ij' ? Hi Hij']; subst. inversion Hij' as [|j ? ? ? Hj Hn]; subst. inversion Hn; subst.
    cbn [app]. rewrite (bidx_3 K), bidx_1ab by auto. pose proof (Gh 0%nat 0%nat i j (conj (le_n 0) (le_n 0)) Hi Hj) as G0. change (pos 0 0) with 0%nat in G0. rewrite G0.
    cbn [get amap layer]. rewrite (bidx_3 K), bidx_2 by auto. reflexivity.
  Qed.

  Lemma bidx_4 H a b k h i j : (h < H)%nat -> (i < a)%nat -> (j < b)%nat -> bidx [H; a; b] [k; h; i; j] = [h; i; j].
  Proof. intros. unfold bidx. cbn. rewrite (idx1 a i), (idx1 b j), (idx1 H h) by auto. reflexivity. Qed.
  (** coefficients with a second axis *)
  Lemma columns_shape H a b K : bshape [H; a; b] [H; 1; 1; K]%nat = option_map (fun y => [H; H; a; y]) (bdim b K).
  Proof. unfold bshape. cbn [rev app bshape_rev]. rewrite !bdim_1r. destruct (bdim b K); reflexivity. Qed.
  Lemma columns_rejected old (c : arr (T * T)) th ph L K a b : shp c = [count L; K] ->
    vshape th = [a; b] -> vshape ph = [a; b] -> th <> VOther -> ph <> VOther -> K <> b -> K <> 1%nat -> b <> 1%nat ->
    recomposition Y old (ZNd c) th ph L = Err ValueError.
  Proof.
    intros Sc Ht Hp Nt Np K1 K2 K3. unfold recomposition, ndim. rewrite Sc. cbn [List.length Nat.eqb].
    assert (Et : shp (vvalues th) = [a; b]) by (destruct th; cbn in *; congruence).
    assert (Ep : shp (vvalues ph) = [a; b]) by (destruct ph; cbn in *; congruence).
    destruct (harmonics_3 Y L _ _ a b Ep Et) as (h & Eh & Sh & Gh). rewrite Eh. cbn [bind]. unfold recompose.
    assert (Se : shp (expand12 c) = [count L; 1; 1; K]%nat) by (unfold expand12; rewrite Sc; reflexivity).
    unfold np_map2 at 1. cbn [amap shp]. rewrite Sh, Se, columns_shape, bdim_none by auto. reflexivity.
  Qed.
  Lemma bidx_c H K k h i j : (k < H)%nat -> bidx [H; 1; 1; K]%nat [k; h; i; j] = [k; 0; 0; if Nat.eqb K 1 then 0 else j]%nat.
  Proof. intros. unfold bidx. cbn. rewrite (idx1 H k) by auto. reflexivity. Qed.
  (** Not in /repo: what the last lines of recomposition make of column q of the coefficients *)
  Definition column (sum : list T -> T) (c : arr (T * T)) (L n m q : nat) (p t : T) : T :=
    nadd (sum (map (fun k => nmul (fst (Y n m p t)) (fst (get c [k; q]))) (seq 0 (count L))))
         (sum (map (fun k => nmul (snd (Y n m p t)) (snd (get c [k; q]))) (seq 0 (count L)))).
  Lemma columns_ok old (c : arr (T * T)) th ph L K a b : shp c = [count L; K] ->
    vshape th = [a; b] -> vshape ph = [a; b] -> th <> VOther -> ph <> VOther -> (K = 1%nat \/ K = b) ->
    exists r, recomposition Y old (ZNd c) th ph L = Ok (VNd r) /\ shp r = [count L; a; b] /\
      forall n m i j, (m <= n <= L)%nat -> (i < a)%nat -> (j < b)%nat ->
        get r [pos n m; i; j] = column nsum c L n m (if Nat.eqb K 1 then 0 else j)%nat (get (vvalues ph) [i; j]) (get (vvalues th) [i; j]).
  Proof.
    intros Sc Ht Hp Nt Np HK. unfold recomposition, ndim. rewrite Sc. cbn [List.length Nat.eqb].
    assert (Et : shp (vvalues th) = [a; b]) by (destruct th; cbn in *; congruence).
    assert (Ep : shp (vvalues ph) = [a; b]) by (destruct ph; cbn in *; congruence).
    destruct (harmonics_3 Y L _ _ a b Ep Et) as (h & Eh & Sh & Gh). rewrite Eh. cbn [bind]. unfold recompose.
    assert (Se : shp (expand12 c) = [count L; 1; 1; K]%nat) by (unfold expand12; rewrite Sc; reflexivity).
    assert (Bd : bdim b K = Some b) by (destruct HK as [->| ->]; [apply bdim_1r|apply bdim_refl]).
    unfold np_map2 at 1. cbn [amap shp]. rewrite Sh, Se, columns_shape, Bd. cbn [bind option_map].
    unfold np_map2 at 1. cbn [amap shp]. rewrite Sh, Se, columns_shape, Bd. cbn [bind option_map].
    unfold np_map2. cbn [sum0 shp tl]. rewrite bshape_refl. eexists. split; [reflexivity|]. split; [reflexivity|].
    intros n m i j Hnm Hi Hj. pose proof (pos_lt L n m Hnm) as Hk. cbn [get].
    rewrite bidx_refl by (repeat constructor; auto). cbn [hd sum0 get shp]. unfold column.
    assert (Eb : forall k, (k < count L)%nat -> bidx [count L; a; b] [k; pos n m; i; j] = [pos n m; i; j]).
    { intros k Hkk. apply bidx_4; auto. }
    assert (Ec : forall k, (k < count L)%nat -> bidx [count L; 1; 1; K] [k; pos n m; i; j] = [k; 0; 0; if Nat.eqb K 1 then 0 else j]%nat).
    { intros k Hkk. apply bidx_c; auto. }
    f_equal; f_equal; apply map_ext_in; intros k Hkk; apply in_seq in Hkk; rewrite Eb, Ec by lia; cbn [amap get]; rewrite Gh by auto; unfold expand12; rewrite Sc; reflexivity.
  Qed.
  (** two leading axes *)
  Lemma bshape_43 J K H a b : bshape [J; K; a; b] [H; a; b] = option_map (fun k => [J; k; a; b]) (bdim K H).
  Proof. unfold bshape. cbn [rev app bshape_rev]. rewrite !bdim_refl. destruct (bdim K H); reflexivity. Qed.
  Lemma bshape_42 J K a b : bshape [J; K; a; b] [a; b] = Some [J; K; a; b].
  Proof. unfold bshape. cbn [rev app bshape_rev]. rewrite !bdim_refl. reflexivity. Qed.
  Lemma bidx_43 J H a b j k i q : (j < J)%nat -> (k < H)%nat -> (i < a)%nat -> (q < b)%nat -> bidx [J; H; a; b] [j; k; i; q] = [j; k; i; q].
  Proof. intros. unfold bidx. cbn. rewrite (idx1 J j), (idx1 H k), (idx1 a i), (idx1 b q) by auto. reflexivity. Qed.
  Lemma bidx_42 a b j k i q : (i < a)%nat -> (q < b)%nat -> bidx [a; b] [j; k; i; q] = [i; q].
  Proof. intros. unfold bidx. cbn. rewrite (idx1 a i), (idx1 b q) by auto. reflexivity. Qed.
  Lemma double_stack_rejected old (d w : arr T) th ph L J K a b : shp d = [J; K; a; b] -> shp w = [a; b] ->
    vshape th = [a; b] -> vshape ph = [a; b] -> th <> VOther -> ph <> VOther ->
    b <> count L -> b <> 1%nat -> count L <> 1%nat -> decomposition Y old (VNd d) (VNd w) th ph L = Err ValueError.
  Proof.
    intros Hd Hw Ht Hp Nt Np K1 K2 K3. unfold decomposition. unfold rank. cbn [vshape]. rewrite Hw. cbn [List.length Nat.ltb Nat.leb].
    unfold decomposition_np.
    assert (Et : shp (vvalues th) = [a; b]) by (destruct th; cbn in *; congruence).
    assert (Ep : shp (vvalues ph) = [a; b]) by (destruct ph; cbn in *; congruence).
    unfold np_map2 at 1. rewrite Hd, Hw, bshape_42. cbn [bind].
    destruct (harmonics_3 Y L _ _ a b Ep Et) as (h & Eh & Sh & Gh). rewrite Eh. cbn [bind].
    unfold np_map2 at 1. cbn [shp amap]. rewrite Sh, bshape_43. destruct (bdim K (count L)) as [k|]; [|reflexivity]. cbn [bind option_map].
    destruct (scale_res_ok Y L (nsum (ravel w))) as [Ss Gs].
    unfold np_map2, sum12. cbn [shp hd tl skipn]. rewrite Ss.
    assert (Bn : bshape [J; b] [count L] = None) by (unfold bshape; cbn [rev app bshape_rev]; rewrite bdim_none by auto; reflexivity).
    rewrite Bn. reflexivity.
  Qed.
  (** Not in /repo: what is computed for a double stack *)
  Definition mixture (tot : T) (d w th ph : arr T) (L a j n m : nat) : T * T :=
    cmul (csum (map (fun ki => cmul (creal (nmul (get d [j; nth 0 ki 0; nth 1 ki 0; pos n m]%nat) (get w [nth 1 ki 0; pos n m]%nat)))
                                    (let '(n', m') := nth (nth 0 ki 0)%nat (harmonic_pairs L) (0, 0)%nat in
                                     Y n' m' (get ph [nth 1 ki 0; pos n m]%nat) (get th [nth 1 ki 0; pos n m]%nat)))
                   (all_idx [count L; a])))
         (cmul (creal (ofZ (zmult m))) (scale_val Y tot)).
  Lemma double_stack_ok old (d w : arr T) th ph L J a b : shp d = [J; count L; a; b] -> shp w = [a; b] ->
    vshape th = [a; b] -> vshape ph = [a; b] -> th <> VOther -> ph <> VOther -> b = count L ->
    exists r, decomposition Y old (VNd d) (VNd w) th ph L = Ok (ZNd r) /\ shp r = [J; count L] /\
      forall j n m, (j < J)%nat -> (m <= n <= L)%nat ->
        get r [j; pos n m] = mixture (nsum (ravel w)) d w (vvalues th) (vvalues ph) L a j n m.
  Proof.
    intros Hd Hw Ht Hp Nt Np Hb. unfold decomposition. unfold rank. cbn [vshape]. rewrite Hw. cbn [List.length Nat.ltb Nat.leb].
    unfold decomposition_np.
    assert (Et : shp (vvalues th) = [a; b]) by (destruct th; cbn in *; congruence).
    assert (Ep : shp (vvalues ph) = [a; b]) by (destruct ph; cbn in *; congruence).
    unfold np_map2 at 1. rewrite Hd, Hw, bshape_42. cbn [bind].
    destruct (harmonics_3 Y L _ _ a b Ep Et) as (h & Eh & Sh & Gh). rewrite Eh. cbn [bind].
    unfold np_map2 at 1. cbn [shp amap]. rewrite Sh, bshape_43, bdim_refl. cbn [bind option_map].
    destruct (scale_res_ok Y L (nsum (ravel w))) as [Ss Gs].
    assert (Bn : bshape [J; b] [count L] = Some [J; b]) by (unfold bshape; cbn [rev app bshape_rev]; rewrite Hb, bdim_refl; reflexivity).
    unfold np_map2, sum12. cbn [shp hd tl skipn]. rewrite Ss, Bn. eexists. split; [reflexivity|]. split; [cbn [shp]; congruence|].
    intros j n m Hj Hnm. pose proof (pos_lt L n m Hnm) as Hk. cbn [get].
    assert (B2 : bidx [count L] [j; pos n m] = [pos n m]).
    { generalize (count L) (pos n m) Hk. intros c k Hck. unfold bidx. cbn. rewrite (idx1 c k) by auto. reflexivity. }
    rewrite B2, Gs by auto. rewrite bidx_refl by (repeat constructor; auto; lia). unfold mixture. f_equal. f_equal.
    cbn [hd shp tl get firstn]. apply map_ext_in. intros ki Hki. apply all_idx_inb in Hki.
    inversion Hki as [|k ? ij' ? Hkk Hij']; subst. inversion Hij' as [|i ? ? ? Hi Hn]; subst. inversion Hn; subst.
    cbn [app nth]. rewrite (bidx_43 J), (bidx_4 (count L)) by auto. destruct (pos_surj L k Hkk) as (n' & m' & Hnm' & <-).
    rewrite Gh, pairs_nth by auto. cbn [get amap]. rewrite (bidx_43 J), bidx_42 by auto. reflexivity.
  Qed.

  Lemma vshape_vvalues (v : val T) : v <> VOther -> shp (vvalues v) = vshape v.
  Proof. destruct v; auto; intros C; now elim C. Qed.

  Lemma labelled_stack_rejected old (d : da T) (w : arr T) th ph L K a b : List.length (dims d) = 3%nat ->
    shp (dat d) = [K; a; b] -> shp w = [a; b] -> vshape th = [a; b] -> vshape ph = [a; b] -> th <> VOther -> ph <> VOther ->
    (old = true -> K <> a \/ a <> b) ->
    decomposition Y old (VDa d) (VNd w) th ph L = Err ValueError.
  Proof.
    intros Hl Hd Hw Ht Hp Nt Np Ho. unfold decomposition, rank. cbn [vshape]. rewrite Hw. cbn [List.length Nat.ltb Nat.leb].
    unfold decomposition_xr. cbn [scaled_xr]. unfold np_map2 at 1. rewrite Hd, Hw, bshape_32. cbn [bind shp].
    destruct (shape_eqb_spec [K; a; b] [K; a; b]) as [_|C]; [|congruence]. cbn [negb]. cbn [bind dat].
    unfold ndim at 1 2. rewrite Hd. cbn [shp List.length Nat.eqb negb].
    destruct old; cbn [negb andb].
    - destruct (harmonics_3 Y L (vvalues ph) (vvalues th) a b) as (h & Eh & Sh & _); [rewrite vshape_vvalues; auto..|].
      rewrite Eh. cbn [bind]. rewrite Hl, Sh. cbn [Nat.ltb Nat.leb tl shp firstn].
      destruct (shape_eqb_spec [a; b] [K; a]) as [C|_]; [|reflexivity].
      inversion C. destruct (Ho eq_refl); congruence.
    - unfold relabel_ok at 1. rewrite Ht, Hl. cbn [List.length Nat.eqb andb negb]. reflexivity.
  Qed.

  Lemma labelled_stack_any (d : da T) w th ph L z : (2 < List.length (dims d))%nat -> rank th = 2%nat ->
    decomposition Y false (VDa d) w th ph L <> Ok z.
  Proof.
    intros Hl Ht. unfold decomposition. destruct (Nat.ltb (rank w) 2); [discriminate|]. destruct (Nat.ltb 2 (rank w)); [discriminate|].
    unfold decomposition_xr. destruct (scaled_xr d w) as [sd|]; cbn [bind]; [|discriminate].
    destruct (negb (Nat.eqb _ _)); [discriminate|]. unfold relabel_ok at 1. unfold rank in Ht. rewrite Ht.
    rewrite (proj2 (Nat.eqb_neq 2 (List.length (dims d)))) by lia. discriminate.
  Qed.
End G.

Section Fl.
  Local Open Scope R_scope.
  Variables (Y : nat -> nat -> fl -> fl -> fl * fl) (Yr Yi : nat -> nat -> R -> R -> R) (y0 : R).
  Hypothesis HY : sph_oracle Y Yr Yi y0.

  Lemma c134_entry (d w : arr fl) th ph a b k f ww t p n m : th <> VOther -> ph <> VOther -> shp w = [a; b] ->
    (forall i j, (i < a)%nat -> (j < b)%nat -> get d [k; i; j] = Fin (f i j)) -> field (VNd w) a b ww -> field th a b t -> field ph a b p -> gridsum a b ww <> 0 ->
    entry Y csum (nsum (ravel w)) (layer d k) w (vvalues th) (vvalues ph) a b n m =
      (Fin (coefficient a b ww f (fun i j => Yr n m (p i j) (t i j)) y0 m), Fin (coefficient a b ww f (fun i j => Yi n m (p i j) (t i j)) y0 m)).
  Proof.
    intros Nt Np Sw Gd Gw Gt Gp HS.
    assert (Et : nsum (ravel w) = Fin (gridsum a b ww)).
    { change w with (vvalues (VNd w)). rewrite (zval_eta_ravel (VNd w) a b ww); try discriminate; auto. rewrite nsum_fin, rsum_all_idx2. cbn [nth]. reflexivity. }
    rewrite Et. apply (entry_fin Y Yr Yi y0 HY); auto; [intros F G; apply csum_fin|].
    intros i j Hi Hj. split; [apply Gd; auto|]. split; [apply Gw; auto|]. split; apply (field_get _ a b); auto.
  Qed.

  Lemma c134_paired old (d w : arr fl) th ph L K a b (f : nat -> nat -> nat -> R) ww t p :
    shp d = [K; a; b] -> shp w = [a; b] -> vshape th = [a; b] -> vshape ph = [a; b] -> th <> VOther -> ph <> VOther ->
    (forall k i j, (k < K)%nat -> (i < a)%nat -> (j < b)%nat -> get d [k; i; j] = Fin (f k i j)) ->
    field (VNd w) a b ww -> field th a b t -> field ph a b p -> gridsum a b ww <> 0 -> K = count L ->
    exists r, decomposition Y old (VNd d) (VNd w) th ph L = Ok (ZNd r) /\ shp r = [count L] /\
      forall n m, (m <= n <= L)%nat -> get r [pos n m] =
        (Fin (coefficient a b ww (f (pos n m)) (fun i j => Yr n m (p i j) (t i j)) y0 m),
         Fin (coefficient a b ww (f (pos n m)) (fun i j => Yi n m (p i j) (t i j)) y0 m)).
  Proof.
    intros Hd Hw Ht Hp Nt Np Gd Gw Gt Gp HS HK.
    destruct (stack_paired Y old d w th ph L K a b Hd Hw Ht Hp Nt Np (or_intror HK)) as (r & Er & Sr & Gr).
    exists r. split; auto. split; auto. intros n m Hnm. pose proof (pos_lt L n m Hnm) as Hk. rewrite Gr by auto.
    apply c134_entry; auto. intros i j Hi Hj. rewrite <- Gd by (auto; lia). do 2 f_equal.
    destruct (Nat.eqb_spec K 1); [lia|reflexivity].
  Qed.
  Lemma c134_single old (d w : arr fl) th ph L a b (f : nat -> nat -> R) ww t p :
    shp d = [1%nat; a; b] -> shp w = [a; b] -> vshape th = [a; b] -> vshape ph = [a; b] -> th <> VOther -> ph <> VOther ->
    (forall i j, (i < a)%nat -> (j < b)%nat -> get d [0%nat; i; j] = Fin (f i j)) ->
    field (VNd w) a b ww -> field th a b t -> field ph a b p -> gridsum a b ww <> 0 ->
    exists r, decomposition Y old (VNd d) (VNd w) th ph L = Ok (ZNd r) /\ shp r = [count L] /\
      forall n m, (m <= n <= L)%nat -> get r [pos n m] =
        (Fin (coefficient a b ww f (fun i j => Yr n m (p i j) (t i j)) y0 m),
         Fin (coefficient a b ww f (fun i j => Yi n m (p i j) (t i j)) y0 m)).
  Proof.
    intros Hd Hw Ht Hp Nt Np Gd Gw Gt Gp HS.
    destruct (stack_paired Y old d w th ph L 1 a b Hd Hw Ht Hp Nt Np (or_introl eq_refl)) as (r & Er & Sr & Gr).
    exists r. split; auto. split; auto. intros n m Hnm. rewrite Gr by auto. cbn [Nat.eqb]. apply c134_entry; auto.
  Qed.
  Lemma c134_constant old (d w : arr fl) th ph K a b (f : nat -> nat -> nat -> R) ww t p :
    shp d = [K; a; b] -> shp w = [a; b] -> vshape th = [a; b] -> vshape ph = [a; b] -> th <> VOther -> ph <> VOther ->
    (forall k i j, (k < K)%nat -> (i < a)%nat -> (j < b)%nat -> get d [k; i; j] = Fin (f k i j)) ->
    field (VNd w) a b ww -> field th a b t -> field ph a b p -> gridsum a b ww <> 0 ->
    exists r, decomposition Y old (VNd d) (VNd w) th ph 0 = Ok (ZNd r) /\ shp r = [K] /\
      forall k, (k < K)%nat -> get r [k] =
        (Fin (coefficient a b ww (f k) (fun i j => Yr 0%nat 0%nat (p i j) (t i j)) y0 0),
         Fin (coefficient a b ww (f k) (fun i j => Yi 0%nat 0%nat (p i j) (t i j)) y0 0)).
  Proof.
    intros Hd Hw Ht Hp Nt Np Gd Gw Gt Gp HS.
    destruct (stack_constant Y old d w th ph K a b Hd Hw Ht Hp Nt Np) as (r & Er & Sr & Gr).
    exists r. split; auto. split; auto. intros k Hk. rewrite Gr by auto. apply c134_entry; auto.
  Qed.

  Lemma c134_double old (d w : arr fl) th ph L J a b (f : nat -> nat -> nat -> nat -> R) ww t p :
    shp d = [J; count L; a; b] -> shp w = [a; b] -> vshape th = [a; b] -> vshape ph = [a; b] -> th <> VOther -> ph <> VOther -> b = count L ->
    (forall j k i q, (j < J)%nat -> (k < count L)%nat -> (i < a)%nat -> (q < b)%nat -> get d [j; k; i; q] = Fin (f j k i q)) ->
    field (VNd w) a b ww -> field th a b t -> field ph a b p -> gridsum a b ww <> 0 ->
    exists r, decomposition Y old (VNd d) (VNd w) th ph L = Ok (ZNd r) /\ shp r = [J; count L] /\
      forall j n m q, (j < J)%nat -> (m <= n <= L)%nat -> q = pos n m ->
        get r [j; q] =
        (Fin (mult m * harmsum L (fun n' m' => bigsum a (fun i => f j (pos n' m') i q * ww i q * Yr n' m' (p i q) (t i q))) / (gridsum a b ww * (y0 * y0))),
         Fin (mult m * harmsum L (fun n' m' => bigsum a (fun i => f j (pos n' m') i q * ww i q * Yi n' m' (p i q) (t i q))) / (gridsum a b ww * (y0 * y0)))).
  Proof.
    intros Hd Hw Ht Hp Nt Np Hb Gd Gw Gt Gp HS.
    destruct (double_stack_ok Y old d w th ph L J a b Hd Hw Ht Hp Nt Np Hb) as (r & Er & Sr & Gr).
    exists r. split; auto. split; auto. intros j n m q Hj Hnm ->. pose proof (pos_lt L n m Hnm) as Hk. rewrite Gr by auto.
    assert (Et : nsum (ravel w) = Fin (gridsum a b ww)).
    { change w with (vvalues (VNd w)). rewrite (zval_eta_ravel (VNd w) a b ww); try discriminate; auto. rewrite nsum_fin, rsum_all_idx2. cbn [nth]. reflexivity. }
    unfold mixture. rewrite Et, (scale_val_fin Y Yr Yi y0 HY) by auto. change (ofZ (zmult m)) with (Fin (IZR (zmult m))). rewrite creal_fin, cmul_fin, IZR_zmult.
    set (q := pos n m). assert (Hq : (q < b)%nat) by (unfold q; lia).
    set (F := fun (y : nat -> nat -> R -> R -> R) (k i : nat) => let '(n', m') := nth k (harmonic_pairs L) (0, 0)%nat in f j k i q * ww i q * y n' m' (p i q) (t i q)).
    erewrite map_ext_in with (g := fun ki => (Fin ((fun ki => F Yr (nth 0 ki 0%nat) (nth 1 ki 0%nat)) ki), Fin ((fun ki => F Yi (nth 0 ki 0%nat) (nth 1 ki 0%nat)) ki))).
    2:{ intros ki Hki. apply all_idx_inb in Hki.
        inversion Hki as [|k ? ij' ? Hkk Hij']; subst. inversion Hij' as [|i ? ? ? Hi Hn]; subst. inversion Hn; subst. cbn [nth].
        rewrite Gd by auto. assert (Gwq : get w [i; q] = Fin (ww i q)) by (apply (Gw i q); auto). rewrite Gwq. unfold F.
        destruct (nth k (harmonic_pairs L) (0, 0)%nat) as [n' m'].
        rewrite (field_get ph a (count L) p), (field_get th a (count L) t) by auto. rewrite (so_fin _ _ _ _ HY).
        change (nmul (Fin (f j k i q)) (Fin (ww i q))) with (Fin (f j k i q * ww i q)). rewrite creal_fin, cmul_fin.
        apply f_equal2; apply f_equal; ring. }
    rewrite csum_fin, !rsum_all_idx2. cbn [nth]. rewrite cmul_fin.
    assert (EF : forall y, gridsum (count L) a (F y) = harmsum L (fun n' m' => bigsum a (fun i => f j (pos n' m') i q * ww i q * y n' m' (p i q) (t i q)))).
    { intros y. unfold gridsum. rewrite <- rsum_seq0, (map_pairs L _ (fun nm => bigsum a (fun i => f j (pos (fst nm) (snd nm)) i q * ww i q * y (fst nm) (snd nm) (p i q) (t i q)))).
      - rewrite (harmsum_pairs L (fun n' m' => bigsum a (fun i => f j (pos n' m') i q * ww i q * y n' m' (p i q) (t i q)))). reflexivity.
      - intros n' m' Hnm'. apply bigsum_ext. intros i Hi. unfold F. rewrite pairs_nth by auto. reflexivity. }
    rewrite <- !EF. pose proof (so_nz _ _ _ _ HY) as Hy.
    change (gridsum (count L) a (fun i j0 => F Yr i j0)) with (gridsum (count L) a (F Yr)). change (gridsum (count L) a (fun i j0 => F Yi i j0)) with (gridsum (count L) a (F Yi)).
    apply f_equal2; apply f_equal; field; auto.
  Qed.

  Lemma c134_columns old (c : arr (fl * fl)) th ph L K a b t p (cr ci : nat -> nat -> R) :
    shp c = [count L; K] -> vshape th = [a; b] -> vshape ph = [a; b] -> th <> VOther -> ph <> VOther ->
    field th a b t -> field ph a b p -> (forall k q, (k < count L)%nat -> (q < K)%nat -> get c [k; q] = (Fin (cr k q), Fin (ci k q))) ->
    (K = 1%nat \/ K = b) ->
    exists r, recomposition Y old (ZNd c) th ph L = Ok (VNd r) /\ shp r = [count L; a; b] /\
      forall n m i j q, (m <= n <= L)%nat -> (i < a)%nat -> (j < b)%nat -> q = (if Nat.eqb K 1 then 0 else j)%nat ->
        get r [pos n m; i; j] = Fin (Yr n m (p i j) (t i j) * bigsum (count L) (fun k => cr k q) + Yi n m (p i j) (t i j) * bigsum (count L) (fun k => ci k q)).
  Proof.
    intros Sc Ht Hp Nt Np Gt Gp Gc HK. destruct (columns_ok Y old c th ph L K a b Sc Ht Hp Nt Np HK) as (r & Er & Sr & Gr).
    exists r. split; auto. split; auto. intros n m i j q Hnm Hi Hj ->. rewrite Gr by auto. set (q := if Nat.eqb K 1 then 0%nat else j).
    assert (Hq : (q < K)%nat) by (unfold q; destruct HK as [->| ->]; [cbn; lia|destruct (Nat.eqb b 1); lia]).
    unfold column. rewrite (field_get ph a b p), (field_get th a b t) by auto. rewrite (so_fin _ _ _ _ HY). cbn [fst snd].
    rewrite (map_ext_in (fun k => nmul (Fin (Yr n m (p i j) (t i j))) (fst (get c [k; q]))) (fun k => Fin (Yr n m (p i j) (t i j) * cr k q)))
      by (intros k Hk; apply in_seq in Hk; rewrite Gc by lia; reflexivity).
    rewrite (map_ext_in (fun k => nmul (Fin (Yi n m (p i j) (t i j))) (snd (get c [k; q]))) (fun k => Fin (Yi n m (p i j) (t i j) * ci k q)))
      by (intros k Hk; apply in_seq in Hk; rewrite Gc by lia; reflexivity).
    rewrite <- (map_map (fun k => Yr n m (p i j) (t i j) * cr k q) Fin), <- (map_map (fun k => Yi n m (p i j) (t i j) * ci k q) Fin), !nsum_fin, !rsum_seq0.
    rewrite !bigsum_scal. reflexivity.
  Qed.
End Fl.
