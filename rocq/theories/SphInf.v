(** Spherical decomposition of fields with infinite values. *)
From Coq Require Import Reals List Bool Arith ZArith Lia Lra String.
From Verif Require Import PyBase Num Arr NumFacts ArrFacts CellFacts Hybrid HybridFacts GradFacts Spherical SpecSum SumFacts SpecGrad SpecSph SphFacts SphApi SphMore XrFacts PsiApi.
Import ListNotations.
Local Open Scope R_scope.

Lemma nf_add x y : not_finite x \/ not_finite y -> not_finite (fl_add x y).
Proof. intros [H|H] r; destruct x as [u| | |], y as [v| | |]; cbn; try discriminate; exfalso; exact (H _ eq_refl). Qed.
Lemma nf_fold l acc : not_finite acc \/ (exists x, In x l /\ not_finite x) -> not_finite (fold_left fl_add l acc).
Proof.
  revert acc. induction l as [|y l IH]; intros acc H; cbn.
  - destruct H as [H|(x & [] & _)]. exact H.
  - apply IH. destruct H as [H|(x & [->|Hi] & H)]; [left; apply nf_add; auto|left; apply nf_add; auto|right; eauto].
Qed.
Lemma nf_sum l x : In x l -> not_finite x -> not_finite (nsum l).
Proof. intros Hi Hx. unfold nsum. apply nf_fold. right. eauto. Qed.
Lemma nf_mul x r : not_finite x -> not_finite (fl_mul x (Fin r)).
Proof.
  intros H v. destruct x as [u| | |]; cbn; try discriminate; [exfalso; exact (H _ eq_refl)| |];
    unfold fl_infsgn; destruct (Req_EM_T _ _); try discriminate; destruct (Rlt_dec _ _); discriminate.
Qed.
Lemma nf_mul0 x : not_finite x -> fl_mul x (Fin 0) = NaN.
Proof.
  intros H. destruct x as [u| | |]; cbn; try reflexivity; [exfalso; exact (H _ eq_refl)| |];
    unfold fl_infsgn; destruct (Req_EM_T _ _); try lra; reflexivity.
Qed.
(** the final multiplication by the real factor held as a complex number *)
Lemma nf_cmul x y s : not_finite x -> not_finite y -> cmul (x, y) (Fin s, Fin 0) = (NaN, NaN).
Proof.
  intros Hx Hy. unfold cmul. cbn [fst snd]. change (@nmul fl NumFl) with fl_mul. change (@nadd fl NumFl) with fl_add. change (@nsub fl NumFl) with fl_sub.
  rewrite !(nf_mul0 x), !(nf_mul0 y) by auto. apply f_equal2; [destruct (fl_mul x (Fin s)); reflexivity|reflexivity].
Qed.
(** a product of a value that is not finite with a harmonic *)
Lemma nf_term x yr yi : not_finite x -> not_finite (fst (cmul (creal x) (Fin yr, Fin yi))) /\ not_finite (snd (cmul (creal x) (Fin yr, Fin yi))).
Proof.
  intros Hx. unfold cmul, creal. cbn [fst snd]. change (@nmul fl NumFl) with fl_mul. change (@nadd fl NumFl) with fl_add. change (@nsub fl NumFl) with fl_sub. change (ofZ 0) with (Fin 0).
  cbn [fl_mul]. split.
  - pose proof (nf_mul x yr Hx) as H. intros r E. destruct (fl_mul x (Fin yr)) as [u| | |]; cbn in E; try discriminate. exact (H _ eq_refl).
  - apply nf_add. left. apply nf_mul. auto.
Qed.
(** skipped when NaN, or infinite at a point where one part of the harmonic vanishes *)
Lemma term_skipped x yr yi : not_finite x -> x = NaN \/ yr = 0 \/ yi = 0 -> cisnan (cmul (creal x) (Fin yr, Fin yi)) = true.
Proof.
  intros Hx H. unfold cisnan, cmul, creal. cbn [fst snd]. change (@nmul fl NumFl) with fl_mul. change (@nadd fl NumFl) with fl_add. change (@nsub fl NumFl) with fl_sub. change (ofZ 0) with (Fin 0).
  cbn [fl_mul]. destruct H as [->|[->| ->]]; [reflexivity| |]; rewrite (nf_mul0 x Hx); [reflexivity|]. apply orb_true_iff. right. reflexivity.
Qed.
Lemma term_kept x yr yi : x = PInf \/ x = NInf -> yr <> 0 -> yi <> 0 -> cisnan (cmul (creal x) (Fin yr, Fin yi)) = false.
Proof.
  intros H A B. unfold cisnan, cmul, creal. cbn [fst snd]. change (@nmul fl NumFl) with fl_mul. change (@nadd fl NumFl) with fl_add. change (@nsub fl NumFl) with fl_sub. change (ofZ 0) with (Fin 0).
  destruct H as [->| ->]; cbn [fl_mul]; unfold fl_infsgn; repeat destruct (Req_EM_T _ _); repeat destruct (Rlt_dec _ _); try lra; reflexivity.
Qed.
Lemma inf_mul x w : x = PInf \/ x = NInf -> w <> 0 -> fl_mul x (Fin w) = PInf \/ fl_mul x (Fin w) = NInf.
Proof. intros [->| ->] H; cbn; unfold fl_infsgn; repeat destruct (Req_EM_T _ _); repeat destruct (Rlt_dec _ _); try lra; auto. Qed.

Section Inf.
  Variables (Y : nat -> nat -> fl -> fl -> fl * fl) (Yr Yi : nat -> nat -> R -> R -> R) (y0 : R).
  Hypothesis HY : sph_oracle Y Yr Yi y0.

  Lemma scale_fin m tot : tot <> 0 -> exists s, cmul (creal (ofZ (zmult m))) (scale_val Y (Fin tot)) = (Fin s, Fin 0).
  Proof.
    intros H. rewrite (scale_val_fin Y Yr Yi y0 HY) by auto. change (ofZ (zmult m)) with (Fin (IZR (zmult m))). rewrite creal_fin, cmul_fin.
    eexists. apply f_equal2; apply f_equal; [reflexivity|ring].
  Qed.

  Lemma c136_plain old d x th ph L a b ww t p i j :
    same_grid a b (VNd d) (VNd x) th ph -> field (VNd x) a b ww -> field th a b t -> field ph a b p -> gridsum a b ww <> 0 ->
    (i < a)%nat -> (j < b)%nat -> not_finite (cell (VNd d) i j) ->
    exists z, decomposition Y old (VNd d) (VNd x) th ph L = Ok z /\ zlen z = [count L] /\
      forall k, (k < count L)%nat -> zcell z k = (NaN, NaN).
  Proof.
    intros Hg Hw Ht Hp HS Hi Hj Hn. inversion Hg as [d' x' E E' Sd Sx St Sp Nt Np|? E]; [|discriminate]. injection E as <-. injection E' as <-.
    destruct (decomposition_np_ok Y old d x th ph L a b Sd Sx St Sp Nt Np) as (r & Er & Sr & Gr).
    exists (ZNd r). split; auto. split; auto. intros k Hk. destruct (pos_surj L k Hk) as (n & m & Hnm & <-). cbn [zcell]. rewrite Gr by auto.
    assert (Et : nsum (ravel x) = Fin (gridsum a b ww)).
    { change x with (vvalues (VNd x)). rewrite (zval_eta_ravel (VNd x) a b ww); try discriminate; auto. rewrite nsum_fin, rsum_all_idx2. cbn [nth]. reflexivity. }
    unfold entry. rewrite Et. destruct (scale_fin m _ HS) as (s & Es). rewrite Es.
    set (l := map _ (all_idx [a; b])). set (u := cmul (creal (nmul (cell (VNd d) i j) (Fin (ww i j)))) (Fin (Yr n m (p i j) (t i j)), Fin (Yi n m (p i j) (t i j)))).
    assert (Hin : In u l).
    { unfold l. apply in_map_iff. exists [i; j]. split; [|apply all_idx_inb, inb2; auto].
      rewrite (field_get ph a b p), (field_get th a b t), (so_fin _ _ _ _ HY) by auto.
      assert (Gx : get x [i; j] = Fin (ww i j)) by (apply (Hw i j); auto). rewrite Gx. reflexivity. }
    assert (Nf : not_finite (nmul (cell (VNd d) i j) (Fin (ww i j)))) by (apply (nf_mul (cell (VNd d) i j) (ww i j)); exact Hn).
    destruct (nf_term _ (Yr n m (p i j) (t i j)) (Yi n m (p i j) (t i j)) Nf) as [H1 H2]. fold u in H1, H2.
    unfold csum. apply nf_cmul; [apply (nf_sum _ (fst u))|apply (nf_sum _ (snd u))]; auto; apply in_map; auto.
  Qed.

  (** labelled data: [valid] marks the finite values *)
  Lemma c136_labelled old data w th ph L a b f ww t p (valid : nat -> nat -> bool) d : data = VDa d ->
    same_grid a b data w th ph ->
    (forall i j, (i < a)%nat -> (j < b)%nat -> if valid i j then cell data i j = Fin (f i j) else not_finite (cell data i j)) ->
    field w a b ww -> field th a b t -> field ph a b p -> gridsum a b ww <> 0 ->
    exists z, decomposition Y old data w th ph L = Ok z /\ zlen z = [count L] /\
      forall n m, (m <= n <= L)%nat ->
        ((forall i j, (i < a)%nat -> (j < b)%nat -> valid i j = false ->
            cell data i j = NaN \/ ww i j = 0 \/ Yr n m (p i j) (t i j) = 0 \/ Yi n m (p i j) (t i j) = 0) ->
         zcell z (pos n m) = (Fin (coefficient a b ww (fun i j => if valid i j then f i j else 0) (fun i j => Yr n m (p i j) (t i j)) y0 m),
                              Fin (coefficient a b ww (fun i j => if valid i j then f i j else 0) (fun i j => Yi n m (p i j) (t i j)) y0 m))) /\
        ((exists i j, (i < a)%nat /\ (j < b)%nat /\ (cell data i j = PInf \/ cell data i j = NInf) /\ ww i j <> 0 /\
            Yr n m (p i j) (t i j) <> 0 /\ Yi n m (p i j) (t i j) <> 0) ->
         zcell z (pos n m) = (NaN, NaN)).
  Proof.
    intros Ed Hg Hf Hw Ht Hp HS. destruct Hg as [d' x' E E' Sd Sx St Sp Nt Np|d' E Wd Sd Hwf Ht' Hp']; [congruence|].
    assert (d' = d) by congruence. subst d'. clear E. subst data.
    destruct (decomposition_xr_ok Y old d w th ph L a b Wd Sd Hwf Ht' Hp') as (r & Er & Dr & Sr & Gr).
    exists (ZDa r). split; auto. split; auto. intros n m Hnm. cbn [zcell]. rewrite Gr by auto.
    assert (Ll : List.length (dims d) = List.length [a; b]) by (destruct Wd as [Wl _]; rewrite Wl, Sd; reflexivity).
    destruct (on_grid_ok (dims d) [a; b] th (proj2 Wd) Ll Ht') as (_ & _ & _ & Nt).
    destruct (on_grid_ok (dims d) [a; b] ph (proj2 Wd) Ll Hp') as (_ & _ & _ & Np).
    assert (Vw : vshape w = [a; b] /\ w <> VOther).
    { destruct w as [x|x|x|]; cbn in Hwf |- *; [split; congruence| | |contradiction]; destruct Hwf as (_ & _ & _ & Hs & _); split; congruence. }
    destruct Vw as [Vw Nw].
    assert (Etot : total_of w = Fin (gridsum a b ww)).
    { pose proof (zval_eta_ravel w a b ww Nw Vw Hw) as Er'.
      assert (G : nansum (ravel (vvalues w)) = Fin (gridsum a b ww)) by (rewrite Er', nansum_fin, rsum_all_idx2; reflexivity).
      assert (G' : nsum (ravel (vvalues w)) = Fin (gridsum a b ww)) by (rewrite Er', nsum_fin, rsum_all_idx2; reflexivity).
      destruct w as [x|x|x|]; cbn [total_of]; auto. }
    rewrite Etot. split.
    - intros Hbad.
      set (d0 := mkArr [a; b] (fun ij => Fin (if valid (nth 0 ij 0%nat) (nth 1 ij 0%nat) then f (nth 0 ij 0%nat) (nth 1 ij 0%nat) else 0))).
      rewrite <- (entry_fin Y Yr Yi y0 HY cnansum d0 (vvalues w) (vvalues th) (vvalues ph) a b _ ww t p n m); auto.
      2:{ intros F G. apply cnansum_fin. }
      2:{ intros i j Hi Hj. split; [reflexivity|]. repeat split; apply (field_get _ a b); auto. }
      unfold entry. f_equal. unfold cnansum. f_equal. rewrite !map_map. apply map_ext_in. intros ij Hij. apply all_idx_inb in Hij.
      inversion Hij as [|i ? ij' ? Hi Hij']; subst. inversion Hij' as [|j ? ? ? Hj Hn]; subst. inversion Hn; subst.
      rewrite (field_get w a b ww), (field_get ph a b p), (field_get th a b t), (so_fin _ _ _ _ HY) by auto.
      pose proof (Hf i j Hi Hj) as E. pose proof (Hbad i j Hi Hj) as Eb. cbn [cell] in E, Eb. unfold d0. cbn [get nth].
      destruct (valid i j); [rewrite E; auto|]. specialize (Eb eq_refl).
      rewrite (term_skipped (nmul (get (dat d) [i; j]) (Fin (ww i j)))).
      + unfold cmul, creal, cisnan. cbn. apply f_equal2; apply f_equal; ring.
      + exact (nf_mul (get (dat d) [i; j]) (ww i j) E).
      + destruct Eb as [->|[Hz|H]]; [left; reflexivity| |right; exact H]. rewrite Hz. left. exact (nf_mul0 (get (dat d) [i; j]) E).
    - intros (i & j & Hi & Hj & Hinf & Hw0 & Hr & Hm).
      unfold entry. destruct (scale_fin m _ HS) as (s & Es). rewrite Es.
      set (u := cmul (creal (nmul (get (dat d) [i; j]) (Fin (ww i j)))) (Fin (Yr n m (p i j) (t i j)), Fin (Yi n m (p i j) (t i j)))).
      cbn [cell] in Hinf.
      assert (Hprod : nmul (get (dat d) [i; j]) (Fin (ww i j)) = PInf \/ nmul (get (dat d) [i; j]) (Fin (ww i j)) = NInf) by exact (inf_mul (get (dat d) [i; j]) (ww i j) Hinf Hw0).
      assert (Nf : not_finite (nmul (get (dat d) [i; j]) (Fin (ww i j)))) by (intros q; destruct Hprod as [-> | ->]; discriminate).
      destruct (nf_term _ (Yr n m (p i j) (t i j)) (Yi n m (p i j) (t i j)) Nf) as [H1 H2]. fold u in H1, H2.
      unfold cnansum. set (l := map _ (map _ (all_idx [a; b]))).
      assert (Hin : In u l).
      { unfold l. rewrite map_map. apply in_map_iff. exists [i; j]. split; [|apply all_idx_inb, inb2; auto].
        rewrite (field_get w a b ww), (field_get ph a b p), (field_get th a b t), (so_fin _ _ _ _ HY) by auto.
        rewrite term_kept by auto. reflexivity. }
      unfold csum. apply nf_cmul; [apply (nf_sum _ (fst u))|apply (nf_sum _ (snd u))]; auto; apply in_map; auto.
  Qed.
  (** harmonics with m = 0 are real *)
  Lemma c136_zonal old data w th ph L a b f ww t p (valid : nat -> nat -> bool) d : data = VDa d ->
    same_grid a b data w th ph ->
    (forall i j, (i < a)%nat -> (j < b)%nat -> if valid i j then cell data i j = Fin (f i j) else not_finite (cell data i j)) ->
    field w a b ww -> field th a b t -> field ph a b p -> gridsum a b ww <> 0 ->
    exists z, decomposition Y old data w th ph L = Ok z /\ zlen z = [count L] /\
      forall n, (n <= L)%nat ->
        exists im, zcell z (pos n 0) = (Fin (coefficient a b ww (fun i j => if valid i j then f i j else 0) (fun i j => Yr n 0%nat (p i j) (t i j)) y0 0), Fin im).
  Proof.
    intros Ed Hg Hf Hw Ht Hp HS. destruct (c136_labelled old data w th ph L a b f ww t p valid d Ed Hg Hf Hw Ht Hp HS) as (z & Ez & Sz & Gz).
    exists z. split; auto. split; auto. intros n Hn. eexists. apply Gz; [lia|]. intros i j _ _ _. right. right. right. apply (so_real _ _ _ _ HY).
  Qed.
End Inf.
