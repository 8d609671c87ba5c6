(** Missing values, wrong coefficient counts and Voronoi weights. *)
From Coq Require Import Reals List Bool Arith ZArith Lia Lra String.
From Verif Require Import PyBase Num Arr NumFacts ArrFacts CellFacts Hybrid HybridFacts GradFacts Spherical SpecSum SumFacts SpecGrad SpecSph SphFacts SphApi XrFacts PsiApi.
Import ListNotations.
Local Open Scope R_scope.

Lemma fold_add_nan l : fold_left fl_add l NaN = NaN.
Proof. induction l; cbn; auto. Qed.
Lemma fl_add_nan_r x : fl_add x NaN = NaN. Proof. destruct x; reflexivity. Qed.
Lemma nsum_nan l : In NaN l -> nsum l = NaN.
Proof.
  unfold nsum. change (ofZ 0) with (Fin 0). change (@nadd fl NumFl) with fl_add. generalize (Fin 0).
  induction l as [|x l IH]; intros acc H; [destruct H|]. cbn. destruct H as [->|H]; auto. rewrite fl_add_nan_r. apply fold_add_nan.
Qed.

Section More.
  Variables (Y : nat -> nat -> fl -> fl -> fl * fl) (Yr Yi : nat -> nat -> R -> R -> R) (y0 : R).
  Hypothesis HY : sph_oracle Y Yr Yi y0.

  Lemma c74_plain old d x th ph L a b t p i j :
    same_grid a b (VNd d) (VNd x) th ph -> field th a b t -> field ph a b p ->
    (i < a)%nat -> (j < b)%nat -> cell (VNd d) i j = NaN ->
    exists z, decomposition Y old (VNd d) (VNd x) th ph L = Ok z /\ zlen z = [count L] /\
      forall k, (k < count L)%nat -> zcell z k = (NaN, NaN).
  Proof.
    intros Hg Ht Hp Hi Hj Hn. inversion Hg as [d' x' E E' Sd Sx St Sp Nt Np|? E]; [|discriminate]. injection E as <-. injection E' as <-.
    destruct (decomposition_np_ok Y old d x th ph L a b Sd Sx St Sp Nt Np) as (r & Er & Sr & Gr).
    exists (ZNd r). split; auto. split; auto. intros k Hk. destruct (pos_surj L k Hk) as (n & m & Hnm & <-). cbn [zcell]. rewrite Gr by auto.
    unfold entry. set (l := map _ (all_idx [a; b])).
    assert (Hin : In (NaN, NaN) l).
    { unfold l. apply in_map_iff. exists [i; j]. split; [|apply all_idx_inb, inb2; auto].
      cbn [cell] in Hn. rewrite Hn, (field_get ph a b p), (field_get th a b t), (so_fin _ _ _ _ HY) by auto. reflexivity. }
    assert (E1 : csum l = (NaN, NaN)).
    { unfold csum. rewrite !nsum_nan; auto; apply in_map_iff; exists (NaN, NaN); auto. }
    rewrite E1. unfold cmul. cbn. reflexivity.
  Qed.

  Lemma c74_labelled old data w th ph L a b f ww t p (valid : nat -> nat -> bool) d : data = VDa d ->
    same_grid a b data w th ph -> (forall i j, (i < a)%nat -> (j < b)%nat -> cell data i j = if valid i j then Fin (f i j) else NaN) ->
    field w a b ww -> field th a b t -> field ph a b p -> gridsum a b ww <> 0 ->
    exists z, decomposition Y old data w th ph L = Ok z /\ zlen z = [count L] /\
      forall n m, (m <= n <= L)%nat ->
        zcell z (pos n m) = (Fin (coefficient a b ww (fun i j => if valid i j then f i j else 0) (fun i j => Yr n m (p i j) (t i j)) y0 m),
                             Fin (coefficient a b ww (fun i j => if valid i j then f i j else 0) (fun i j => Yi n m (p i j) (t i j)) y0 m)).
  Proof.
    intros Ed Hg Hf Hw Ht Hp HS. destruct Hg as [d' x' E E' Sd Sx St Sp Nt Np|d' E Wd Sd Hwf Ht' Hp']; [congruence|].
    assert (d' = d) by congruence. subst d'. clear E. subst data.
    destruct (decomposition_xr_ok Y old d w th ph L a b Wd Sd Hwf Ht' Hp') as (r & Er & Dr & Sr & Gr).
    exists (ZDa r). split; auto. split; auto. intros n m Hnm. cbn [zcell]. rewrite Gr by auto.
    assert (Ll : List.length (dims d) = List.length [a; b]) by (destruct Wd as [Wl _]; rewrite Wl, Sd; reflexivity).
    destruct (on_grid_ok (dims d) [a; b] th (proj2 Wd) Ll Ht') as (_ & _ & _ & Nt).
    destruct (on_grid_ok (dims d) [a; b] ph (proj2 Wd) Ll Hp') as (_ & _ & _ & Np).
    assert (Vw : vshape w = [a; b] /\ w <> VOther).
    { destruct w as [x|x|x|]; cbn in Hwf |- *; [split; congruence| | |contradiction]; destruct Hwf as (_ & _ & _ & Hs & _); split; congruence. }
    destruct Vw as [Vw Nw].
    assert (Etot : total_of w = Fin (gridsum a b ww)).
    { pose proof (zval_eta_ravel w a b ww Nw Vw Hw) as Er'.
      assert (G : nansum (ravel (vvalues w)) = Fin (gridsum a b ww)) by (rewrite Er', nansum_fin, rsum_all_idx2; reflexivity).
      assert (G' : nsum (ravel (vvalues w)) = Fin (gridsum a b ww)) by (rewrite Er', nsum_fin, rsum_all_idx2; reflexivity).
      destruct w as [x|x|x|]; cbn [total_of]; auto. }
    rewrite Etot.
    set (d0 := mkArr [a; b] (fun ij => Fin (if valid (nth 0 ij 0%nat) (nth 1 ij 0%nat) then f (nth 0 ij 0%nat) (nth 1 ij 0%nat) else 0))).
    rewrite <- (entry_fin Y Yr Yi y0 HY cnansum d0 (vvalues w) (vvalues th) (vvalues ph) a b _ ww t p n m); auto.
    2:{ intros F G. apply cnansum_fin. }
    2:{ intros i j Hi Hj. split; [reflexivity|]. repeat split; apply (field_get _ a b); auto. }
    unfold entry. f_equal. unfold cnansum. f_equal. rewrite !map_map. apply map_ext_in. intros ij Hij. apply all_idx_inb in Hij.
    inversion Hij as [|i ? ij' ? Hi Hij']; subst. inversion Hij' as [|j ? ? ? Hj Hn]; subst. inversion Hn; subst.
    rewrite (field_get w a b ww), (field_get ph a b p), (field_get th a b t), (so_fin _ _ _ _ HY) by auto.
    pose proof (Hf i j Hi Hj) as E. cbn [cell] in E. rewrite E. unfold d0. cbn [get nth].
    destruct (valid i j); auto. unfold cmul, creal, cisnan. cbn. apply f_equal2; apply f_equal; ring.
  Qed.

  (** C75 *)
  Lemma bdim_bad x y : x <> y -> x <> 1%nat -> y <> 1%nat -> bdim x y = None.
  Proof. intros A B C. unfold bdim. destruct (Nat.eqb_spec x y), (Nat.eqb_spec x 1), (Nat.eqb_spec y 1); congruence. Qed.
  Lemma c75_plain_rejects old c th ph L a b l :
    shp c = [l] -> vshape th = [a; b] -> vshape ph = [a; b] -> th <> VOther -> ph <> VOther ->
    l <> count L -> l <> 1%nat -> L <> 0%nat -> recomposition Y old (ZNd c) th ph L = Err ValueError.
  Proof.
    intros Sc Ht Hp Nt Np Hl H1 HL. unfold recomposition, ndim. rewrite Sc. cbn [List.length Nat.eqb].
    assert (Et : shp (vvalues th) = [a; b]) by (destruct th; cbn in *; congruence).
    assert (Ep : shp (vvalues ph) = [a; b]) by (destruct ph; cbn in *; congruence).
    destruct (harmonics_3 Y L _ _ a b Ep Et) as (h & Eh & Sh & Gh). rewrite Eh. cbn [bind]. unfold recompose.
    unfold np_map2 at 1. cbn [amap shp]. rewrite Sh. unfold expand12. rewrite Sc. cbn [shp].
    assert (H2 : count L <> 1%nat).
    { destruct L as [|L]; [congruence|]. assert (H := pos_lt (S L) (S L) (S L) ltac:(lia)). rewrite pos_S in H. lia. }
    unfold bshape. cbn [rev app bshape_rev]. rewrite !bdim_1r, bdim_bad by auto. reflexivity.
  Qed.
  Lemma c75_plain_single old c th ph L a b t p cr ci :
    shp c = [1%nat] -> vshape th = [a; b] -> vshape ph = [a; b] -> th <> VOther -> ph <> VOther ->
    field th a b t -> field ph a b p -> get c [0%nat] = (Fin cr, Fin ci) ->
    exists r, recomposition Y old (ZNd c) th ph L = Ok r /\
      field r a b (fun i j => harmsum L (fun n m => Yr n m (p i j) (t i j) * cr + Yi n m (p i j) (t i j) * ci)).
  Proof.
    intros Sc St Sp Nt Np Ft Fp Hc.
    set (c' := mkArr [count L] (fun _ => (Fin cr, Fin ci))).
    unfold recomposition, ndim. rewrite Sc. cbn [List.length Nat.eqb].
    assert (Et : shp (vvalues th) = [a; b]) by (destruct th; cbn in *; congruence).
    assert (Ep : shp (vvalues ph) = [a; b]) by (destruct ph; cbn in *; congruence).
    destruct (harmonics_3 Y L _ _ a b Ep Et) as (h & Eh & Sh & Gh). rewrite Eh. cbn [bind]. unfold recompose.
    assert (B1 : bshape [count L; a; b] [1; 1; 1]%nat = Some [count L; a; b]).
    { unfold bshape. cbn [rev app bshape_rev]. rewrite !bdim_1r. reflexivity. }
    assert (Se : shp (expand12 c) = [1; 1; 1]%nat) by (unfold expand12; rewrite Sc; reflexivity).
    unfold np_map2 at 1. cbn [amap shp]. rewrite Sh, Se, B1. cbn [bind].
    unfold np_map2 at 1. cbn [amap shp]. rewrite Sh, Se, B1. cbn [bind].
    unfold np_map2. cbn [sum0 shp tl]. rewrite bshape_refl. cbn [bind]. eexists. split; [reflexivity|].
    intros i j Hi Hj. cbn [cell get]. rewrite bidx_refl by (apply inb2; auto). cbn [hd sum0 get shp].
    etransitivity; [|apply (point_fin Y Yr Yi y0 HY nsum c' L (p i j) (t i j) (fun _ _ => cr) (fun _ _ => ci)); [apply nsum_fin|reflexivity]].
    unfold point.
    f_equal; f_equal; apply map_pairs; intros n m Hnm; pose proof (pos_lt L n m Hnm) as Hk; cbn [fst snd];
      rewrite bidx_3 by auto; cbn [amap get]; rewrite Gh by auto; rewrite (field_get ph a b p), (field_get th a b t) by auto;
      unfold expand12; rewrite Sc; cbn; rewrite Hc; reflexivity.
  Qed.
  Lemma c75_labelled c th ph L a b l :
    shp (dat c) = [l] -> shp (dat th) = [a; b] -> List.length (dims th) = 2%nat -> vshape ph = [a; b] -> plain_labels ph -> ~ In "harmonic"%string (dims th) ->
    l <> count L -> recomposition Y false (ZDa c) (VDa th) ph L = Err ValueError.
  Proof.
    intros Sc Ht Hd Hp Xp Hn Hl. unfold recomposition, ndim. rewrite Sc. cbn [List.length Nat.eqb Nat.ltb Nat.leb].
    rewrite (proj2 (smem_false _ _) Hn). cbn [negb andb].
    replace (is_xr ph) with true by (destruct ph; cbn in *; tauto). cbn [negb].
    replace (match ph with VDa p | VSubDa p => smem "harmonic" (dims p) | _ => false end) with false
      by (destruct ph; cbn in Xp; auto; symmetry; apply smem_false; auto).
    assert (Ep : shp (vvalues ph) = [a; b]) by (destruct ph; cbn in *; tauto).
    cbn [vvalues]. destruct (harmonics_3 Y L _ _ a b Ep Ht) as (h & Eh & Sh & Gh). rewrite Eh. cbn [bind]. rewrite Hd, Sh. cbn [List.length Nat.ltb Nat.leb Nat.eqb negb hd].
    rewrite (firstn_all2 (dims th)) by lia. rewrite (proj2 (smem_false _ _) Hn).
    destruct (Nat.eqb_spec (count L) l); [congruence|]. reflexivity.
  Qed.
End More.

(** C76 *)
Lemma combine_map2 {A B C} (f : A -> B) (g : A -> C) l : combine (map f l) (map g l) = map (fun x => (f x, g x)) l.
Proof. induction l; cbn; f_equal; auto. Qed.
Lemma map_nth_seq' {A} (d : A) l : map (fun k => nth k l d) (seq 0 (List.length l)) = l.
Proof. induction l as [|x l IH]; auto. cbn [List.length seq map nth]. f_equal. rewrite <- seq_shift, map_map. exact IH. Qed.
Lemma c76_always_plain (areas : list (fl * fl * fl) -> res (list fl)) th ph r :
  scale_voronoi areas th ph = Ok r -> exists x, r = VNd x /\ shp x = vshape th.
Proof.
  unfold scale_voronoi, flatten2.
  destruct th as [t|t|t|]; destruct ph as [p|p|p|]; cbn [bind]; try discriminate; cbn [vshape]; destruct (Nat.ltb _ 2); cbn [bind]; try discriminate;
    (destruct (negb (Nat.eqb (size _) _)); cbn [bind]; try discriminate); (destruct (Nat.ltb _ 2); cbn [bind]; try discriminate);
    (destruct (negb (Nat.eqb (size _) _)); cbn [bind]; try discriminate).
  all: destruct (np_map2 nmul _ _) as [x|]; cbn [bind]; [|discriminate].
  all: destruct (np_map2 nmul _ _) as [y|]; cbn [bind]; [|discriminate].
  all: destruct (negb _); [discriminate|]; destruct (areas _) as [A|]; cbn [bind]; [|discriminate].
  all: destruct (negb _); [discriminate|]; intros E; injection E as <-; eauto.
Qed.

Definition sphere_point (theta phi : R) : R * R * R := (sin phi * sin theta, sin phi * cos theta, cos phi).
Lemma c76_lemma (areas : list (fl * fl * fl) -> res (list fl)) th ph a b t p A :
  (is_nd th = true /\ is_nd ph = true \/ exists d, th = VDa d /\ is_xr ph = true) ->
  vshape th = [a; b] -> vshape ph = [a; b] -> field th a b t -> field ph a b p ->
  areas (map (fun ij => let '(x, y, z) := sphere_point (t (nth 0 ij 0%nat) (nth 1 ij 0%nat)) (p (nth 0 ij 0%nat) (nth 1 ij 0%nat)) in
                        (Fin x, Fin y, Fin z)) (all_idx [a; b])) = Ok A -> List.length A = (a * b)%nat ->
  exists x, scale_voronoi areas th ph = Ok (VNd x) /\ shp x = [a; b] /\
    forall i j, (i < a)%nat -> (j < b)%nat -> get x [i; j] = nth (i * b + j) A NaN.
Proof.
  intros Hk St Sp Ft Fp HA HlA.
  assert (Nt : th <> VOther) by (destruct Hk as [[H _]|(d & -> & _)]; [destruct th; cbn in H; congruence|discriminate]).
  assert (Np : ph <> VOther) by (destruct Hk as [[_ H]|(d & _ & H)]; destruct ph; cbn in H; congruence).
  assert (Et : shp (vvalues th) = [a; b]) by (destruct th; cbn in *; congruence).
  assert (Ep : shp (vvalues ph) = [a; b]) by (destruct ph; cbn in *; congruence).
  unfold scale_voronoi.
  assert (F2 : forall v, shp v = [a; b] -> flatten2 v = Ok (vec (nnan : fl) (ravel v))).
  { intros v Sv. unfold flatten2, ndim. rewrite Sv. cbn [List.length Nat.ltb Nat.leb nth size fold_right]. rewrite Nat.mul_1_r, Nat.eqb_refl. reflexivity. }
  assert (E : match th, ph with
             | VDa t, (VDa p | VSubDa p) => do x <- flatten2 (dat t) ;; do y <- flatten2 (dat p) ;; Ok (dat t, x, y) | VDa t, _ => Err AttributeError
             | VNd t, VNd p => do x <- flatten2 t ;; do y <- flatten2 p ;; Ok (t, x, y)
             | VNd t, _ => do x <- flatten2 t ;; Err AttributeError
             | _, _ => Err AttributeError end = Ok (vvalues th, vec nnan (ravel (vvalues th)), vec nnan (ravel (vvalues ph)))).
  { destruct Hk as [[H H']|(d & -> & H)].
    - destruct th; cbn in H; try congruence. destruct ph; cbn in H'; try congruence. cbn in Et, Ep |- *. rewrite !F2 by auto. reflexivity.
    - destruct ph; cbn in H; try congruence; cbn in Et, Ep |- *; rewrite !F2 by auto; reflexivity. }
  rewrite E. cbn [bind].
  rewrite (zval_eta_ravel th a b t Nt St Ft), (zval_eta_ravel ph a b p Np Sp Fp).
  set (I := all_idx [a; b]) in *.
  set (tl_ := map (fun ij => t (nth 0 ij 0%nat) (nth 1 ij 0%nat)) I). set (pl := map (fun ij => p (nth 0 ij 0%nat) (nth 1 ij 0%nat)) I).
  assert (Lt : List.length tl_ = List.length I) by apply map_length. assert (Lp : List.length pl = List.length I) by apply map_length.
  assert (LI : List.length I = (a * b)%nat) by (unfold I; rewrite all_idx_length; cbn; lia).
  unfold np_map2 at 1. cbn [amap vec shp]. rewrite !map_length, Lt, Lp, bshape_refl. cbn [bind].
  unfold np_map2 at 1. cbn [amap vec shp]. rewrite !map_length, Lt, Lp, bshape_refl. cbn [bind shp].
  destruct (shape_eqb_spec [List.length I] [List.length I]) as [_|C]; [|congruence]. cbn [negb].
  match goal with |- context [areas ?l] => replace l with (map (fun ij => let '(x, y, z) := sphere_point (t (nth 0 ij 0%nat) (nth 1 ij 0%nat)) (p (nth 0 ij 0%nat) (nth 1 ij 0%nat)) in
                        (Fin x, Fin y, Fin z)) I) end.
  2:{ assert (A1 : all_idx [List.length I] = map (fun k => [k]) (seq 0 (List.length I))).
      { cbn [all_idx]. generalize (seq 0 (List.length I)). induction l as [|y l IH]; cbn; [auto|]. cbn in IH. rewrite IH. reflexivity. }
      unfold ravel. cbn [shp get amap vec]. rewrite map_length, Lp, A1, !map_map, !combine_map2.
      rewrite <- (map_nth_seq' [] I) at 1. rewrite map_map. apply map_ext_in. intros k Hk'. apply in_seq in Hk'.
      rewrite bidx_refl by (repeat constructor; lia). cbn [hd].
      assert (X : forall q : nat -> nat -> R, nth k (map Fin (map (fun ij => q (nth 0 ij 0%nat) (nth 1 ij 0%nat)) I)) nnan = Fin (q (nth 0 (nth k I []) 0%nat) (nth 1 (nth k I []) 0%nat))).
      { intros q. rewrite map_map. set (g := fun x => Fin _). rewrite (nth_indep _ nnan (g [])), (map_nth g) by (rewrite map_length; lia). reflexivity. }
      unfold tl_, pl. rewrite !X. reflexivity. }
  rewrite HA. cbn [bind]. rewrite Et. cbn [size fold_right]. rewrite Nat.mul_1_r, HlA, Nat.eqb_refl. cbn [negb].
  eexists. split; [reflexivity|]. split; [reflexivity|]. intros i j Hi Hj. cbn. f_equal; lia.
Qed.
