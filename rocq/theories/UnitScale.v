(** Change of the unit of pressure (C120). *)
From Coq Require Import Reals List Bool Arith ZArith Lra Lia String FunctionalExtensionality.
From Verif Require Import PyBase PyFacts Num NumFacts Arr ArrFacts Hybrid DeltaP Interp1d InterpHyb InterpSigma InterpSigmaFull SpecUnits.
Import ListNotations.
Local Open Scope R_scope.

(** ** scalars *)
Section Scalar.
  Variable c : R.
  Hypothesis cpos : 0 < c.
  Local Notation s := (rescale c).
  Lemma sc_add x y : nadd (s x) (s y) = s (nadd x y).
  Proof. destruct x, y; cbn; auto. f_equal. ring. Qed.
  Lemma sc_sub x y : nsub (s x) (s y) = s (nsub x y).
  Proof. destruct x, y; cbn; auto. f_equal. ring. Qed.
  Lemma sgn_sc b r : fl_infsgn b (c * r) = fl_infsgn b r.
  Proof.
    unfold fl_infsgn. destruct (Req_EM_T r 0) as [->|Z].
    - rewrite Rmult_0_r. destruct (Req_EM_T 0 0); [reflexivity|contradiction].
    - destruct (Req_EM_T (c * r) 0) as [Q|Q]; [apply Rmult_integral in Q; destruct Q; lra|].
      destruct (Rlt_dec 0 (c * r)) as [A|A], (Rlt_dec 0 r) as [B|B]; auto.
      + exfalso. apply B. nra.
      + exfalso. apply A. nra.
  Qed.
  Lemma s_sgn b r : s (fl_infsgn b r) = fl_infsgn b r.
  Proof. unfold fl_infsgn. destruct (Req_EM_T r 0), b, (Rlt_dec 0 r); reflexivity. Qed.
  Lemma sc_mul_r k x : nmul k (s x) = s (nmul k x).
  Proof. destruct k, x; cbn; auto; rewrite ?sgn_sc, ?s_sgn; auto. f_equal. ring. Qed.
  Lemma sc_mul_l x k : nmul (s x) k = s (nmul x k).
  Proof. destruct k, x; cbn; auto; rewrite ?sgn_sc, ?s_sgn; auto. f_equal. ring. Qed.
  Lemma sc_div x y : ndiv (s x) (s y) = ndiv x y.
  Proof.
    destruct x as [a| | |], y as [b| | |]; cbn; auto.
    - destruct (Req_EM_T b 0) as [->|Z].
      + rewrite Rmult_0_r. destruct (Req_EM_T 0 0) as [_|]; [|contradiction].
        destruct (Req_EM_T a 0) as [->|A]; [rewrite Rmult_0_r; destruct (Req_EM_T 0 0); [reflexivity|contradiction]|].
        destruct (Req_EM_T (c * a) 0) as [Q|Q]; [apply Rmult_integral in Q; destruct Q; lra|].
        destruct (Rlt_dec 0 (c * a)) as [A1|A1], (Rlt_dec 0 a) as [B|B]; auto; exfalso; [apply B|apply A1]; nra.
      + destruct (Req_EM_T (c * b) 0) as [Q|Q]; [apply Rmult_integral in Q; destruct Q; lra|]. f_equal. field. split; lra.
    - destruct (Rlt_dec (c * b) 0) as [A1|A1], (Rlt_dec b 0) as [B|B]; auto; exfalso; [apply B|apply A1]; nra.
    - destruct (Rlt_dec (c * b) 0) as [A1|A1], (Rlt_dec b 0) as [B|B]; auto; exfalso; [apply B|apply A1]; nra.
  Qed.
  Lemma sc_div_k x k : k <> 0 -> ndiv (s x) (Fin k) = s (ndiv x (Fin k)).
  Proof.
    intros Hk. destruct x as [a| | |]; cbn; auto.
    - destruct (Req_EM_T k 0); [contradiction|]. cbn. f_equal. field. exact Hk.
    - destruct (Rlt_dec k 0); reflexivity.
    - destruct (Rlt_dec k 0); reflexivity.
  Qed.
  Lemma sc_lt x y : nlt (s x) (s y) = nlt x y.
  Proof.
    destruct x as [a| | |], y as [b| | |]; cbn; auto. unfold rltb. destruct (Rlt_dec (c * a) (c * b)), (Rlt_dec a b); auto; exfalso; nra.
  Qed.
  Lemma sc_le x y : nle (s x) (s y) = nle x y.
  Proof.
    destruct x as [a| | |], y as [b| | |]; cbn; auto. unfold rleb. destruct (Rle_dec (c * a) (c * b)), (Rle_dec a b); auto; exfalso; nra.
  Qed.
  Lemma sc_nan x : isnan (s x) = isnan x.
  Proof. destruct x; reflexivity. Qed.
  Lemma sc_abs x : nabs (s x) = s (nabs x).
  Proof. destruct x; cbn; auto. f_equal. rewrite Rabs_mult. f_equal. apply Rabs_pos_eq. lra. Qed.
  Lemma sc_0 : s (ofZ 0) = ofZ 0.
  Proof. cbn. f_equal. ring. Qed.
  Lemma sc_min x y : nmin (s x) (s y) = s (nmin x y).
  Proof. unfold nmin. rewrite !sc_nan, sc_le. destruct (isnan x), (isnan y), (nle x y); reflexivity. Qed.
  Lemma sc_ln x : nln (s x) = nadd (nln x) (Fin (ln c)).
  Proof.
    destruct x as [a| | |]; cbn; auto. destruct (Rlt_dec 0 a) as [A|A].
    - destruct (Rlt_dec 0 (c * a)) as [B|B]; [|exfalso; apply B; nra]. cbn. f_equal. rewrite ln_mult by auto. ring.
    - destruct (Rlt_dec 0 (c * a)) as [B|B]; [exfalso; apply A; nra|].
      destruct (Req_EM_T a 0) as [->|Z].
      + rewrite Rmult_0_r. destruct (Req_EM_T 0 0); [reflexivity|contradiction].
      + destruct (Req_EM_T (c * a) 0) as [Q|Q]; [apply Rmult_integral in Q; destruct Q; lra|]. reflexivity.
  Qed.

  (** ** delta_pressure *)
  Lemma roll1_map (l : list fl) : roll1 (map s l) = map s (roll1 l).
  Proof.
    unfold roll1. rewrite <- map_rev. destruct (rev l) as [|x t]; [reflexivity|]. cbn [map]. f_equal.
    induction l as [|a l IH]; [reflexivity|]. destruct l; [reflexivity|]. cbn in *. f_equal. exact IH.
  Qed.
  Lemma upd_map {A B} (f : A -> B) l j v : upd (map f l) j (f v) = map f (upd l j v).
  Proof. revert j. induction l as [|a l IH]; intros [|j]; cbn; auto. f_equal. apply IH. Qed.
  Lemma midpoints_map l : midpoints (map s l) = map s (midpoints l).
  Proof.
    unfold midpoints. rewrite <- upd_map, sc_0. f_equal. rewrite roll1_map. rewrite map_map.
    generalize (roll1 l). induction l as [|a l IH]; intros [|b l']; cbn [map combine]; auto. f_equal; [|apply IH].
    cbn [fst snd]. rewrite sc_add. apply sc_div_k. lra.
  Qed.
  Lemma pyget_map {A B} (f : A -> B) l k : pyget (map f l) k = rmap f (pyget l k).
  Proof.
    unfold pyget. rewrite map_length. destruct (pyidx (List.length l) k) as [n|]; [|reflexivity].
    rewrite nth_error_map. destruct (nth_error l n); reflexivity.
  Qed.
  Lemma pyset_map {A B} (f : A -> B) l k v : pyset (map f l) k (f v) = rmap (map f) (pyset l k v).
  Proof. unfold pyset. rewrite map_length. destruct (pyidx (List.length l) k); [|reflexivity]. cbn. rewrite upd_map. reflexivity. Qed.
  Lemma pyslice_map {A B} (f : A -> B) l a b : pyslice (map f l) a b = map f (pyslice l a b).
  Proof. unfold pyslice. rewrite map_length, skipn_map, firstn_map. reflexivity. Qed.
  Lemma map_rep {A B} (f : A -> B) x n : map f (repeat x n) = repeat (f x) n.
  Proof. induction n; cbn; congruence. Qed.
  Lemma pysetslice_map {A B} (f : A -> B) l a b vs : pysetslice (map f l) a b (map f vs) = rmap (map f) (pysetslice l a b vs).
  Proof.
    unfold pysetslice. rewrite !map_length, firstn_map, !skipn_map.
    destruct (Nat.eqb (List.length vs) _); [cbn; rewrite !map_app; reflexivity|].
    destruct vs as [|v [|w t]]; cbn; try reflexivity. rewrite !map_app, map_rep. reflexivity.
  Qed.
  Lemma bind_rmap {A B C} (f : A -> B) (x : res A) (k : B -> res C) : (do b <- rmap f x ;; k b) = (do a <- x ;; k (f a)).
  Proof. destruct x; reflexivity. Qed.
  Lemma rmap_bind {A B C} (f : B -> C) (x : res A) (k : A -> res B) : rmap f (do a <- x ;; k a) = (do a <- x ;; rmap f (k a)).
  Proof. destruct x; reflexivity. Qed.
  Lemma bind_ext {A B} (x : res A) (k k' : A -> res B) : (forall a, k a = k' a) -> (do a <- x ;; k a) = (do a <- x ;; k' a).
  Proof. intros E. destruct x; cbn; auto. Qed.
  Lemma dp1_scale l ps top : delta_pressure1D (map s l) (s ps) (s top) = rmap (map s) (delta_pressure1D l ps top).
  Proof.
    unfold delta_pressure1D, ngt. rewrite <- sc_0 at 1. rewrite !sc_lt.
    destruct (nlt top (ofZ 0)); [reflexivity|]. destruct (nlt ps top); [reflexivity|].
    rewrite !pyget_map, bind_rmap, rmap_bind. apply bind_ext. intros p1.
    rewrite bind_rmap, rmap_bind. apply bind_ext. intros p0. cbv zeta. rewrite sc_lt. set (dr := nlt p1 p0).
    replace (if dr then rev (map s l) else map s l) with (map s (if dr then rev l else l)) by (destruct dr; [apply map_rev|reflexivity]).
    set (plev := if dr then rev l else l). rewrite map_length.
    assert (RN : repeat nnan (List.length plev) = map s (repeat nnan (List.length plev))) by (rewrite map_rep; reflexivity).
    replace (map (fun m => nlt m (s ps)) (midpoints (map s plev))) with (map (fun m => nlt m ps) (midpoints plev))
      by (rewrite midpoints_map, map_map; apply map_ext; intros m; symmetry; apply sc_lt).
    destruct (nonzero (map (fun m => nlt m ps) (midpoints plev))) as [|i0 rest]; [reflexivity|].
    rewrite !pyget_map. set (a0 := Z.of_nat (fold_left Nat.min rest i0)). set (e0 := Z.of_nat (fold_left Nat.max rest i0)).
    rewrite bind_rmap, rmap_bind. apply bind_ext. intros a. rewrite bind_rmap, rmap_bind. apply bind_ext. intros b.
    rewrite sc_add. change (ofZ 2) with (Fin 2). rewrite sc_div_k by lra. rewrite sc_sub. rewrite RN at 1. rewrite pyset_map, bind_rmap, rmap_bind. apply bind_ext. intros d1.
    rewrite !pyslice_map.
    replace (map (fun ab : fl * fl => ndiv (nsub (fst ab) (snd ab)) (Fin 2)) (combine (map s (pyslice plev (Some (a0 + 2)%Z) (Some (e0 + 1)%Z))) (map s (pyslice plev (Some a0) (Some e0)))))
      with (map s (map (fun ab : fl * fl => ndiv (nsub (fst ab) (snd ab)) (Fin 2)) (combine (pyslice plev (Some (a0 + 2)%Z) (Some (e0 + 1)%Z)) (pyslice plev (Some a0) (Some e0))))).
    2:{ generalize (pyslice plev (Some a0) (Some e0)). generalize (pyslice plev (Some (a0 + 2)%Z) (Some (e0 + 1)%Z)).
        induction l0 as [|x t IH]; intros [|y t']; cbn [map combine]; auto. f_equal; [|apply IH]. cbn [fst snd]. rewrite sc_sub. symmetry. apply sc_div_k. lra. }
    rewrite pysetslice_map, bind_rmap, rmap_bind. apply bind_ext. intros d2.
    rewrite bind_rmap, rmap_bind. apply bind_ext. intros x. rewrite bind_rmap, rmap_bind. apply bind_ext. intros y.
    rewrite sc_add, sc_div_k by lra. rewrite sc_sub, pyset_map, bind_rmap, rmap_bind. apply bind_ext. intros d3.
    cbn [rmap]. f_equal. destruct dr; [symmetry; apply map_rev|reflexivity].
  Qed.
  Lemma mapM_map_in {A A' B} (g : A -> A') (f : A' -> res B) l : mapM f (map g l) = mapM (fun x => f (g x)) l.
  Proof. induction l; cbn; auto. destruct (f (g a)); cbn; auto. rewrite IHl. reflexivity. Qed.
  Lemma mapM_rmap {A B C} (f : A -> res B) (g : B -> C) l : mapM (fun x => rmap g (f x)) l = rmap (map g) (mapM f l).
  Proof. induction l; cbn; auto. destruct (f a); cbn; auto. rewrite IHl. destruct (mapM f l); reflexivity. Qed.
  Lemma mapM_fun_ext {A B} (f g : A -> res B) l : (forall x, f x = g x) -> mapM f l = mapM g l.
  Proof. intros E. induction l; cbn; auto. rewrite E, IHl. reflexivity. Qed.
  Lemma ravel_amap (f : fl -> fl) a : ravel (amap f a) = map f (ravel a).
  Proof. unfold ravel. cbn. rewrite map_map. reflexivity. Qed.
  Lemma s_nth k l : nth k (map s l) NaN = s (nth k l NaN).
  Proof. change NaN with (s NaN) at 1. apply map_nth. Qed.
  Lemma dpnd_scale l a top : delta_pressure_nd (map s l) (amap s a) (s top) = rmap (amap s) (delta_pressure_nd l a top).
  Proof.
    unfold delta_pressure_nd. rewrite ravel_amap, mapM_map_in.
    rewrite (mapM_fun_ext _ (fun x => rmap (map s) (delta_pressure1D l x top))) by (intros x; apply dp1_scale).
    rewrite mapM_rmap, bind_rmap, rmap_bind. apply bind_ext. intros rows. cbn [rmap]. f_equal. rewrite map_length.
    unfold of_flat, amap. cbn [shp get]. f_equal. apply functional_extensionality. intros i. rewrite <- concat_map. apply s_nth.
  Qed.
  Lemma lev_min_scale lv : lev_min (lev_units c lv) = rmap s (lev_min lv).
  Proof.
    unfold lev_min, lev_units. cbn [lev_da lev_vals].
    replace (filter (fun x => negb (isnan x)) (map s (lev_vals lv))) with (map s (filter (fun x => negb (isnan x)) (lev_vals lv))).
    2:{ induction (lev_vals lv) as [|x t IH]; [reflexivity|]. cbn [map filter]. rewrite sc_nan. destruct (isnan x); cbn [negb map]; rewrite IH; reflexivity. }
    replace (if lev_da lv then map s (filter (fun x => negb (isnan x)) (lev_vals lv)) else map s (lev_vals lv))
      with (map s (if lev_da lv then filter (fun x => negb (isnan x)) (lev_vals lv) else lev_vals lv)) by (destruct (lev_da lv); reflexivity).
    destruct (if lev_da lv then _ else _) as [|x t]; cbn [map].
    - destruct (lev_vals lv); reflexivity.
    - cbn [rmap]. f_equal. unfold nminl. revert x. induction t as [|y t IH]; intros x; cbn; auto. rewrite <- IH. f_equal. apply sc_min.
  Qed.
  Lemma slookup_sset {A} n (v : A) m l : slookup m (sset n v l) = if String.eqb m n then Some v else slookup m l.
  Proof.
    induction l as [|[k w] t IH]; cbn; [reflexivity|]. destruct (String.eqb_spec n k) as [->|Q]; cbn.
    - destruct (String.eqb m k); reflexivity.
    - rewrite IH. destruct (String.eqb_spec m k) as [->|Q']; [|reflexivity]. destruct (String.eqb_spec k n); congruence.
  Qed.
  Lemma fst_sset {A} n (v v' : A) l : map fst (sset n v l) = map fst (sset n v' l).
  Proof. induction l as [|[k w] t IH]; cbn; [reflexivity|]. destruct (String.eqb n k); cbn; congruence. Qed.
  Lemma vec_scale l : vec NaN (map s l) = amap s (vec NaN l).
  Proof. unfold vec, amap. cbn [shp get]. rewrite map_length. f_equal. apply functional_extensionality. intros i. apply s_nth. Qed.
  Lemma c120_dp lv sp top :
    outcomes (dp_units c) (delta_pressure lv sp top) (delta_pressure (lev_units c lv) (surf_units c sp) (option_map s top)).
  Proof.
    unfold delta_pressure. rewrite lev_min_scale. destruct (lev_min lv) as [lm|e]; cbn [rmap bind]; [|reflexivity].
    assert (E : match option_map s top with None => Ok (s lm) | Some t => if ngt t (s lm) then Err ValueError else Ok t end
      = rmap s (match top with None => Ok lm | Some t => if ngt t lm then Err ValueError else Ok t end)).
    { destruct top as [t|]; cbn [option_map]; [|reflexivity]. unfold ngt. rewrite sc_lt. destruct (nlt lm t); reflexivity. }
    rewrite E. destruct (match top with None => Ok lm | Some t => if ngt t lm then Err ValueError else Ok t end) as [tp|e]; cbn [rmap bind]; [|reflexivity].
    destruct sp as [x|a|d|]; cbn [surf_units lev_units lev_vals lev_da lev_attrs].
    - rewrite dp1_scale. destruct (delta_pressure1D (lev_vals lv) x tp); cbn; [|reflexivity]. apply vec_scale.
    - rewrite dpnd_scale. destruct (delta_pressure_nd (lev_vals lv) a tp); cbn; reflexivity.
    - cbn [da_units dat]. rewrite dpnd_scale. destruct (delta_pressure_nd (lev_vals lv) (dat d) tp); [|reflexivity].
      cbn [rmap bind outcomes dp_units dims dat coords attrs daname da_units]. change nnan with NaN. rewrite vec_scale. repeat split.
      + apply fst_sset.
      + rewrite !slookup_sset. cbn. reflexivity.
      + intros m Hm. rewrite !slookup_sset. destruct (String.eqb_spec m "lev"); [contradiction|reflexivity].
    - reflexivity.
  Qed.
End Scalar.

(** ** labelled and plain arithmetic under maps of the operands *)
Definition dmap (f : fl -> fl) (d : da fl) : da fl := mkDa (dims d) (amap f (dat d)) (coords d) (attrs d) (daname d).
Lemma take_dmap f n ps d : xr_take n ps (dmap f d) = dmap f (xr_take n ps d).
Proof. unfold xr_take, dmap. cbn [dims]. destruct (sindex n (dims d)); reflexivity. Qed.
Lemma align_dmap f g a b : xr_align (dmap f a) (dmap g b) = (dmap f (fst (xr_align a b)), dmap g (snd (xr_align a b))).
Proof.
  unfold xr_align. change (dims (dmap f a)) with (dims a). change (dims (dmap g b)) with (dims b).
  generalize (filter (fun d => smem d (dims b)) (dims a)). intros l. revert a b.
  induction l as [|d l IH]; intros a b; [reflexivity|]. cbn [fold_left].
  assert (E : align1 d (dmap f a, dmap g b) = (dmap f (fst (align1 d (a, b))), dmap g (snd (align1 d (a, b))))).
  { unfold align1. cbn [fst snd]. change (index_labels (dmap f a) d) with (index_labels a d). change (index_labels (dmap g b) d) with (index_labels b d).
    destruct (index_labels a d) as [la|]; [|reflexivity]. destruct (index_labels b d) as [lb|]; [|reflexivity].
    destruct (labels_eqb la lb); [reflexivity|]. cbn [fst snd]. rewrite !take_dmap. reflexivity. }
  rewrite E. destruct (align1 d (a, b)) as [a' b']. cbn [fst snd]. apply IH.
Qed.
Lemma map2_dmap (h : fl -> fl -> fl) f g k a b : (forall x y, h (f x) (g y) = k (h x y)) ->
  xr_map2 h (dmap f a) (dmap g b) = rmap (dmap k) (xr_map2 h a b).
Proof.
  intros E. unfold xr_map2. rewrite align_dmap. destruct (xr_align a b) as [a' b']. cbn [fst snd].
  change (sizes_agree (dmap f a') (dmap g b')) with (sizes_agree a' b'). destruct (sizes_agree a' b'); [|reflexivity].
  cbv zeta. change (dims (dmap f a')) with (dims a'). change (dims (dmap g b')) with (dims b').
  assert (F : (fun i => h (getn (dmap f a') (env_of (join_dims (dims a') (dims b')) i)) (getn (dmap g b') (env_of (join_dims (dims a') (dims b')) i)))
    = (fun i => k (h (getn a' (env_of (join_dims (dims a') (dims b')) i)) (getn b' (env_of (join_dims (dims a') (dims b')) i))))).
  { apply functional_extensionality. intros i. apply E. }
  rewrite F. reflexivity.
Qed.
Lemma npmap2_amap (h : fl -> fl -> fl) f g k a b : (forall x y, h (f x) (g y) = k (h x y)) ->
  np_map2 h (amap f a) (amap g b) = rmap (amap k) (np_map2 h a b).
Proof.
  intros E. unfold np_map2. cbn [amap shp]. destruct (bshape (shp a) (shp b)); [|reflexivity]. cbn [rmap]. f_equal. unfold amap. cbn [shp get]. f_equal.
  apply functional_extensionality. intros i. apply E.
Qed.
Lemma dmap_id d : dmap (fun x => x) d = d.
Proof. destruct d as [ds [sh g] cs at_ nm]. reflexivity. Qed.
Lemma amap_id (a : arr fl) : amap (fun x => x) a = a.
Proof. destruct a. reflexivity. Qed.

Section Hyb.
  Variable c : R.
  Hypothesis cpos : 0 < c.
  Local Notation s := (rescale c).
  Lemma units_dmap d : da_units c d = dmap s d.
  Proof. reflexivity. Qed.
  Lemma scale_k_l p0 (a : arr fl) : amap (fun x => nmul x (s p0)) a = amap s (amap (fun x => nmul x p0) a).
  Proof. unfold amap. cbn [shp get]. f_equal. apply functional_extensionality. intros i. apply (sc_mul_r c cpos). Qed.
  Lemma scale_k_r p0 (a : arr fl) : amap (fun x => nmul (s p0) x) a = amap s (amap (fun x => nmul p0 x) a).
  Proof. unfold amap. cbn [shp get]. f_equal. apply functional_extensionality. intros i. apply (sc_mul_l c cpos). Qed.
  Lemma press_xr_scale ps ya yb p0 : pressure_xr (dmap s ps) ya yb (s p0) = rmap (fun r => (fst r, dmap s (snd r))) (pressure_xr ps ya yb p0).
  Proof.
    unfold pressure_xr. set (yb' := if negb (dims_eqb (dims ya) (dims yb)) then _ else yb).
    rewrite <- (dmap_id yb') at 1. rewrite (map2_dmap nmul (fun x => x) s s) by (intros; apply (sc_mul_r c cpos)).
    rewrite bind_rmap, rmap_bind. apply bind_ext. intros t.
    assert (Q : xr_map (fun x => nmul x (s p0)) ya = dmap s (xr_map (fun x => nmul x p0) ya)).
    { unfold xr_map, dmap. cbn [dims dat coords attrs daname]. rewrite scale_k_l. reflexivity. }
    rewrite Q, (map2_dmap nadd s s s) by (intros; apply (sc_add c)). rewrite bind_rmap, rmap_bind. apply bind_ext. intros r. reflexivity.
  Qed.
  Lemma press_np_scale ps ya yb p0 : pressure_np (amap s ps) ya yb (s p0) = rmap (amap s) (pressure_np ps ya yb p0).
  Proof.
    unfold pressure_np. destruct (Nat.eqb (ndim ya) 0); [reflexivity|]. cbv zeta.
    rewrite <- (amap_id (expand12 yb)) at 1. rewrite (npmap2_amap nmul (fun x => x) s s) by (intros; apply (sc_mul_r c cpos)).
    rewrite bind_rmap, rmap_bind. apply bind_ext. intros t. rewrite scale_k_l. apply npmap2_amap. intros. apply (sc_add c).
  Qed.
  Lemma vshape_units v : vshape (val_units c v) = vshape v.
  Proof. destruct v; reflexivity. Qed.
  Lemma c120_press ps ya yb p0 :
    pressure_at_hybrid_levels (val_units c ps) ya yb (s p0) = rmap (fun r => (fst r, val_units c (snd r))) (pressure_at_hybrid_levels ps ya yb p0).
  Proof.
    unfold pressure_at_hybrid_levels.
    replace (is_xr (val_units c ps)) with (is_xr ps) by (destruct ps; reflexivity).
    assert (E1 : forallb (fun v => is_xr v || is_nd v) [val_units c ps; ya; yb] = forallb (fun v => is_xr v || is_nd v) [ps; ya; yb]) by (destruct ps; reflexivity).
    assert (E2 : forallb is_nd [val_units c ps; ya; yb] || forallb is_xr [val_units c ps; ya; yb] = forallb is_nd [ps; ya; yb] || forallb is_xr [ps; ya; yb]) by (destruct ps; reflexivity).
    rewrite E1, E2. destruct (negb (forallb (fun v => is_xr v || is_nd v) [ps; ya; yb])); [reflexivity|].
    destruct (negb (forallb is_nd [ps; ya; yb] || forallb is_xr [ps; ya; yb])); [reflexivity|].
    destruct (negb (shape_eqb (vshape ya) (vshape yb))); [reflexivity|].
    assert (X : forall p a b, (do r <- pressure_xr (da_units c p) a b (s p0) ;; Ok (fst r, VDa (snd r)))
      = rmap (fun r => (fst r, val_units c (snd r))) (do r <- pressure_xr p a b p0 ;; Ok (fst r, VDa (snd r)))).
    { intros p a b. rewrite units_dmap, press_xr_scale, bind_rmap, rmap_bind. apply bind_ext. intros r. reflexivity. }
    destruct ps as [p|p|p|], ya as [a|a|a|], yb as [b|b|b|]; cbn [val_units]; try reflexivity; try apply X.
    destruct (Nat.ltb 1 (ndim a)); [reflexivity|]. rewrite press_np_scale, bind_rmap, rmap_bind. apply bind_ext. intros r. reflexivity.
  Qed.
  Lemma dph_np_scale ps ya yb p0 : dph_np (amap s ps) ya yb (s p0) = rmap (amap s) (dph_np ps ya yb p0).
  Proof.
    unfold dph_np. destruct (Nat.eqb (ndim ya) 0); [reflexivity|]. cbv zeta.
    assert (M : forall x, np_map2 nmul x (amap s ps) = rmap (amap s) (np_map2 nmul x ps)).
    { intros x. rewrite <- (amap_id x) at 1. apply npmap2_amap. intros. apply (sc_mul_r c cpos). }
    assert (A : forall x y, np_map2 nadd (amap s x) (amap s y) = rmap (amap s) (np_map2 nadd x y)) by (intros; apply npmap2_amap; intros; apply (sc_add c)).
    rewrite M, bind_rmap, rmap_bind. apply bind_ext. intros ta. rewrite scale_k_r, A, bind_rmap, rmap_bind. apply bind_ext. intros pa.
    rewrite M, bind_rmap, rmap_bind. apply bind_ext. intros tb. rewrite scale_k_r, A, bind_rmap, rmap_bind. apply bind_ext. intros pb.
    rewrite (npmap2_amap nsub s s s) by (intros; apply (sc_sub c)). rewrite bind_rmap, rmap_bind. apply bind_ext. intros d. cbn [rmap]. f_equal.
    unfold amap. cbn [shp get]. f_equal. apply functional_extensionality. intros i. apply (sc_abs c cpos).
  Qed.
  Lemma dph_xr_scale ps ya yb p0 : dph_xr (dmap s ps) ya yb (s p0) = rmap (dmap s) (dph_xr ps ya yb p0).
  Proof.
    unfold dph_xr. cbv zeta. destruct (Nat.eqb (ndim (dat (drop_first_coord ya))) 0); [reflexivity|].
    assert (M : forall x, xr_map2 nmul x (dmap s ps) = rmap (dmap s) (xr_map2 nmul x ps)).
    { intros x. rewrite <- (dmap_id x) at 1. apply map2_dmap. intros. apply (sc_mul_r c cpos). }
    assert (A : forall x y, xr_map2 nadd (dmap s x) (dmap s y) = rmap (dmap s) (xr_map2 nadd x y)) by (intros; apply map2_dmap; intros; apply (sc_add c)).
    assert (K : forall x, xr_map (fun v => nmul (s p0) v) x = dmap s (xr_map (fun v => nmul p0 v) x)).
    { intros x. unfold xr_map, dmap. cbn [dims dat coords attrs daname]. rewrite scale_k_r. reflexivity. }
    rewrite M, bind_rmap, rmap_bind. apply bind_ext. intros ta. rewrite K, A, bind_rmap, rmap_bind. apply bind_ext. intros pa.
    rewrite M, bind_rmap, rmap_bind. apply bind_ext. intros tb. rewrite K, A, bind_rmap, rmap_bind. apply bind_ext. intros pb.
    rewrite (map2_dmap nsub s s s) by (intros; apply (sc_sub c)). rewrite bind_rmap, rmap_bind. apply bind_ext. intros d. cbn [rmap]. f_equal.
    unfold dmap. cbn [dims dat coords attrs daname]. f_equal. unfold amap. cbn [shp get]. f_equal. apply functional_extensionality. intros i. apply (sc_abs c cpos).
  Qed.
  Lemma c120_dph ps ya yb ok p0 : delta_pressure_hybrid (val_units c ps) ya yb ok (s p0) = rmap (val_units c) (delta_pressure_hybrid ps ya yb ok p0).
  Proof.
    unfold delta_pressure_hybrid.
    assert (E1 : forallb exact_type [val_units c ps; ya; yb] = forallb exact_type [ps; ya; yb]) by (destruct ps; reflexivity).
    rewrite E1. destruct (negb (forallb exact_type [ps; ya; yb])); [reflexivity|]. destruct (negb ok); [reflexivity|].
    destruct (negb (Bool.eqb (is_nd ya) (is_nd yb))); [reflexivity|]. destruct (negb (shape_eqb (vshape ya) (vshape yb))); [reflexivity|].
    destruct (Nat.ltb 1 (List.length (vshape ya))); [reflexivity|].
    destruct ps as [p|p|p|]; cbn [val_units]; try reflexivity.
    - rewrite dph_np_scale, bind_rmap, rmap_bind. apply bind_ext. reflexivity.
    - rewrite units_dmap, dph_xr_scale, bind_rmap, rmap_bind. apply bind_ext. reflexivity.
  Qed.
  (** ** sigma: the unit cancels *)
  Lemma sigma_scale ps ya yb p0 : sigma_from_hybrid (dmap s ps) ya yb (s p0) = sigma_from_hybrid ps ya yb p0.
  Proof.
    unfold sigma_from_hybrid.
    assert (Q : xr_map (fun x => nmul x (s p0)) ya = dmap s (xr_map (fun x => nmul x p0) ya)).
    { unfold xr_map, dmap. cbn [dims dat coords attrs daname]. rewrite scale_k_l. reflexivity. }
    rewrite Q, (map2_dmap ndiv s s (fun x => x)) by (intros; apply (sc_div c cpos)).
    rewrite bind_rmap. apply bind_ext. intros t. rewrite dmap_id. reflexivity.
  Qed.
  Lemma c120_sigma data sig ps ya yb p0 ld cf m :
    interp_sigma_to_hybrid data sig (da_units c ps) ya yb (s p0) ld cf m = interp_sigma_to_hybrid data sig ps ya yb p0 ld cf m.
  Proof. unfold interp_sigma_to_hybrid. rewrite units_dmap, sigma_scale. reflexivity. Qed.
  Lemma c120_stored store data sig ps ya yb p0 ld cf m :
    interp_sigma_stored store data sig (da_units c ps) ya yb (rescale c p0) ld cf m = interp_sigma_stored store data sig ps ya yb p0 ld cf m.
  Proof. unfold interp_sigma_stored. rewrite c120_sigma. reflexivity. Qed.
End Hyb.

(** ** column interpolation under a change of the vertical coordinate *)
Section Col.
  Variable f : fl -> fl.
  Hypothesis f_lt : forall a b, nlt (f a) (f b) = nlt a b.
  Hypothesis f_nan : forall a, isnan (f a) = isnan a.
  Hypothesis f_ratio : forall x a b, ndiv (nsub (f x) (f b)) (nsub (f a) (f b)) = ndiv (nsub x b) (nsub a b).
  Lemma f_key a b : key_lt (f a) (f b) = key_lt a b.
  Proof. unfold key_lt. rewrite !f_nan, f_lt. reflexivity. Qed.
  Definition onkey {A B} (g : A -> B) (p : fl * A) : fl * B := (f (fst p), g (snd p)).
  Lemma insert_on {A B} (g : A -> B) p l : insert (onkey g p) (map (onkey g) l) = map (onkey g) (insert p l).
  Proof. induction l as [|q t IH]; [reflexivity|]. cbn. rewrite f_key. destruct (key_lt (fst q) (fst p)); cbn; [rewrite IH|]; reflexivity. Qed.
  Lemma isort_on {A B} (g : A -> B) l : isort (map (onkey g) l) = map (onkey g) (isort l).
  Proof. unfold isort. induction l as [|p t IH]; [reflexivity|]. cbn. rewrite IH. apply insert_on. Qed.
  Lemma combine_on {A B} (g : A -> B) xs ys : combine (map f xs) (map g ys) = map (onkey g) (combine xs ys).
  Proof. revert ys. induction xs as [|x t IH]; intros [|y u]; cbn; auto. rewrite IH. reflexivity. Qed.
  Lemma searchsorted_on l x : searchsorted (map f l) (f x) = searchsorted l x.
  Proof. induction l; [reflexivity|]. cbn. rewrite f_key, IHl. reflexivity. Qed.
  Lemma fst_on {A B} (g : A -> B) l : map fst (map (onkey g) l) = map f (map fst l).
  Proof. rewrite !map_map. reflexivity. Qed.
  Lemma interp_at_on l x : interp_at (map (onkey (fun v => v)) l) (f x) = interp_at l x.
  Proof.
    unfold interp_at. rewrite map_length, fst_on, searchsorted_on. cbv zeta. rewrite !pyget_map, bind_rmap. apply bind_ext. intros a.
    rewrite bind_rmap. apply bind_ext. intros b. unfold onkey. cbn [fst snd]. rewrite f_lt, f_ratio. reflexivity.
  Qed.
  Lemma last_on l x : last (map f l) (f x) = f (last l x).
  Proof. induction l as [|a t IH]; [reflexivity|]. cbn. destruct t; [reflexivity|]. exact IH. Qed.
  Lemma interp_col_on x xp var : interp_col (map f x) (map f xp) var = interp_col x xp var.
  Proof.
    destruct x as [|x0 x]; [reflexivity|]. unfold interp_col. cbn [map]. change (f x0 :: map f x) with (map f (x0 :: x)).
    rewrite combine_on. replace (combine (map f xp) var) with (map (onkey (fun v => v)) (combine xp var)) by (rewrite <- combine_on, map_id; reflexivity).
    rewrite !isort_on, fst_on, last_on, f_lt, mapM_map_in. rewrite (mapM_fun_ext _ (interp_at (isort (combine xp var)))) by (intros; apply interp_at_on).
    reflexivity.
  Qed.
End Col.
Lemma shift_lt k a b : nlt (nadd a (Fin k)) (nadd b (Fin k)) = nlt a b.
Proof. destruct a as [a| | |], b as [b| | |]; cbn; auto. unfold rltb. destruct (Rlt_dec (a + k) (b + k)), (Rlt_dec a b); auto; exfalso; lra. Qed.
Lemma shift_sub k a b : nsub (nadd a (Fin k)) (nadd b (Fin k)) = nsub a b.
Proof. destruct a as [a| | |], b as [b| | |]; cbn; auto. f_equal. ring. Qed.

Section Ihp.
  Variable c : R.
  Hypothesis cpos : 0 < c.
  Local Notation s := (rescale c).
  Lemma interp_with_scale m x xp var : interp_with m (map s x) (map s xp) var = interp_with m x xp var.
  Proof.
    destruct m; cbn [interp_with].
    - apply interp_col_on; [apply sc_lt; exact cpos|apply sc_nan|]. intros. rewrite !sc_sub. apply sc_div. exact cpos.
    - unfold log_interp_col.
      assert (L : forall l, map nln (map s l) = map (fun v => nadd v (Fin (ln c))) (map nln l)).
      { intros l. rewrite !map_map. apply map_ext. intros v. apply sc_ln. exact cpos. }
      rewrite !L. apply (interp_col_on (fun v => nadd v (Fin (ln c)))); [intros; apply shift_lt|intros []; reflexivity|intros; rewrite !shift_sub; reflexivity].
  Qed.
  Lemma interp_nd_scale m x xp var ax : interp_nd m (map s x) (amap s xp) var ax = interp_nd m x xp var ax.
  Proof.
    unfold interp_nd. cbn [amap shp]. cbv zeta. rewrite map_length.
    assert (E : (fun idx => interp_with m (map s x) (col_at (amap s xp) ax idx (nth ax (shp xp) 0%nat)) (col_at var ax idx (nth ax (shp xp) 0%nat)))
      = (fun idx => interp_with m x (col_at xp ax idx (nth ax (shp xp) 0%nat)) (col_at var ax idx (nth ax (shp xp) 0%nat)))).
    { apply functional_extensionality. intros idx.
      replace (col_at (amap s xp) ax idx (nth ax (shp xp) 0%nat)) with (map s (col_at xp ax idx (nth ax (shp xp) 0%nat))) by (unfold col_at; rewrite map_map; reflexivity).
      apply interp_with_scale. }
    destruct (negb (forallb (fun p => Nat.leb (fst p) (snd p)) (combine (shp xp) (shp var)))); [reflexivity|].
    destruct (existsb (Nat.eqb 0) (upd (shp xp) ax 1%nat)); [reflexivity|].
    pose (F := fun col : list nat -> res (list fl) => do _ <- mapM col (all_idx (upd (shp xp) ax 1%nat)) ;;
      Ok (mkArr (upd (shp xp) ax (List.length x)) (fun i => match col i with Ok r => nth (nth ax i 0%nat) r nnan | Err _ => nnan end))).
    change (F (fun idx => interp_with m (map s x) (col_at (amap s xp) ax idx (nth ax (shp xp) 0%nat)) (col_at var ax idx (nth ax (shp xp) 0%nat)))
      = F (fun idx => interp_with m x (col_at xp ax idx (nth ax (shp xp) 0%nat)) (col_at var ax idx (nth ax (shp xp) 0%nat)))).
    rewrite E. reflexivity.
  Qed.
  Lemma blocks_scale m x cs ax k xp var :
    map_blocks (fun a v => interp_nd m (map s x) a v ax) cs ax k (amap s xp) var = map_blocks (fun a v => interp_nd m x a v ax) cs ax k xp var.
  Proof.
    unfold map_blocks. cbv zeta.
    assert (E : (fun b => interp_nd m (map s x) (block b (amap s xp)) (block b var) ax) = (fun b => interp_nd m x (block b xp) (block b var) ax)).
    { apply functional_extensionality. intros b. change (block b (amap s xp)) with (amap s (block b xp)). apply interp_nd_scale. }
    pose (F := fun at_block : list (nat * nat) -> res (arr fl) =>
      do _ <- mapM at_block (product (map (fun z => chunk_starts z 0) (join_axis ax cs))) ;;
      Ok (mkArr (upd (shp var) ax k)
            (fun i => let i0 := upd i ax 0%nat in
                    let b := map (fun p => chunk_of (fst p) 0%nat (snd p)) (combine (join_axis ax cs) i0) in
                    let off := upd (map (fun p => (snd p - fst (fst p))%nat) (combine b i0)) ax (nth ax i 0%nat) in
                    match at_block b with Ok r => get r off | Err _ => nnan end))).
    change (F (fun b => interp_nd m (map s x) (block b (amap s xp)) (block b var) ax) = F (fun b => interp_nd m x (block b xp) (block b var) ax)).
    rewrite E. reflexivity.
  Qed.
  Lemma temp_scale t l p ps phi : temp_extrapolate t (s l) (s p) (s ps) phi = temp_extrapolate t l p ps phi.
  Proof. unfold temp_extrapolate. rewrite !(sc_div c cpos). reflexivity. Qed.
  Lemma geo_scale t l p ps phi : geo_height_extrapolate t (s l) (s p) (s ps) phi = geo_height_extrapolate t l p ps phi.
  Proof. unfold geo_height_extrapolate. rewrite !(sc_div c cpos). reflexivity. Qed.
  Lemma transpose_dmap ds d : xr_transpose ds (dmap s d) = rmap (dmap s) (xr_transpose ds d).
  Proof. unfold xr_transpose. change (dims (dmap s d)) with (dims d). destruct (same_names ds (dims d)); reflexivity. Qed.

  (** the coordinates of the result *)
  Definition cu (cs : list (string * coordv fl)) : list (string * coordv fl) :=
    map (fun p => if String.eqb (fst p) "plev" then (fst p, mkCoord (cdims (snd p)) (amap s (cdat (snd p)))) else p) cs.
  Lemma cu_fst cs : map fst (cu cs) = map fst cs.
  Proof. unfold cu. rewrite map_map. apply map_ext. intros [n k]. cbn. destruct (String.eqb n "plev"); reflexivity. Qed.
  Lemma cu_units cs : coords_units "plev" c cs (cu cs).
  Proof.
    split; [apply cu_fst|]. split; [|intros m Hm]; induction cs as [|[n k] t IH]; try reflexivity; cbn [cu map slookup fst snd].
    - destruct (String.eqb n "plev") eqn:E.
      + apply String.eqb_eq in E. subst n. rewrite String.eqb_refl. reflexivity.
      + rewrite String.eqb_sym, E. exact IH.
    - destruct (String.eqb n "plev") eqn:E.
      + apply String.eqb_eq in E. subst n. destruct (String.eqb_spec m "plev"); [contradiction|]. exact IH.
      + destruct (String.eqb m n); [reflexivity|]. exact IH.
  Qed.
  Lemma cu_sset n v cs : n <> "plev"%string -> sset n v (cu cs) = cu (sset n v cs).
  Proof.
    intros Hn. assert (Q : String.eqb n "plev" = false) by (apply String.eqb_neq; exact Hn).
    induction cs as [|[k w] t IH]; [cbn; rewrite Q; reflexivity|]. unfold cu in *. cbn [map fst snd sset].
    destruct (String.eqb k "plev") eqn:E; cbn [sset].
    - apply String.eqb_eq in E. subst k. rewrite Q. cbn [map fst snd]. rewrite String.eqb_refl, IH. reflexivity.
    - destruct (String.eqb_spec n k) as [->|]; cbn [map fst snd]; rewrite ?E, ?Q; [reflexivity|]. rewrite IH. reflexivity.
  Qed.
  Lemma cu_sset_plev levels cs : sset "plev"%string (plev_coord (map s levels)) (cu cs) = cu (sset "plev"%string (plev_coord levels) cs).
  Proof.
    assert (P : plev_coord (map s levels) = mkCoord (cdims (plev_coord levels)) (amap s (cdat (plev_coord levels)))).
    { unfold plev_coord. cbn [cdims cdat]. change nnan with NaN. rewrite vec_scale. reflexivity. }
    rewrite P. generalize (plev_coord levels). intros v.
    induction cs as [|[k w] t IH]; [reflexivity|]. unfold cu in *. cbn [map fst snd sset].
    destruct (String.eqb k "plev") eqn:E; cbn [sset].
    - apply String.eqb_eq in E. subst k. rewrite String.eqb_refl. reflexivity.
    - rewrite String.eqb_sym, E. cbn [map fst snd]. rewrite E, IH. reflexivity.
  Qed.
  Lemma out_coords_scale lev levels cs : (In "plev"%string (map fst cs) -> lev = "plev"%string) -> out_coords lev (map s levels) cs = cu (out_coords lev levels cs).
  Proof.
    unfold out_coords. change (@nil (string * coordv fl)) with (cu []) at 1. generalize (@nil (string * coordv fl)). induction cs as [|[k w] t IH]; intros acc H; [reflexivity|].
    cbn [fold_left fst snd]. destruct (String.eqb_spec k lev) as [E|E].
    - rewrite cu_sset_plev. apply IH. intros I. apply H. right. exact I.
    - rewrite cu_sset.
      + apply IH. intros I. apply H. right. exact I.
      + intros ->. apply E. symmetry. apply H. left. reflexivity.
  Qed.
  Lemma forallb_in {A} (f g : A -> bool) l : (forall x, In x l -> f x = g x) -> forallb f l = forallb g l.
  Proof. induction l; cbn; intros H; auto. rewrite H by auto. rewrite IHl; auto. Qed.
  Lemma fits_cu x ds g cs ats nm : ~ In "plev"%string (dims x) -> fits x (mkDa ds g (cu cs) ats nm) = fits x (mkDa ds g cs ats nm).
  Proof.
    intros Hx. unfold fits. f_equal. unfold labels_agree. cbn [dims]. apply forallb_in. intros d Hd. apply filter_In in Hd. destruct Hd as [Hd _].
    assert (Q : index_labels (mkDa ds g (cu cs) ats nm) d = index_labels (mkDa ds g cs ats nm) d).
    { unfold index_labels. cbn [coords]. destruct (cu_units cs) as (_ & _ & K). rewrite K; [reflexivity|]. intros ->. contradiction. }
    rewrite Q. reflexivity.
  Qed.
  Lemma extrap_scale lev data ds g cs ats nm pr ps variable tb phi :
    ~ In "plev"%string (dims ps) ->
    (forall t, tb = Some t -> ~ In "plev"%string (dims t)) -> (forall t, phi = Some t -> ~ In "plev"%string (dims t)) ->
    outcomes (plev_units c) (vertical_remap_extrap lev data (mkDa ds g cs ats nm) pr ps variable tb phi)
      (vertical_remap_extrap lev data (mkDa ds g (cu cs) ats nm) (dmap s pr) (dmap s ps) variable tb phi).
  Proof.
    intros Hp Ht Hf. unfold vertical_remap_extrap. change (sfc_index (dmap s pr) lev) with (sfc_index pr lev).
    destruct (sfc_index pr lev) as [k|e]; cbn [bind]; [|reflexivity]. cbn [coords dims dat].
    destruct (cu_units cs) as (_ & L & _). rewrite L. destruct (slookup "plev" cs) as [pv|]; cbn [option_map oget bind]; [|reflexivity].
    assert (F : forallb (fun d => fits d (mkDa ds g (cu cs) ats nm)) (dmap s ps :: match variable with
                         | Some v => if String.eqb v "other" then [] else match tb, phi with Some t, Some p => [t; p] | _, _ => [] end | None => [] end)
      = forallb (fun d => fits d (mkDa ds g cs ats nm)) (ps :: match variable with
                         | Some v => if String.eqb v "other" then [] else match tb, phi with Some t, Some p => [t; p] | _, _ => [] end | None => [] end)).
    { cbn [forallb]. rewrite fits_cu by exact Hp. change (fits (dmap s ps) (mkDa ds g cs ats nm)) with (fits ps (mkDa ds g cs ats nm)). f_equal.
      destruct variable as [v|]; [|reflexivity]. destruct (String.eqb v "other"); [reflexivity|]. destruct tb as [t|], phi as [p|]; try reflexivity.
      cbn [forallb]. rewrite !fits_cu by auto. reflexivity. }
    rewrite F. match goal with |- outcomes _ (if ?b then _ else _) _ => destruct b end; [reflexivity|].
    cbn [outcomes]. unfold plev_units. cbn [dims dat coords attrs daname]. repeat split; try apply cu_units. f_equal.
    apply functional_extensionality. intros i. unfold getn. cbn [dmap dat dims amap get cdat]. rewrite (sc_le c cpos).
    destruct variable as [v|]; [|reflexivity]. destruct tb as [t|]; [|reflexivity]. destruct phi as [p|]; [|reflexivity].
    rewrite temp_scale, geo_scale. reflexivity.
  Qed.
  Lemma ihp_compute_scale lev m data ps ya yb levels p0 a :
    (In "plev"%string (map fst (coords data)) -> lev = "plev"%string) ->
    (a_extrapolate a = true -> ~ In "plev"%string (dims ps) /\
       (forall t, a_t_bot a = Some t -> ~ In "plev"%string (dims t)) /\ (forall t, a_phi_sfc a = Some t -> ~ In "plev"%string (dims t))) ->
    outcomes (plev_units c) (ihp_compute lev m data ps ya yb levels p0 a) (ihp_compute lev m data (dmap s ps) ya yb (map s levels) (s p0) a).
  Proof.
    intros Hc Hx. unfold ihp_compute. destruct (oget ValueError (sindex lev (dims data))) as [ax|e]; cbn [bind]; [|reflexivity].
    change (VDa (dmap s ps)) with (val_units c (VDa ps)). rewrite c120_press by exact cpos.
    destruct (pressure_at_hybrid_levels (VDa ps) (VDa ya) (VDa yb) p0) as [[w pr]|e]; cbn [rmap bind fst snd]; [|reflexivity].
    destruct pr as [x|pr0|x|]; cbn [val_units]; try reflexivity. rewrite units_dmap, transpose_dmap.
    destruct (xr_transpose (dims data) pr0) as [pressure|e]; cbn [rmap bind]; [|reflexivity]. cbv zeta.
    change (shp (dat (dmap s pressure))) with (shp (dat pressure)). change (dat (dmap s pressure)) with (amap s (dat pressure)).
    rewrite map_length, interp_nd_scale.
    match goal with |- context [if ?b then match chunks a with _ => _ end else _] => destruct b end.
    - destruct (chunks a) as [cs|]; [|reflexivity]. destruct (negb (shape_eqb _ _)); [reflexivity|]. rewrite blocks_scale.
      destruct (map_blocks _ cs ax (List.length levels) (dat pressure) (dat data)) as [out|e]; cbn [bind]; [|reflexivity].
      destruct (negb _); [reflexivity|]. rewrite out_coords_scale by exact Hc.
      assert (G : forallb (fun p => coord_ok (upd (dims data) ax "plev"%string) (shp out) (snd p)) (cu (out_coords lev levels (coords data)))
        = forallb (fun p => coord_ok (upd (dims data) ax "plev"%string) (shp out) (snd p)) (out_coords lev levels (coords data))).
      { generalize (out_coords lev levels (coords data)). intros l. induction l as [|[n k] t IH]; [reflexivity|]. unfold cu in *. cbn [map forallb fst snd]. rewrite IH.
        destruct (String.eqb n "plev"); reflexivity. }
      rewrite G. destruct (negb (forallb _ _)); [reflexivity|]. destruct (a_extrapolate a) eqn:X.
      + destruct (Hx eq_refl) as (H1 & H2 & H3). apply extrap_scale; auto.
      + cbn [outcomes]. unfold plev_units. cbn [dims dat coords attrs daname]. repeat split; try apply cu_units.
    - destruct (interp_nd m levels (dat pressure) (dat data) ax) as [out|e]; cbn [bind]; [|reflexivity].
      destruct (negb _); [reflexivity|]. rewrite out_coords_scale by exact Hc.
      assert (G : forallb (fun p => coord_ok (upd (dims data) ax "plev"%string) (shp out) (snd p)) (cu (out_coords lev levels (coords data)))
        = forallb (fun p => coord_ok (upd (dims data) ax "plev"%string) (shp out) (snd p)) (out_coords lev levels (coords data))).
      { generalize (out_coords lev levels (coords data)). intros l. induction l as [|[n k] t IH]; [reflexivity|]. unfold cu in *. cbn [map forallb fst snd]. rewrite IH.
        destruct (String.eqb n "plev"); reflexivity. }
      rewrite G. destruct (negb (forallb _ _)); [reflexivity|]. destruct (a_extrapolate a) eqn:X.
      + destruct (Hx eq_refl) as (H1 & H2 & H3). apply extrap_scale; auto.
      + cbn [outcomes]. unfold plev_units. cbn [dims dat coords attrs daname]. repeat split; try apply cu_units.
  Qed.
  Lemma c120_ihp data ps ya yb levels p0 a :
    (forall d, as_da data = Some d -> In "plev"%string (map fst (coords d)) -> level_name a = Some "plev"%string) ->
    (a_extrapolate a = true -> (forall t, as_da ps = Some t \/ a_t_bot a = Some t \/ a_phi_sfc a = Some t -> ~ In "plev"%string (dims t))) ->
    outcomes (plev_units c) (interp_hybrid_to_pressure data ps ya yb levels p0 a)
      (interp_hybrid_to_pressure data (val_units c ps) ya yb (map s levels) (s p0) a).
  Proof.
    intros Hc Hx. unfold interp_hybrid_to_pressure, ihp_checks.
    assert (O : one_type data (val_units c ps) ya yb = one_type data ps ya yb) by (destruct ps; reflexivity). rewrite O.
    destruct (negb (one_type data ps ya yb)); [reflexivity|]. destruct (a_extrapolate a && is_none (a_variable a)); [reflexivity|].
    destruct (var_needs_fields (a_variable a) && (is_none (a_t_bot a) || is_none (a_phi_sfc a))); [reflexivity|].
    destruct (negb (var_known (a_variable a))); [reflexivity|].
    assert (LN : forall l, match a_lev_dim a with Some l => Ok l | None => oget ValueError (cf_name a) end = Ok l -> level_name a = Some l).
    { intros l. unfold level_name. destruct (a_lev_dim a); [congruence|]. destruct (cf_name a); cbn; congruence. }
    destruct (match a_lev_dim a with Some l => Ok l | None => oget ValueError (cf_name a) end) as [l|e]; cbn [bind]; [|reflexivity].
    specialize (LN l eq_refl). destruct (func_interpolate (a_method a)) as [m|e]; cbn [bind fst snd]; [|reflexivity].
    assert (K : forall d p x y, as_da data = Some d -> as_da ps = Some p -> outcomes (plev_units c) (ihp_compute l m d p x y levels p0 a) (ihp_compute l m d (da_units c p) x y (map s levels) (s p0) a)).
    { intros d p x y Ed Ep. apply ihp_compute_scale.
      - intros I. specialize (Hc d Ed I). congruence.
      - intros X. specialize (Hx X). split; [apply Hx; auto|]. split; intros t Et; apply Hx; auto. }
    destruct data as [?|d|d|], ps as [?|p|p|], ya as [?|x|x|], yb as [?|y|y|]; cbn [val_units]; try reflexivity; apply K; reflexivity.
  Qed.
End Ihp.
