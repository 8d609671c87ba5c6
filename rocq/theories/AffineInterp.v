(** Change of the unit of the interpolated field (C121). *)
From Coq Require Import Reals List Bool Arith ZArith Lra Lia String FunctionalExtensionality.
From Verif Require Import PyBase PyFacts Num NumFacts Arr ArrFacts Hybrid DeltaP Interp1d InterpHyb InterpSigma InterpSigmaFull InterpMulti SpecUnits UnitScale SpecAffine.
Import ListNotations.
Local Open Scope R_scope.

Section Affine.
  Variables a b : R.
  Hypothesis a0 : a <> 0.
  Local Notation f := (convert a b).
  Local Notation g := (fun x => nmul (Fin a) x).
  Ltac sg := unfold fl_infsgn; destruct (Req_EM_T a 0) as [?|_]; [contradiction|].
  Lemma g_add x y : nadd (g x) (g y) = g (nadd x y).
  Proof. destruct x, y; cbn; auto; try (f_equal; ring); sg; destruct (Rlt_dec 0 a); reflexivity. Qed.
  Lemma f_sub x y : nsub (f x) (f y) = g (nsub x y).
  Proof. unfold convert. destruct x, y; cbn; auto; try (f_equal; ring); sg; destruct (Rlt_dec 0 a); reflexivity. Qed.
  Lemma f_add x e : nadd (f x) (g e) = f (nadd x e).
  Proof. unfold convert. destruct x, e; cbn; auto; try (f_equal; ring); sg; destruct (Rlt_dec 0 a); reflexivity. Qed.
  Lemma f_add' x e : nadd (g e) (f x) = f (nadd e x).
  Proof. unfold convert. destruct x, e; cbn; auto; try (f_equal; ring); sg; destruct (Rlt_dec 0 a); reflexivity. Qed.
  Ltac brute := cbn; unfold fl_infsgn; repeat (match goal with |- context[Req_EM_T ?x ?y] => destruct (Req_EM_T x y) | |- context [Rlt_dec ?x ?y] => destruct (Rlt_dec x y) end; cbn; unfold fl_infsgn);
    try reflexivity; try contradiction;
    repeat match goal with H : ?x <> 0 |- _ => apply Rdichotomy in H; destruct H end; try (exfalso; nra).
  Lemma g_mul d w : nmul (g d) w = g (nmul d w).
  Proof. pose proof a0 as A. destruct d as [d| | |], w as [w| | |]; brute; f_equal; ring. Qed.
  Lemma g_div d w : ndiv (g d) w = g (ndiv d w).
  Proof. pose proof a0 as A. destruct d as [d| | |], w as [w| | |]; brute; f_equal; try (field; lra); ring. Qed.
  Lemma f_nan : f NaN = NaN.
  Proof. reflexivity. Qed.
  Lemma f_isnan x : isnan (f x) = isnan x.
  Proof. unfold convert. destruct x; cbn; auto; sg; destruct (Rlt_dec 0 a); reflexivity. Qed.
  Lemma f_eqb x y : neqb (f x) (f y) = neqb x y.
  Proof.
    unfold convert. destruct x as [x| | |], y as [y| | |]; cbn; auto; try (sg; destruct (Rlt_dec 0 a); reflexivity).
    unfold reqb. destruct (Req_EM_T x y) as [->|N]; [destruct (Req_EM_T _ _); [reflexivity|contradiction]|].
    destruct (Req_EM_T (a * x + b) (a * y + b)) as [Q|Q]; [|reflexivity]. exfalso. apply N. apply (Rmult_eq_reg_l a); [lra|exact a0].
  Qed.
  (** ** one column *)
  Definition onval (p : fl * fl) : fl * fl := (fst p, f (snd p)).
  Lemma insert_val p l : insert (onval p) (map onval l) = map onval (insert p l).
  Proof. induction l as [|q t IH]; [reflexivity|]. cbn. destruct (key_lt (fst q) (fst p)); cbn; [rewrite IH|]; reflexivity. Qed.
  Lemma isort_val l : isort (map onval l) = map onval (isort l).
  Proof. unfold isort. induction l as [|p t IH]; [reflexivity|]. cbn. rewrite IH. apply insert_val. Qed.
  Lemma combine_val (xs ys : list fl) : combine xs (map f ys) = map onval (combine xs ys).
  Proof. revert ys. induction xs as [|x t IH]; intros [|y u]; cbn; auto. rewrite IH. reflexivity. Qed.
  Lemma fst_val l : map fst (map onval l) = map fst l.
  Proof. rewrite map_map. reflexivity. Qed.
  Lemma interp_at_val l x : interp_at (map onval l) x = rmap f (interp_at l x).
  Proof.
    unfold interp_at. rewrite map_length, fst_val. cbv zeta. rewrite !pyget_map, bind_rmap, rmap_bind. apply bind_ext. intros u.
    rewrite bind_rmap, rmap_bind. apply bind_ext. intros v. unfold onval. cbn [fst snd rmap]. f_equal.
    destruct (Nat.eqb _ _); [reflexivity|]. destruct (nlt x (fst v)); [reflexivity|]. rewrite f_sub, g_mul. apply f_add.
  Qed.
  Lemma interp_with_val m x xp var : interp_with m x xp (map f var) = rmap (map f) (interp_with m x xp var).
  Proof.
    assert (K : forall x xp, interp_col x xp (map f var) = rmap (map f) (interp_col x xp var)).
    { clear x xp. intros x xp. destruct x as [|x0 x]; [reflexivity|]. unfold interp_col. rewrite combine_val, isort_val.
      rewrite (mapM_fun_ext _ (fun y => rmap f (interp_at (isort (combine xp var)) y))) by (intros; apply interp_at_val).
      rewrite mapM_rmap, bind_rmap, rmap_bind. apply bind_ext. intros r. cbn [rmap]. f_equal. destruct (nlt _ _); [symmetry; apply map_rev|reflexivity]. }
    destruct m; apply K.
  Qed.
  Lemma f_nth k l : nth k (map f l) NaN = f (nth k l NaN).
  Proof. change NaN with (f NaN) at 1. apply map_nth. Qed.
  Lemma interp_nd_val m x xp var ax : interp_nd m x xp (amap f var) ax = rmap (amap f) (interp_nd m x xp var ax).
  Proof.
    unfold interp_nd. cbn [amap shp]. cbv zeta.
    destruct (negb _); [reflexivity|]. destruct (existsb _ _); [reflexivity|].
    assert (E : (fun idx => interp_with m x (col_at xp ax idx (nth ax (shp xp) 0%nat)) (col_at (amap f var) ax idx (nth ax (shp xp) 0%nat)))
      = (fun idx => rmap (map f) (interp_with m x (col_at xp ax idx (nth ax (shp xp) 0%nat)) (col_at var ax idx (nth ax (shp xp) 0%nat))))).
    { apply functional_extensionality. intros idx. rewrite <- interp_with_val. f_equal. unfold col_at. rewrite map_map. reflexivity. }
    pose (F := fun col : list nat -> res (list fl) => do _ <- mapM col (all_idx (upd (shp xp) ax 1%nat)) ;;
      Ok (mkArr (upd (shp xp) ax (List.length x)) (fun i => match col i with Ok r => nth (nth ax i 0%nat) r nnan | Err _ => nnan end))).
    change (F (fun idx => interp_with m x (col_at xp ax idx (nth ax (shp xp) 0%nat)) (col_at (amap f var) ax idx (nth ax (shp xp) 0%nat)))
      = rmap (amap f) (F (fun idx => interp_with m x (col_at xp ax idx (nth ax (shp xp) 0%nat)) (col_at var ax idx (nth ax (shp xp) 0%nat))))).
    rewrite E. unfold F. rewrite mapM_rmap, bind_rmap, rmap_bind. apply bind_ext. intros r. cbn [rmap]. f_equal. unfold amap. cbn [shp get]. f_equal.
    apply functional_extensionality. intros i. destruct (interp_with m x _ _); cbn [rmap]; [apply f_nth|reflexivity].
  Qed.
  Lemma blocks_val m x cs ax k xp var :
    map_blocks (fun y v => interp_nd m x y v ax) cs ax k xp (amap f var) = rmap (amap f) (map_blocks (fun y v => interp_nd m x y v ax) cs ax k xp var).
  Proof.
    unfold map_blocks. cbv zeta. cbn [amap shp].
    assert (E : (fun bl => interp_nd m x (block bl xp) (block bl (amap f var)) ax) = (fun bl => rmap (amap f) (interp_nd m x (block bl xp) (block bl var) ax))).
    { apply functional_extensionality. intros bl. change (block bl (amap f var)) with (amap f (block bl var)). apply interp_nd_val. }
    pose (F := fun at_block : list (nat * nat) -> res (arr fl) =>
      do _ <- mapM at_block (product (map (fun z => chunk_starts z 0) (join_axis ax cs))) ;;
      Ok (mkArr (upd (shp var) ax k)
            (fun i => let i0 := upd i ax 0%nat in
                    let b := map (fun p => chunk_of (fst p) 0%nat (snd p)) (combine (join_axis ax cs) i0) in
                    let off := upd (map (fun p => (snd p - fst (fst p))%nat) (combine b i0)) ax (nth ax i 0%nat) in
                    match at_block b with Ok r => get r off | Err _ => nnan end))).
    change (F (fun bl => interp_nd m x (block bl xp) (block bl (amap f var)) ax) = rmap (amap f) (F (fun bl => interp_nd m x (block bl xp) (block bl var) ax))).
    rewrite E. unfold F. rewrite mapM_rmap, bind_rmap, rmap_bind. apply bind_ext. intros r. cbn [rmap]. f_equal. unfold amap. cbn [shp get]. f_equal.
    apply functional_extensionality. intros i. cbv zeta. destruct (interp_nd m x _ _ ax); reflexivity.
  Qed.
  (** ** interp_hybrid_to_pressure *)
  Lemma extrap_val lev data ds o cs ats nm pr ps variable tb phi :
    variable <> Some "temperature"%string -> variable <> Some "geopotential"%string ->
    vertical_remap_extrap lev (dmap f data) (mkDa ds (amap f o) cs ats nm) pr ps variable tb phi
    = rmap (dmap f) (vertical_remap_extrap lev data (mkDa ds o cs ats nm) pr ps variable tb phi).
  Proof.
    intros N1 N2. unfold vertical_remap_extrap. destruct (sfc_index pr lev) as [k|e]; cbn [bind rmap]; [|reflexivity]. cbn [coords dims dat].
    destruct (slookup "plev" cs) as [pv|]; cbn [oget bind rmap]; [|reflexivity].
    match goal with |- context [negb (forallb ?F ?L)] => destruct (negb (forallb F L)) eqn:G end.
    - match goal with |- _ = rmap _ (if ?b then _ else _) => replace b with true by (rewrite <- G; reflexivity) end. reflexivity.
    - match goal with |- _ = rmap _ (if ?b then _ else _) => replace b with false by (rewrite <- G; reflexivity) end. cbn [rmap]. f_equal.
      match goal with |- mkDa _ (mkArr _ ?L) _ _ _ = dmap _ (mkDa _ (mkArr _ ?R) _ _ _) => assert (H : L = (fun i => f (R i))); [|rewrite H; reflexivity] end.
      apply functional_extensionality. intros i. unfold getn. cbn [dmap dat dims amap get cdat].
      assert (W : forall q x y, nwhere q (f x) (f y) = f (nwhere q x y)) by (intros []; reflexivity).
      destruct variable as [v|]; [|apply W]. destruct tb as [t|]; [|apply W]. destruct phi as [p|]; [|apply W].
      destruct (String.eqb_spec v "temperature"); [congruence|]. destruct (String.eqb_spec v "geopotential"); [congruence|]. apply W.
  Qed.
  Lemma ihp_compute_val lev m data ps ya yb levels p0 r :
    (a_extrapolate r = true -> a_variable r <> Some "temperature"%string /\ a_variable r <> Some "geopotential"%string) ->
    ihp_compute lev m (dmap f data) ps ya yb levels p0 r = rmap (dmap f) (ihp_compute lev m data ps ya yb levels p0 r).
  Proof.
    intros Hx. unfold ihp_compute. cbn [dmap dims dat coords attrs daname]. destruct (oget ValueError (sindex lev (dims data))) as [ax|e]; cbn [bind rmap]; [|reflexivity].
    destruct (pressure_at_hybrid_levels (VDa ps) (VDa ya) (VDa yb) p0) as [[w pr]|e]; cbn [rmap bind fst snd]; [|reflexivity].
    destruct pr as [x|pr0|x|]; try reflexivity.
    destruct (xr_transpose (dims data) pr0) as [pressure|e]; cbn [rmap bind]; [|reflexivity]. cbv zeta. cbn [amap shp]. fold (amap f (dat data)).
    change {| shp := shp (dat data); get := fun i => f (get (dat data) i) |} with (amap f (dat data)).
    assert (T : forall X : res (arr fl),
      (do out <- rmap (amap f) X ;;
       guard negb (if in_dec string_dec "plev"%string (dims data) then String.eqb lev "plev" else true) raise ValueError ;;
       guard negb (forallb (fun p => coord_ok (upd (dims data) ax "plev"%string) (shp out) (snd p)) (out_coords lev levels (coords data))) raise ValueError ;;
       if a_extrapolate r
       then vertical_remap_extrap lev (dmap f data) (mkDa (upd (dims data) ax "plev"%string) out (out_coords lev levels (coords data)) (attrs data) (daname data)) pressure ps (a_variable r) (a_t_bot r) (a_phi_sfc r)
       else Ok (mkDa (upd (dims data) ax "plev"%string) out (out_coords lev levels (coords data)) (attrs data) (daname data)))
      = rmap (dmap f) (do out <- X ;;
       guard negb (if in_dec string_dec "plev"%string (dims data) then String.eqb lev "plev" else true) raise ValueError ;;
       guard negb (forallb (fun p => coord_ok (upd (dims data) ax "plev"%string) (shp out) (snd p)) (out_coords lev levels (coords data))) raise ValueError ;;
       if a_extrapolate r
       then vertical_remap_extrap lev data (mkDa (upd (dims data) ax "plev"%string) out (out_coords lev levels (coords data)) (attrs data) (daname data)) pressure ps (a_variable r) (a_t_bot r) (a_phi_sfc r)
       else Ok (mkDa (upd (dims data) ax "plev"%string) out (out_coords lev levels (coords data)) (attrs data) (daname data)))).
    { intros [out|e]; [|reflexivity]. cbn [rmap bind]. destruct (negb (if in_dec _ _ _ then _ else _)); [reflexivity|].
      change (shp (amap f out)) with (shp out). destruct (negb (forallb _ _)); [reflexivity|]. destruct (a_extrapolate r).
      - apply extrap_val; apply Hx; reflexivity.
      - reflexivity. }
    rewrite <- T. f_equal. rewrite interp_nd_val.
    match goal with |- (if ?c then _ else _) = _ => destruct c end; [|reflexivity].
    destruct (chunks r) as [cs|]; [|reflexivity]. destruct (negb (shape_eqb _ _)); [reflexivity|]. apply blocks_val.
  Qed.
  Lemma c121_ihp data ps ya yb levels p0 r :
    (a_extrapolate r = true -> a_variable r <> Some "temperature"%string /\ a_variable r <> Some "geopotential"%string) ->
    interp_hybrid_to_pressure (val_convert a b data) ps ya yb levels p0 r = rmap (da_convert a b) (interp_hybrid_to_pressure data ps ya yb levels p0 r).
  Proof.
    intros Hx. unfold interp_hybrid_to_pressure.
    assert (O : ihp_checks (val_convert a b data) ps ya yb r = ihp_checks data ps ya yb r) by (destruct data; reflexivity). rewrite O, rmap_bind.
    apply bind_ext. intros [l m]. cbn [fst snd].
    destruct data as [?|d|d|], ps as [?|p|p|], ya as [?|x|x|], yb as [?|y|y|]; cbn [val_convert]; try reflexivity; apply (ihp_compute_val l m d p x y levels p0 r Hx).
  Qed.
  (** ** interp_sigma_to_hybrid *)
  Lemma vec_val l : vec NaN (map f l) = amap f (vec NaN l).
  Proof. unfold vec, amap. cbn [shp get]. rewrite map_length. f_equal. apply functional_extensionality. intros i. apply f_nth. Qed.
  Lemma c121_sigma data sig ps ya yb p0 ld cf m :
    interp_sigma_to_hybrid (da_convert a b data) sig ps ya yb p0 ld cf m = rmap (da_convert a b) (interp_sigma_to_hybrid data sig ps ya yb p0 ld cf m).
  Proof.
    change (da_convert a b) with (dmap f). unfold interp_sigma_to_hybrid. rewrite rmap_bind. apply bind_ext. intros lev. rewrite rmap_bind. apply bind_ext. intros me.
    rewrite rmap_bind. apply bind_ext. intros sigma. change (dims (dmap f data)) with (dims data). rewrite rmap_bind. apply bind_ext. intros ax. cbv zeta.
    destruct (negb (forallb _ _)); [reflexivity|]. rewrite rmap_bind. apply bind_ext. intros h. rewrite rmap_bind. apply bind_ext. intros nh.
    change (shp (dat (dmap f data))) with (shp (dat data)).
    change (sizes_of (dmap f data) (remove_at ax (dims data))) with (sizes_of data (remove_at ax (dims data))).
    rewrite rmap_bind. apply bind_ext. intros first.
    set (nd := remove_at ax (dims data)). set (hs := hd 0%nat (sizes_of sigma [h])). set (n := nth ax (shp (dat data)) 0%nat).
    set (L := combine (all_idx (sizes_of data nd)) (all_idx (sizes_of sigma nd))).
    assert (E : forall cc : list nat * list nat,
      (do r <- interp_nd me (col_by_name sigma nd (snd cc) h hs) (vec nnan sig) (vec nnan (col_by_name (dmap f data) nd (fst cc) lev n)) 0%nat ;;
       guard negb (shape_eqb (shp r) [Nat.min n nh]) raise ValueError ;; Ok r)
      = rmap (amap f) (do r <- interp_nd me (col_by_name sigma nd (snd cc) h hs) (vec nnan sig) (vec nnan (col_by_name data nd (fst cc) lev n)) 0%nat ;;
       guard negb (shape_eqb (shp r) [Nat.min n nh]) raise ValueError ;; Ok r)).
    { intros cc. replace (col_by_name (dmap f data) nd (fst cc) lev n) with (map f (col_by_name data nd (fst cc) lev n)) by (unfold col_by_name; rewrite map_map; reflexivity).
      change nnan with NaN. rewrite vec_val, interp_nd_val, bind_rmap, rmap_bind. apply bind_ext. intros r. change (shp (amap f r)) with (shp r).
      destruct (negb _); reflexivity. }
    rewrite (mapM_fun_ext _ _ L E), mapM_rmap, bind_rmap, rmap_bind. apply bind_ext. intros results.
    destruct (smem "hlev" (dims data) && negb (String.eqb lev "hlev")); [reflexivity|]. destruct (negb (Nat.eqb hs (Nat.min n nh))); [reflexivity|].
    cbn [rmap]. f_equal. change (attrs (dmap f data)) with (attrs data). change (daname (dmap f data)) with (daname data).
    match goal with |- mkDa _ (mkArr _ ?X) _ _ _ = dmap _ (mkDa _ (mkArr _ ?Y) _ _ _) => assert (H : X = (fun i => f (Y i))); [|rewrite H; reflexivity] end.
    apply functional_extensionality. intros i. rewrite nth_error_map. destruct (nth_error results _); reflexivity.
  Qed.
  Lemma c121_stored data sig ps ya yb p0 ld cf m :
    interp_sigma_stored (fun v => v) (da_convert a b data) sig ps ya yb p0 ld cf m = rmap (da_convert a b) (interp_sigma_stored (fun v => v) data sig ps ya yb p0 ld cf m).
  Proof.
    unfold interp_sigma_stored. rewrite rmap_bind. apply bind_ext. intros lev. rewrite c121_sigma, bind_rmap, rmap_bind. apply bind_ext. intros out.
    change (dims (da_convert a b data)) with (dims data). change (coords (da_convert a b data)) with (coords data). rewrite rmap_bind. apply bind_ext. intros ax. cbv zeta.
    destruct (_ && _ && _); reflexivity.
  Qed.
  (** ** interp_multidim *)
  Lemma val_nth k p : nth k (map onval p) (nnan, nnan) = onval (nth k p (nnan, nnan)).
  Proof. change (@nnan fl NumFl, @nnan fl NumFl) with (onval (NaN, NaN)) at 1. apply map_nth. Qed.
  Lemma interp_dim_val md fill xs ys x : interp_dim md (option_map f fill) xs (map f ys) x = f (interp_dim md fill xs ys x).
  Proof.
    unfold interp_dim. rewrite combine_val, isort_val. generalize (isort (combine xs ys)). intros p. destruct md.
    - unfold interp1d. rewrite map_length, fst_val. cbv zeta. rewrite !val_nth. unfold onval. cbn [fst snd]. rewrite f_sub, g_div, g_mul, f_add'.
      destruct fill as [v|]; cbn [option_map]; [|reflexivity]. destruct (nlt _ _ || nlt _ _); reflexivity.
    - unfold interp1d_nearest. rewrite map_length, fst_val. cbv zeta. rewrite !val_nth. unfold onval. cbn [fst snd].
      destruct fill as [v|]; cbn [option_map]; [|reflexivity]. destruct (nlt _ _ || nlt _ _); reflexivity.
  Qed.
  Lemma mask_val missing d : mask_missing (option_map f missing) (dmap f d) = dmap f (mask_missing missing d).
  Proof.
    destruct missing as [m|]; [|reflexivity]. unfold mask_missing. cbn [option_map]. unfold dmap. cbn [dims dat coords attrs daname]. f_equal. unfold amap. cbn [shp get]. f_equal.
    apply functional_extensionality. intros i. rewrite f_eqb. destruct (neqb _ m); reflexivity.
  Qed.
  Lemma fill_val missing d : fill_missing (option_map f missing) (dmap f d) = dmap f (fill_missing missing d).
  Proof.
    destruct missing as [m|]; [|reflexivity]. unfold fill_missing. cbn [option_map]. unfold dmap. cbn [dims dat coords attrs daname]. f_equal. unfold amap. cbn [shp get]. f_equal.
    apply functional_extensionality. intros i. rewrite f_isnan. destruct (isnan (get (dat d) i)); reflexivity.
  Qed.
  Lemma cyclic_val d : add_cyclic (dmap f d) = rmap (dmap f) (add_cyclic d).
  Proof.
    unfold add_cyclic. change (dims (dmap f d)) with (dims d). change (shp (dat (dmap f d))) with (shp (dat d)).
    destruct (dims d) as [|dy [|dx [|? ?]]]; try reflexivity. destruct (shp (dat d)) as [|ny [|nx [|? ?]]]; try reflexivity. destruct (Nat.eqb nx 0); reflexivity.
  Qed.
  Local Notation mdout := (field_convert a b).
  Lemma last2_val md fill d yo xo : outcomes (mdout fill) (interp_last2 md fill d yo xo) (interp_last2 md (option_map f fill) (dmap f d) yo xo).
  Proof.
    unfold interp_last2. change (dims (dmap f d)) with (dims d). change (shp (dat (dmap f d))) with (shp (dat d)). change (coords (dmap f d)) with (coords d).
    destruct (Nat.eqb _ 0 || Nat.eqb _ 0); [reflexivity|]. cbn [outcomes]. unfold field_convert. cbn [dims dat coords attrs daname]. split; [reflexivity|]. split.
    { unfold amap. cbn [shp get]. f_equal. apply functional_extensionality. intros i. rewrite <- interp_dim_val. f_equal. rewrite map_map. apply map_ext. intros k.
      rewrite <- interp_dim_val. f_equal. rewrite map_map. reflexivity. }
    split; [reflexivity|]. split; [reflexivity|]. split.
    - cbn [map fst]. rewrite !map_map. reflexivity.
    - intros E. rewrite <- E. reflexivity.
  Qed.
  Lemma c121_multi md data yo xo la lo cyclic missing fill :
    outcomes (mdout fill) (interp_multidim md data yo xo la lo cyclic missing fill)
      (interp_multidim md (val_convert a b data) yo xo la lo cyclic (option_map f missing) (option_map f fill)).
  Proof.
    unfold interp_multidim.
    assert (D : forall d, outcomes (mdout fill)
      (guard Nat.ltb (List.length (dims d)) 2 raise IndexError ;; let d := mask_missing missing d in do d <- (if cyclic then add_cyclic d else Ok d) ;;
       do out <- interp_last2 md fill d yo xo ;; Ok (fill_missing missing out))
      (guard Nat.ltb (List.length (dims (dmap f d))) 2 raise IndexError ;; let d := mask_missing (option_map f missing) (dmap f d) in do d <- (if cyclic then add_cyclic d else Ok d) ;;
       do out <- interp_last2 md (option_map f fill) d yo xo ;; Ok (fill_missing (option_map f missing) out))).
    { intros d. change (dims (dmap f d)) with (dims d). destruct (Nat.ltb _ 2); [reflexivity|]. cbv zeta. rewrite mask_val.
      replace (if cyclic then add_cyclic (dmap f (mask_missing missing d)) else Ok (dmap f (mask_missing missing d)))
        with (rmap (dmap f) (if cyclic then add_cyclic (mask_missing missing d) else Ok (mask_missing missing d))) by (destruct cyclic; [symmetry; apply cyclic_val|reflexivity]).
      destruct (if cyclic then _ else _) as [e|e]; cbn [rmap bind]; [|reflexivity].
      pose proof (last2_val md fill e yo xo) as K. destruct (interp_last2 md fill e yo xo) as [o|x], (interp_last2 md (option_map f fill) (dmap f e) yo xo) as [o'|x']; cbn [outcomes] in K; try contradiction; cbn [bind outcomes]; [|exact K].
      destruct K as (K1 & K2 & K3 & K4 & K5 & K6). destruct o as [ds ar cs ats nm], o' as [ds' ar' cs' ats' nm']. cbn [dims dat coords attrs daname] in *. subst.
      pose proof (fill_val missing (mkDa ds ar cs ats nm)) as FV. unfold dmap in FV at 1. cbn [dims dat coords attrs daname] in FV. unfold field_convert.
      destruct missing as [m|]; cbn [option_map fill_missing dims dat coords attrs daname] in *.
      - split; [reflexivity|]. split; [exact (f_equal dat FV)|]. split; [reflexivity|]. split; [reflexivity|]. split; [exact K5|exact K6].
      - split; [reflexivity|]. split; [reflexivity|]. split; [reflexivity|]. split; [reflexivity|]. split; [exact K5|exact K6]. }
    destruct data as [x|d|d|]; cbn [val_convert bind]; try apply D; try reflexivity.
    destruct la as [la|]; [|reflexivity]. destruct lo as [lo|]; [|reflexivity]. change (shp (amap f x)) with (shp x). destruct (negb (shape_eqb _ _)); [reflexivity|]. cbn [bind].
    apply (D (mkDa ["lat"; "lon"]%string x [("lat"%string, mkCoord ["lat"%string] (vec nnan la)); ("lon"%string, mkCoord ["lon"%string] (vec nnan lo))] [] None)).
  Qed.
End Affine.
(** the number type of the data changes the values only *)
Lemma c121_any_store store (data : da fl) sig ps ya yb p0 ld cf m :
  interp_sigma_stored store data sig ps ya yb p0 ld cf m = rmap (dmap store) (interp_sigma_stored (fun v => v) data sig ps ya yb p0 ld cf m).
Proof.
  unfold interp_sigma_stored. rewrite rmap_bind. apply bind_ext. intros lev. rewrite rmap_bind. apply bind_ext. intros out. rewrite rmap_bind. apply bind_ext. intros ax. cbv zeta.
  destruct (_ && _ && _); reflexivity.
Qed.
