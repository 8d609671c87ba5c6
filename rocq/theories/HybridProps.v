(** Property lemmas for [Hybrid] on the number type [fl]. *)
From Coq Require Import Reals List Bool Arith ZArith Lra Lia String.
From Verif Require Import PyBase Num NumFacts Arr ArrFacts XrFacts Spec Hybrid HybridFacts.
Import ListNotations.
Local Open Scope R_scope.

Lemma np_map2_err {A B C} (f : A -> B -> C) a b e : np_map2 f a b = Err e -> e = ValueError.
Proof. unfold np_map2. destruct (bshape _ _); intros H; congruence. Qed.
Lemma xr_map2_err (f : fl -> fl -> fl) a b e : xr_map2 f a b = Err e -> e = ValueError.
Proof.
  unfold xr_map2. destruct (xr_align a b). destruct (sizes_agree _ _); intros H; congruence.
Qed.
Lemma pressure_np_err (p a b : arr fl) p0 e : pressure_np p a b p0 = Err e -> e = ValueError.
Proof.
  unfold pressure_np. destruct (Nat.eqb _ _); [congruence|].
  destruct (np_map2 nmul _ _) as [t|] eqn:E; cbn [bind].
  - apply np_map2_err.
  - intros H. injection H as <-. eapply np_map2_err; eauto.
Qed.
Lemma pressure_xr_err (p a b : da fl) p0 e : pressure_xr p a b p0 = Err e -> e = ValueError.
Proof.
  unfold pressure_xr. destruct (xr_map2 nmul _ _) as [t|] eqn:E; cbn [bind].
  - destruct (xr_map2 nadd _ _) as [r|] eqn:E2; cbn [bind]; [discriminate|].
    intros H. injection H as <-. eapply xr_map2_err; eauto.
  - intros H. injection H as <-. eapply xr_map2_err; eauto.
Qed.

(** argument kinds *)
Definition numpy_arg (v : val fl) : Prop := match v with VNd _ => True | _ => False end.
Definition xarray_arg (v : val fl) : Prop := match v with VDa _ | VSubDa _ => True | _ => False end.
Definition all_of (P : val fl -> Prop) (x y z : val fl) : Prop := P x /\ P y /\ P z.

Lemma c08_type psfc hya hyb p0 :
  pressure_at_hybrid_levels psfc hya hyb p0 = Err TypeError <->
  ~ all_of numpy_arg psfc hya hyb /\ ~ all_of xarray_arg psfc hya hyb.
Proof.
  unfold pressure_at_hybrid_levels, all_of.
  destruct psfc as [p|p|p|], hya as [a|a|a|], hyb as [b|b|b|]; cbn;
    (split; [intros H|intros [H1 H2]]); try tauto; try (split; tauto);
    exfalso; destruct (shape_eqb _ _); cbn in H; try discriminate.
  all: try (destruct (ndim a) as [|[|m]]; cbn in H; try discriminate;
            destruct (pressure_np _ _ _ _) as [r|e] eqn:E; cbn in H; [discriminate|];
            apply pressure_np_err in E; congruence).
  all: try (match type of H with context [if ?c then _ else _] => destruct c end; [discriminate|];
            destruct (pressure_np _ _ _ _) as [r|e] eqn:E; cbn in H; [discriminate|];
            apply pressure_np_err in E; congruence).
  all: destruct (pressure_xr _ _ _ _) as [r|e] eqn:E; cbn in H; [discriminate|];
       apply pressure_xr_err in E; congruence.
Qed.

Lemma c08_shape psfc hya hyb p0 :
  all_of numpy_arg psfc hya hyb \/ all_of xarray_arg psfc hya hyb ->
  vshape hya <> vshape hyb \/ (numpy_arg hya /\ (1 < List.length (vshape hya))%nat) ->
  pressure_at_hybrid_levels psfc hya hyb p0 = Err ValueError.
Proof.
  unfold pressure_at_hybrid_levels, all_of.
  destruct psfc as [p|p|p|], hya as [a|a|a|], hyb as [b|b|b|]; cbn; try tauto;
    intros _ [H|[Hn H]]; try tauto;
    match goal with |- context [shape_eqb ?x ?y] => destruct (shape_eqb_spec x y) as [E|E] end; cbn; auto;
    try contradiction.
  unfold ndim. destruct (List.length (shp a)) as [|[|m]]; try lia. reflexivity.
Qed.

Lemma c08_value psfc hya hyb p0 e :
  pressure_at_hybrid_levels psfc hya hyb p0 = Err e -> e = TypeError \/ e = ValueError.
Proof.
  unfold pressure_at_hybrid_levels.
  destruct psfc as [p|p|p|], hya as [a|a|a|], hyb as [b|b|b|]; cbn; try (intros H; injection H as <-; tauto);
    destruct (shape_eqb _ _); cbn; try (intros H; injection H as <-; tauto).
  all: try (match goal with |- (if ?c then _ else _) = _ -> _ => destruct c end; [intros H; injection H as <-; tauto|];
            destruct (pressure_np _ _ _ _) as [r|e'] eqn:E; cbn; intros H; [discriminate|];
            injection H as <-; right; eapply pressure_np_err; eauto).
  all: destruct (pressure_xr _ _ _ _) as [r|e'] eqn:E; cbn; intros H; [discriminate|];
       injection H as <-; right; eapply pressure_xr_err; eauto.
Qed.

(** unwrap a DataArray argument *)
Definition as_da {T} (v : val T) : option (da T) := match v with VDa d | VSubDa d => Some d | _ => None end.

Lemma c07_lemma {T} {N : Num T} (vp va vb : val T) psfc hya hyb p0 la lb n :
  as_da vp = Some psfc -> as_da va = Some hya -> as_da vb = Some hyb ->
  dims hya = [la] -> dims hyb = [lb] -> shp (dat hya) = [n] -> shp (dat hyb) = [n] ->
  wf_da psfc -> ~ In la (dims psfc) -> slookup la (coords psfc) = None ->
  wf_coords hyb -> (la <> lb -> slookup la (coords hyb) = None) ->
  same_labels (index_labels hya la) (index_labels hyb lb) ->
  exists r, pressure_at_hybrid_levels vp va vb p0 = Ok (negb (String.eqb la lb), VDa r) /\
    dims r = la :: dims psfc /\ shp (dat r) = n :: shp (dat psfc) /\
    forall k idx, List.length idx = List.length (dims psfc) ->
      get (dat r) (k :: idx) = nadd (nmul (get (dat hya) [k]) p0) (nmul (get (dat hyb) [k]) (get (dat psfc) idx)).
Proof.
  intros Hp Ha Hb Da Db Sa Sb. intros.
  destruct (pressure_xr_spec psfc hya hyb p0 la lb n) as (r & E & Dr & Sr & Gr); auto.
  exists r. split; [|auto].
  unfold pressure_at_hybrid_levels.
  destruct vp, va, vb; try discriminate; injection Hp as ->; injection Ha as ->; injection Hb as ->; cbn -[pressure_xr];
    rewrite Sa, Sb; (destruct (shape_eqb_spec [n] [n]); [|contradiction]); cbn -[pressure_xr]; rewrite E; reflexivity.
Qed.

Lemma c09_lemma {T} {N : Num T} (psfc hya hyb : arr T) p0 n :
  shp hya = [n] -> shp hyb = [n] -> (ndim psfc <= 2)%nat ->
  exists r, pressure_at_hybrid_levels (VNd psfc) (VNd hya) (VNd hyb) p0 = Ok (false, VNd r) /\
    shp r = n :: np_shape2 psfc /\
    forall k i j, inb (n :: np_shape2 psfc) [k; i; j] ->
      get r [k; i; j] = nadd (nmul (get hya [k]) p0) (nmul (get hyb [k]) (np_cell psfc i j)).
Proof.
  intros Sa Sb Hp. destruct (pressure_np_spec psfc hya hyb p0 n Sa Sb Hp) as (r & E & Sr & Gr).
  exists r. split; auto. unfold pressure_at_hybrid_levels. cbn -[pressure_np]. rewrite Sa, Sb.
  destruct (shape_eqb_spec [n] [n]); [|contradiction]. unfold ndim. rewrite Sa. cbn -[pressure_np].
  rewrite E. reflexivity.
Qed.

Lemma c09_rank3 psfc hya hyb p0 n nt x y :
  shp hya = [n] -> shp hyb = [n] -> shp psfc = [nt; x; y] ->
  (n <> nt -> n <> 1%nat -> nt <> 1%nat ->
     pressure_at_hybrid_levels (VNd psfc) (VNd hya) (VNd hyb) p0 = Err ValueError) /\
  (n = nt -> exists r, pressure_at_hybrid_levels (VNd psfc) (VNd hya) (VNd hyb) p0 = Ok (false, VNd r) /\
     shp r = [n; x; y] /\
     forall k i j, inb [n; x; y] [k; i; j] ->
       get r [k; i; j] = nadd (nmul (get hya [k]) p0) (nmul (get hyb [k]) (get psfc [k; i; j]))).
Proof.
  intros Sa Sb Sp. destruct (pressure_np_rank3 psfc hya hyb p0 n nt x y Sa Sb Sp) as [H1 H2].
  unfold pressure_at_hybrid_levels. cbn -[pressure_np]. rewrite Sa, Sb.
  destruct (shape_eqb_spec [n] [n]); [|contradiction]. unfold ndim. rewrite Sa. cbn -[pressure_np].
  split.
  - intros. rewrite H1 by auto. reflexivity.
  - intros ->. destruct H2 as (r & E & Sr & Gr); auto. rewrite E. exists r. split; [reflexivity|].
    assert (Sr' : shp r = [nt; x; y]) by (rewrite Sr; destruct (Nat.eqb_spec nt 1); subst; auto).
    split; auto. intros k i j Hk. rewrite Gr by (rewrite Sr'; auto).
    apply inb_cons in Hk. destruct Hk as [Hk _].
    destruct (Nat.eqb_spec nt 1); auto. subst. replace k with 0%nat by lia. reflexivity.
Qed.

(** ** delta_pressure_hybrid *)
Lemma nabs_sub_fin a b : nabs (nsub (Fin a) (Fin b)) = Fin (Rabs (a - b)).
Proof. reflexivity. Qed.

Lemma c10_np {T} {N : Num T} (ps : arr T) va vb hya hyb p0 n :
  vvalues va = hya -> vvalues vb = hyb -> exact_type va = true -> exact_type vb = true -> is_nd va = is_nd vb ->
  shp hya = [n] -> shp hyb = [n] -> (ndim ps <= 2)%nat ->
  exists r, delta_pressure_hybrid (VNd ps) va vb true p0 = Ok (VNd r) /\
    shp r = (n - 1)%nat :: np_shape2 ps /\
    forall k i j, inb ((n - 1)%nat :: np_shape2 ps) [k; i; j] ->
      get r [k; i; j] = nabs (nsub (hybp hya hyb p0 k (np_cell ps i j)) (hybp hya hyb p0 (S k) (np_cell ps i j))).
Proof.
  intros Ha Hb Ta Tb Tab Sa Sb Hp.
  destruct (dph_np_spec ps hya hyb p0 n Sa Sb Hp) as (r & E & Sr & Gr). exists r. split; auto.
  unfold delta_pressure_hybrid. cbn [forallb exact_type]. rewrite Ta, Tb, Tab. cbn [andb negb].
  rewrite Bool.eqb_reflx. cbn [negb]. rewrite Ha, Hb.
  assert (Va : vshape va = [n]) by (destruct va; cbn in *; try discriminate; congruence).
  assert (Vb : vshape vb = [n]) by (destruct vb; cbn in *; try discriminate; congruence).
  rewrite Va, Vb. destruct (shape_eqb_spec [n] [n]); [|contradiction]. cbn -[dph_np]. rewrite E. reflexivity.
Qed.

Lemma c10_xr {T} {N : Num T} (ps : da T) va vb hya hyb p0 la lb n :
  vda va = hya -> vda vb = hyb -> exact_type va = true -> exact_type vb = true -> is_nd va = is_nd vb ->
  dims hya = [la] -> dims hyb = [lb] -> shp (dat hya) = [n] -> shp (dat hyb) = [n] ->
  (List.length (coords hya) <= 1)%nat -> (List.length (coords hyb) <= 1)%nat ->
  wf_da ps -> ~ In la (dims ps) -> slookup la (coords ps) = None -> labels_refl ps ->
  exists r, delta_pressure_hybrid (VDa ps) va vb true p0 = Ok (VDa r) /\
    dims r = la :: dims ps /\ shp (dat r) = (n - 1)%nat :: shp (dat ps) /\ coords r = coords ps /\
    (attrs r = [("long_name", "pressure layer thickness"); ("units", "Pa")] /\ daname r = Some "dph")%string /\
    forall k idx, (k < n - 1)%nat -> List.length idx = List.length (dims ps) ->
      get (dat r) (k :: idx)
      = nabs (nsub (hybp (dat hya) (dat hyb) p0 k (get (dat ps) idx))
                   (hybp (dat hya) (dat hyb) p0 (S k) (get (dat ps) idx))).
Proof.
  intros Ha Hb Ta Tb Tab Da Db Sa Sb Ca Cb Wp Hl Hc Hr.
  destruct (dph_xr_spec ps hya hyb p0 la lb n Da Db Sa Sb Ca Cb Wp Hl Hc Hr) as (r & E & H).
  exists r. split; auto.
  unfold delta_pressure_hybrid. cbn [forallb exact_type]. rewrite Ta, Tb, Tab. cbn [andb negb].
  rewrite Bool.eqb_reflx. cbn [negb]. rewrite Ha, Hb.
  assert (Va : vshape va = [n]) by (rewrite <- Ha in Sa; destruct va; cbn in *; try discriminate; congruence).
  assert (Vb : vshape vb = [n]) by (rewrite <- Hb in Sb; destruct vb; cbn in *; try discriminate; congruence).
  rewrite Va, Vb. destruct (shape_eqb_spec [n] [n]); [|contradiction]. cbn -[dph_xr]. rewrite E. reflexivity.
Qed.

(** telescoping over a monotone column *)
Lemma rsum_telescope (P : nat -> R) n :
  rsum (map (fun k => P k - P (S k)) (seq 0 n)) = P 0%nat - P n.
Proof.
  induction n as [|n IH]; [simpl; lra|]. rewrite seq_S, map_app, rsum_app, IH. simpl. lra.
Qed.
Lemma c10_telescope (P : nat -> R) n :
  (forall k, (k < n)%nat -> P k <= P (S k)) \/ (forall k, (k < n)%nat -> P (S k) <= P k) ->
  rsum (map (fun k => Rabs (P k - P (S k))) (seq 0 n)) = Rabs (P n - P 0%nat).
Proof.
  intros [H|H].
  - assert (M : P 0%nat <= P n).
    { induction n as [|n IH]; [lra|]. apply Rle_trans with (P n); [apply IH; auto|apply H; lia]. }
    rewrite Rabs_right by lra.
    rewrite (map_ext_in _ (fun k => (fun k => - P k) k - (fun k => - P k) (S k))).
    + rewrite (rsum_telescope (fun k => - P k)). lra.
    + intros k Hk. apply in_seq in Hk. specialize (H k ltac:(lia)). rewrite Rabs_left1; lra.
  - assert (M : P n <= P 0%nat).
    { induction n as [|n IH]; [lra|]. apply Rle_trans with (P n); [apply H; lia|apply IH; auto]. }
    rewrite Rabs_left1 by lra.
    rewrite (map_ext_in _ (fun k => P k - P (S k))).
    + rewrite rsum_telescope. lra.
    + intros k Hk. apply in_seq in Hk. specialize (H k ltac:(lia)). rewrite Rabs_right; lra.
Qed.

(** the thicknesses of one column of the labelled result *)
Lemma c10_column ps va vb hya hyb p0 la lb n idx (P : nat -> R) :
  vda va = hya -> vda vb = hyb -> exact_type va = true -> exact_type vb = true -> is_nd va = is_nd vb ->
  dims hya = [la] -> dims hyb = [lb] -> shp (dat hya) = [n] -> shp (dat hyb) = [n] ->
  (List.length (coords hya) <= 1)%nat -> (List.length (coords hyb) <= 1)%nat ->
  wf_da ps -> ~ In la (dims ps) -> slookup la (coords ps) = None -> labels_refl ps ->
  List.length idx = List.length (dims ps) -> (1 <= n)%nat ->
  (forall k, (k < n)%nat ->
     nadd (nmul p0 (get (dat hya) [k])) (nmul (get (dat hyb) [k]) (get (dat ps) idx)) = Fin (P k)) ->
  exists r, delta_pressure_hybrid (VDa ps) va vb true p0 = Ok (VDa r) /\
    (forall k, (k < n - 1)%nat -> exists d, get (dat r) (k :: idx) = Fin d /\ 0 <= d /\ d = Rabs (P (S k) - P k)) /\
    ((forall k, (k < n - 1)%nat -> P k <= P (S k)) \/ (forall k, (k < n - 1)%nat -> P (S k) <= P k) ->
     sum_finite (map (fun k => get (dat r) (k :: idx)) (seq 0 (n - 1))) = Rabs (P (n - 1)%nat - P 0%nat)).
Proof.
  intros Ha Hb Ta Tb Tab Da Db Sa Sb Ca Cb Wp Hl Hc Hr Hidx Hn HP.
  destruct (c10_xr ps va vb hya hyb p0 la lb n) as (r & E & Dr & Sr & Cr & _ & Gr); auto.
  exists r. split; auto.
  assert (G : forall k, (k < n - 1)%nat -> get (dat r) (k :: idx) = Fin (Rabs (P k - P (S k)))).
  { intros k Hk. rewrite Gr by auto. unfold hybp. rewrite !HP by lia. reflexivity. }
  split.
  - intros k Hk. exists (Rabs (P k - P (S k))). split; [auto|]. split; [apply Rabs_pos|apply Rabs_minus_sym].
  - intros Hm. rewrite <- c10_telescope by auto.
    assert (F : forall l, (forall k, In k l -> (k < n - 1)%nat) ->
              sum_finite (map (fun k => get (dat r) (k :: idx)) l) = rsum (map (fun k => Rabs (P k - P (S k))) l)).
    { induction l as [|k l IH]; intros Hl'; auto. cbn [map sum_finite rsum]. rewrite G by (apply Hl'; simpl; auto).
      f_equal. apply IH. intros; apply Hl'; simpl; auto. }
    apply F. intros k Hk. apply in_seq in Hk. lia.
Qed.

Lemma dph_np_err (p a b : arr fl) p0 e : dph_np p a b p0 = Err e -> e = ValueError.
Proof.
  unfold dph_np. destruct (Nat.eqb _ _); [congruence|].
  repeat (match goal with |- bind (np_map2 ?f ?x ?y) _ = _ -> _ =>
            destruct (np_map2 f x y) eqn:?E; cbn [bind]; [|intros H; injection H as <-; eapply np_map2_err; eauto] end).
  discriminate.
Qed.
Lemma dph_xr_err (p a b : da fl) p0 e : dph_xr p a b p0 = Err e -> e = ValueError \/ e = IndexError.
Proof.
  unfold dph_xr. destruct (Nat.eqb _ _); [intros H; injection H as <-; auto|].
  repeat (match goal with |- bind (xr_map2 ?f ?x ?y) _ = _ -> _ =>
            destruct (xr_map2 f x y) eqn:?E; cbn [bind]; [|intros H; injection H as <-; left; eapply xr_map2_err; eauto] end).
  discriminate.
Qed.

(** exact container type of an argument *)
Definition exact_nd_or_da (v : val fl) : Prop := match v with VNd _ | VDa _ => True | _ => False end.
Definition same_kind (v w : val fl) : Prop := match v, w with VNd _, VNd _ | VDa _, VDa _ => True | _, _ => False end.

Lemma c11_type ps hya hyb p0_ok p0 :
  delta_pressure_hybrid ps hya hyb p0_ok p0 = Err TypeError <->
  ~ (exact_nd_or_da ps /\ p0_ok = true /\ same_kind hya hyb).
Proof.
  unfold delta_pressure_hybrid.
  destruct ps as [p|p|p|], hya as [a|a|a|], hyb as [b|b|b|], p0_ok; cbn -[dph_np dph_xr];
    (split; [intros H; try (intros (H1 & H2 & H3); try discriminate; try tauto)|intros H; try reflexivity]);
    try (exfalso; apply H; repeat split; auto; fail);
    destruct (shape_eqb _ _); cbn -[dph_np dph_xr] in H; try discriminate;
    match type of H with context [if ?c then _ else _] => destruct c end; try discriminate.
  all: try (destruct (dph_np _ _ _ _) as [r|e] eqn:E; cbn in H; [discriminate|]; apply dph_np_err in E; congruence).
  all: destruct (dph_xr _ _ _ _) as [r|e] eqn:E; cbn in H; [discriminate|]; apply dph_xr_err in E; destruct E; congruence.
Qed.

Lemma c11_shape ps hya hyb p0 :
  exact_nd_or_da ps -> same_kind hya hyb ->
  vshape hya <> vshape hyb \/ (1 < List.length (vshape hya))%nat ->
  delta_pressure_hybrid ps hya hyb true p0 = Err ValueError.
Proof.
  intros H1 H2 H. unfold delta_pressure_hybrid.
  assert (T : forallb exact_type [ps; hya; hyb] = true /\ Bool.eqb (is_nd hya) (is_nd hyb) = true).
  { destruct ps, hya, hyb; cbn in *; try tauto; auto. }
  destruct T as [-> ->]. cbn [negb].
  destruct (shape_eqb_spec (vshape hya) (vshape hyb)) as [E|E]; cbn [negb]; auto.
  destruct H as [H|H]; [contradiction|].
  replace (1 <? List.length (vshape hya))%nat with true by (symmetry; apply Nat.ltb_lt; auto). reflexivity.
Qed.
