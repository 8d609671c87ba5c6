(** relhum, relhum_ice, relhum_water, max_daylight and the vapour pressures on whole arguments. *)
From Coq Require Import Reals List Bool Arith ZArith Lra Lia String.
From Verif Require Import PyBase PyFacts Num NumFacts Arr ArrFacts XrFacts Spec SpecMeteo Hybrid HybridFacts Meteo ListFacts ExtrapFacts CellFacts MeteoFacts RelhumFacts MeteoCells MeteoApi RelhumMix RelhumMixFacts.
Import ListNotations.
Local Open Scope R_scope.

(** ** C29 *)
Lemma c29_refuted : exists t h w v, heat_index (IFloat (Fin t)) (IFloat (Fin h)) false = Ok (w, IFloat (Fin v)) /\
  0 <= h <= 100 /\ simple_index t h < 79 /\ v <> simple_index t h.
Proof.
  exists 80, 10. destruct (heat_index_run (IFloat (Fin 80)) (IFloat (Fin 10)) false eq_refl eq_refl ltac:(discriminate)) as [_ B].
  destruct B as (w & out & E & _ & K & S & G).
  { intros [(x & [<-|[]] & O) _]. destruct O as [O|O]; cbn in O; unfold rltb in O; destruct (Rlt_dec _ _); try discriminate; lra. }
  destruct out as [d|a|a|x|x]; cbn in K; try discriminate. specialize (G [] ltac:(constructor)). cbn [as_arr get scalar] in G.
  destruct (hi_cell_fin false 80 10) as (v & Ev & I). rewrite Ev in G. subst x. exists w, v. split; auto. split; [lra|].
  assert (Es : simple_index 80 10 = 78.17) by (unfold simple_index; destruct (Rlt_dec 80 40); lra). split; [lra|].
  assert (D : dry_window 80 10) by (split; lra).
  assert (v = base_index false 80 10 - dry_adjustment 80 10).
  { destruct I as [[_ I]|[[[I _] _]|[I _]]]; auto; [lra|contradiction]. }
  assert (base_index false 80 10 = 78.17) by (unfold base_index, critical; rewrite Es; destruct (Rle_dec 79 78.17); lra).
  pose proof (adjustment_nonzero 80 10 D ltac:(lra) ltac:(lra) ltac:(lra)). lra.
Qed.
Lemma c29_characterised alt x h v : index_value alt x h v -> 0 <= h <= 100 -> simple_index x h < critical alt ->
  (v <> simple_index x h <-> alt = false /\ 80 <= x /\ h < 13) /\
  (v <> simple_index x h -> v = simple_index x h - dry_adjustment x h /\ v < simple_index x h /\ x < 81.2).
Proof.
  intros I Hh Hs. assert (Eb : base_index alt x h = simple_index x h) by (unfold base_index; destruct (Rle_dec _ _); [lra|auto]).
  assert (Hx : 80 <= x -> simple_index x h = (61 + 1.2 * (x - 68) + 0.094 * h + x) / 2) by (intros; unfold simple_index; destruct (Rlt_dec x 40); lra).
  unfold index_value in I. rewrite Eb in I.
  assert (H0 : dry_adjustment x 13 = 0) by (unfold dry_adjustment; replace ((13 - 13) / 4) with 0 by lra; ring).
  assert (Ha : 80 <= x -> alt = false) by (intros A; rewrite Hx in Hs by auto; unfold critical in Hs; destruct alt; [lra|auto]).
  assert (Hb : 80 <= x -> x < 81.2) by (intros A; rewrite (Ha A), Hx in Hs by auto; unfold critical in Hs; lra).
  destruct I as [[D ->]|[[D ->]|(D & D' & ->)]].
  - destruct (Req_dec h 13) as [->|Hn].
    + rewrite H0. split; [split; [lra|intros; lra]|lra].
    + pose proof D as [D1 D2]. pose proof (adjustment_nonzero x h D ltac:(lra) ltac:(specialize (Hb ltac:(lra)); lra) ltac:(lra)).
      split; [split; [intros _; split; [apply Ha; lra|lra]|intros _; lra]|]. intros _. split; [auto|]. split; [lra|apply Hb; lra].
  - destruct D as [D1 D2]. rewrite (Ha ltac:(lra)), Hx in Hs by lra. unfold critical in Hs. lra.
  - split; [|congruence]. split; [congruence|]. intros (_ & A & B). exfalso. apply D. split; [lra|]. specialize (Hb A). lra.
Qed.

(** ** C30, C31 relhum *)
Section RelhumGen.
  Context {T : Type} {N : Num T}.
  Definition frame3 (t w p : da T) : Prop := same_frame p t /\ same_frame w p /\ same_frame w t /\ same_frame t t.
  Lemma relhum_np_gen (t w p : arr T) e : shp w = shp t -> shp p = shp t -> (forall i, inb (shp t) i -> es_cell (get t i) = Ok (e i)) ->
    exists out, relhum_np t w p = Ok out /\ shp out = shp t /\ forall i, inb (shp t) i -> get out i = rh_value (get w i) (get p i) (e i).
  Proof.
    intros Sw Sp Ft. destruct (arr_mapM_ok nnan es_cell t e Ft) as (es & Ee & Se & Ge).
    unfold relhum_np. rewrite Ee. cbn [bind].
    destruct (np_map2_same nsub p (amap (fun e => nmul (dec 378 3) e) es)) as (a & Ea & Sa & Ga); [cbn; congruence|]. rewrite Ea. cbn [bind].
    destruct (np_map2_same nmul w a) as (b & Eb & Sb & Gb); [congruence|]. rewrite Eb. cbn [bind].
    destruct (np_map2_same ndiv b (amap (fun e => nmul (dec 622 3) e) es)) as (c & Ec & Sc & Gc); [cbn; congruence|]. rewrite Ec. cbn [bind].
    eexists. split; [reflexivity|]. cbn [amap shp get]. split; [congruence|]. intros i Hi.
    rewrite Gc by congruence. cbn [amap get]. rewrite Gb by congruence. rewrite Ga by congruence. cbn [amap get]. rewrite Ge by auto. reflexivity.
  Qed.
  Lemma relhum_xr_gen (t w p : da T) e : frame3 t w p -> (forall i, inb (shp (dat t)) i -> es_cell (get (dat t) i) = Ok (e i)) ->
    exists out, relhum_xr t w p = Ok out /\ dims out = dims t /\ shp (dat out) = shp (dat t) /\
    forall i, inb (shp (dat t)) i -> get (dat out) i = rh_value (get (dat w) i) (get (dat p) i) (e i).
  Proof.
    intros (Fpt & Fwp & Fwt & Ftt) Ft. destruct (arr_mapM_ok nnan es_cell (dat t) e Ft) as (es & Ee & Se & Ge).
    unfold relhum_xr. rewrite Ee. cbn [bind]. cbv zeta.
    set (E := mkDa (dims t) es (coords t) [] None).
    assert (V : forall k a, same_frame a t -> same_frame a (xr_map (fun e => nmul (dec k 3) e) E)).
    { intros k a Fa. apply (same_frame_values a t); auto. }
    destruct (xr_map2_same nsub p _ (V 378%Z p Fpt)) as (a & Ea & Da & Ca & Sa & _ & Wa & Ga). rewrite Ea. cbn [bind].
    assert (Fwa : same_frame w a). { eapply (same_frame_join_r p _ w a Fwp (V 378%Z w Fwt)); eauto. }
    destruct (xr_map2_same nmul w a Fwa) as (b & Eb & Db & Cb & Sb & _ & Wb & Gb). rewrite Eb. cbn [bind].
    assert (Fat : same_frame a t). { eapply (same_frame_join_l p (xr_map (fun e => nmul (dec 378 3) e) E) t a Fpt); eauto.
      apply (same_frame_values t t); auto. }
    assert (Fbt : same_frame b t) by (eapply (same_frame_join_l w a t b Fwt Fat); eauto).
    destruct (xr_map2_same ndiv b _ (V 622%Z b Fbt)) as (c & Ec & Dc & Cc & Sc & _ & Wc & Gc). rewrite Ec. cbn [bind].
    assert (Swt : shp (dat w) = shp (dat t)) by apply Fwt. assert (Spt : shp (dat p) = shp (dat t)) by apply Fpt.
    eexists. split; [reflexivity|]. cbn [with_attrs xr_map amap dims dat shp get]. split; [rewrite Dc, Db; apply Fwt|]. split; [congruence|].
    intros i Hi. rewrite Gc by congruence. cbn [E xr_map dat amap get]. rewrite Gb by congruence. rewrite Ga by congruence.
    cbn [E xr_map dat amap get]. rewrite Ge by auto. reflexivity.
  Qed.
  (** a call of relhum with one array per argument *)
  Inductive relhum_call : arr T -> arr T -> arr T -> res (arr T) -> Prop :=
  | call_np t w p : shp w = shp t -> shp p = shp t -> relhum_call t w p (relhum_np t w p)
  | call_xr t w p : frame3 t w p -> relhum_call (dat t) (dat w) (dat p) (do d <- relhum_xr t w p ;; Ok (dat d))
  | call_mix s t w p : mixable s [t; w; p] -> (shp (as_arr t) = [] -> exists i, inb s i) ->
      relhum_call (spread s t) (spread s w) (spread s p) (do r <- relhum t w p ;; Ok (as_arr r)).
  Lemma relhum_call_gen t w p r e : relhum_call t w p r -> (forall i, inb (shp t) i -> es_cell (get t i) = Ok (e i)) ->
    exists out, r = Ok out /\ shp out = shp t /\ forall i, inb (shp t) i -> get out i = rh_value (get w i) (get p i) (e i).
  Proof.
    intros C Ft. destruct C as [t w p Sw Sp|t w p F|s t w p Mx Ne].
    - apply relhum_np_gen; auto.
    - destruct (relhum_xr_gen t w p e F Ft) as (out & E & _ & S & G). exists (dat out). rewrite E. split; auto.
    - destruct (relhum_mix s t w p e Mx Ft Ne) as (r & E & S & _ & _ & G). exists (as_arr r). rewrite E. split; auto.
  Qed.
End RelhumGen.
Lemma relhum_call_ok t w p r : relhum_call t w p r -> (forall i, inb (shp t) i -> finite (get t i)) ->
  exists out, r = Ok out /\ shp out = shp t /\ forall i x a b, inb (shp t) i -> get t i = Fin x -> get w i = Fin a -> get p i = Fin b ->
    get out i = Fin (Rmax (100 * (a * (b - 0.378 * Esat x) / (0.622 * Esat x))) 0.0001).
Proof.
  intros C Ft. destruct (relhum_call_gen t w p r (fun i => match get t i with Fin x => Fin (Esat x) | _ => NaN end) C) as (out & E & S & G).
  { intros i Hi. destruct (Ft i Hi) as [x Ex]. rewrite Ex. apply es_cell_fin. }
  exists out. split; auto. split; auto. intros i x a b Hi Ex Ea Eb. rewrite (G i Hi), Ex, Ea, Eb. apply relhum_chain.
Qed.
(** the table as a function of temperature *)
Definition table_function (E : R -> R) : Prop :=
  (forall k, (k <= 202)%nat -> E (173.16 + INR k) = nth k vapour_table 0 * 0.1) /\
  (forall k x, (k <= 201)%nat -> 0 <= x <= 1 -> E (173.16 + INR k + x) = (1 - x) * E (173.16 + INR k) + x * E (173.16 + INR (S k))) /\
  (forall t, E t = E (Rmin (Rmax t 173.16) 375.16)).
Lemma Esat_table : table_function Esat.
Proof. split; [apply Esat_node|]. split; [apply Esat_linear|]. apply Esat_clip. Qed.
Lemma node_at t : 173.16 <= t <= 375.16 -> exists k x, (k <= 201)%nat /\ 0 <= x <= 1 /\ t = 173.16 + INR k + x.
Proof.
  intros H. destruct (floor_nat (t - 173.16) ltac:(lra)) as (k & _ & B).
  destruct (le_lt_dec k 201) as [Hk|Hk]; [exists k, (t - 173.16 - INR k); split; [auto|lra]|].
  assert (E201 : INR 201 = 201) by (rewrite INR_IZR_INZ; reflexivity). assert (E202 : INR 202 = 202) by (rewrite INR_IZR_INZ; reflexivity).
  exists 201%nat, 1. split; [lia|]. split; [lra|]. assert (INR 202 <= INR k) by (apply le_INR; lia). lra.
Qed.
Lemma table_function_unique E : table_function E -> forall t, E t = Esat t.
Proof.
  intros (A & B & C) t. rewrite C, (Esat_clip t). fold (clipT t). destruct (node_at (clipT t) (clipT_range t)) as (k & x & Hk & Hx & ->).
  rewrite B, Esat_linear by auto. rewrite !A, !Esat_node by lia. reflexivity.
Qed.
Lemma c30_lemma E : table_function E ->
  (forall t, 0 < E t) /\ (forall s t, s <= t -> E s <= E t) /\ (forall s t, Rabs (E t - E s) <= 3780 * Rabs (t - s)) /\
  forall t w p r, relhum_call t w p r -> (forall i, inb (shp t) i -> finite (get t i)) ->
    exists out, r = Ok out /\ shp out = shp t /\ forall i x a b, inb (shp t) i -> get t i = Fin x -> get w i = Fin a -> get p i = Fin b ->
      get out i = Fin (Rmax (100 * (a * (b - 0.378 * E x) / (0.622 * E x))) 0.0001).
Proof.
  intros HE. pose proof (table_function_unique E HE) as U.
  split; [intros t; rewrite U; apply Esat_pos|]. split; [intros s t H; rewrite !U; pose proof (Esat_mono s t H); lra|]. split.
  - intros s t. rewrite !U. destruct (Rle_dec s t) as [H|H].
    + pose proof (Esat_mono s t H). rewrite !Rabs_right by lra. lra.
    + pose proof (Esat_mono t s ltac:(lra)). rewrite !Rabs_left1 by lra. lra.
  - intros t w p r C Ft. destruct (relhum_call_ok t w p r C Ft) as (out & Eo & S & G). exists out. split; auto. split; auto.
    intros. rewrite U. apply G; auto.
Qed.
Lemma c30_nan (t w p : arr fl) i : inb (shp t) i -> get t i = NaN -> (forall j, inb (shp t) j -> get t j = NaN \/ finite (get t j)) -> relhum_np t w p = Err IndexError.
Proof.
  intros Hi Hn Hf. unfold relhum_np, arr_mapM.
  assert (G : forall l, (forall j, In j l -> inb (shp t) j) -> In i l -> mapM (fun i => es_cell (get t i)) l = Err IndexError).
  { induction l as [|j l IH]; intros Hl Hin; [destruct Hin|]. destruct Hin as [->|Hin].
    - cbn [mapM]. rewrite Hn. reflexivity.
    - cbn [mapM]. destruct (Hf j (Hl j (or_introl eq_refl))) as [E|[x E]]; rewrite E; [reflexivity|]. rewrite es_cell_fin. cbn [bind].
      rewrite IH; auto. intros k Hk. apply Hl. right. auto. }
  rewrite G; [reflexivity| |]; [intros j Hj; apply all_idx_inb; auto|apply all_idx_inb; auto].
Qed.
Lemma c31_lemma t t' w w' p p' r r' : relhum_call t w p r -> relhum_call t' w' p' r' -> shp t' = shp t ->
  (forall i, inb (shp t) i -> exists x x' a a' b b', get t i = Fin x /\ get t' i = Fin x' /\ get w i = Fin a /\ get w' i = Fin a' /\ get p i = Fin b /\ get p' i = Fin b' /\
     x' <= x /\ 0 <= a <= a' /\ b <= b' /\ 0 <= b') ->
  exists out out', r = Ok out /\ r' = Ok out' /\ forall i, inb (shp t) i ->
    exists v v', get out i = Fin v /\ get out' i = Fin v' /\ 0.0001 <= v <= v'.
Proof.
  intros C C' S H.
  destruct (relhum_call_ok t w p r C) as (out & E & _ & G); [intros i Hi; destruct (H i Hi) as (x & _ & _ & _ & _ & _ & Ex & _); exists x; auto|].
  destruct (relhum_call_ok t' w' p' r' C') as (out' & E' & _ & G'); [intros i Hi; rewrite S in Hi; destruct (H i Hi) as (_ & x & _ & _ & _ & _ & _ & Ex & _); exists x; auto|].
  exists out, out'. split; auto. split; auto. intros i Hi. destruct (H i Hi) as (x & x' & a & a' & b & b' & E1 & E2 & E3 & E4 & E5 & E6 & L1 & L2 & L3 & L4).
  rewrite (G i x a b), (G' i x' a' b') by (rewrite ?S; auto). do 2 eexists. split; [reflexivity|]. split; [reflexivity|]. split; [apply Rmax_r|].
  apply relhum_formula_mono; auto. pose proof (Esat_pos x'). pose proof (Esat_mono x' x L1). lra.
Qed.
Lemma c31_clipped t w p r t' r' : relhum_call t w p r -> relhum_call t' w p r' -> shp t' = shp t ->
  (forall i, inb (shp t) i -> exists x a b, get t i = Fin x /\ get t' i = Fin (Rmin (Rmax x 173.16) 375.16) /\ get w i = Fin a /\ get p i = Fin b) ->
  exists out out', r = Ok out /\ r' = Ok out' /\ forall i, inb (shp t) i -> get out i = get out' i.
Proof.
  intros C C' S H.
  destruct (relhum_call_ok t w p r C) as (out & E & _ & G); [intros i Hi; destruct (H i Hi) as (x & _ & _ & Ex & _); exists x; auto|].
  destruct (relhum_call_ok t' w p r' C') as (out' & E' & _ & G'); [intros i Hi; rewrite S in Hi; destruct (H i Hi) as (x & _ & _ & _ & Ex & _); eexists; eauto|].
  exists out, out'. split; auto. split; auto. intros i Hi. destruct (H i Hi) as (x & a & b & E1 & E2 & E3 & E4).
  rewrite (G i x a b Hi E1 E3 E4), (G' i _ a b ltac:(rewrite S; auto) E2 E3 E4). rewrite (Esat_clip x). reflexivity.
Qed.

(** ** C32 relhum_ice, relhum_water *)
Definition iw_args (t w p : inp fl) : Prop :=
  kind_of w = kind_of t /\ kind_of p = kind_of t /\
  match t, w, p with
  | IDa t, IDa w, IDa p => same_frame t p /\ same_frame w t /\ same_frame w p /\ coords_fit t
  | _, _, _ => shp (as_arr w) = shp (as_arr t) /\ shp (as_arr p) = shp (as_arr t)
  end.
Lemma relabel_ok (t : da fl) r : wf_da t -> coords_fit t -> shp r = shp (dat t) ->
  relabel t r = Ok (mkDa (dims t) r (coords t) (attrs t) None).
Proof.
  intros [Wl Wn] F S. unfold relabel, ndim. rewrite S, Wl, Nat.eqb_refl. cbn [negb].
  replace (forallb _ (coords t)) with true; [reflexivity|]. symmetry. apply forallb_forall. intros [n c] Hc. cbn [snd].
  match goal with |- shape_eqb ?a ?b = true => destruct (shape_eqb_spec a b) as [|Hn]; auto end. exfalso. apply Hn. rewrite (F n c Hc).
  apply map_ext. intros d. unfold dsize. destruct (sindex d (dims t)) as [j|]; auto.
  destruct (nth_error (shp (dat t)) j) eqn:E; [symmetry; apply nth_error_nth; auto|]. symmetry. apply nth_overflow. apply nth_error_None. auto.
Qed.
Lemma relhum_iw_ok ice (t w p : inp fl) : iw_args t w p -> exists out, relhum_iw ice t w p = Ok out /\ shp (as_arr out) = shp (as_arr t) /\
  kind_of out = match kind_of t with KInt => KFloat | KList => if ice then KList else KNd | k => k end /\
  forall i, inb (shp (as_arr t)) i ->
    get (as_arr out) i = rh_cell (if ice then est_ice else est_water) (get (as_arr t) i) (get (as_arr w) i) (get (as_arr p) i).
Proof.
  intros (Kw & Kp & H). set (est := if ice then est_ice else est_water).
  assert (S : shp (as_arr w) = shp (as_arr t) /\ shp (as_arr p) = shp (as_arr t)).
  { destruct t, w, p; cbn in Kw, Kp; try discriminate; auto. cbn [as_arr]. destruct H as ((_ & _ & _ & A & _) & (_ & _ & _ & B & _) & _). split; congruence. }
  unfold relhum_iw. cbv zeta. fold est. rewrite Kw, Kp, kind_beq_refl. cbn [andb negb].
  destruct (shape_eqb_spec (shp (as_arr t)) (shp (as_arr w))) as [_|N]; [|exfalso; apply N; symmetry; apply S].
  destruct (shape_eqb_spec (shp (as_arr t)) (shp (as_arr p))) as [_|N]; [|exfalso; apply N; symmetry; apply S]. cbn [andb negb].
  destruct t as [t|t|t|t|t], w as [w|w|w|w|w], p as [p|p|p|p|p]; cbn in Kw, Kp; try discriminate; cbn [as_arr] in *.
  2-5: try destruct ice; eexists; (split; [reflexivity|]); cbn [as_arr shp get]; auto.
  destruct H as (Ftp & Fwt & Fwp & Cf). unfold rh_xr.
  assert (F1 : same_frame (xr_map est t) p) by (apply (same_frame_values t p); auto).
  destruct (xr_map2_same (fun e pv => qst e pv) (xr_map est t) p F1) as (q & Eq & Dq & Cq & Sq & _ & Wq & Gq). rewrite Eq. cbn [bind].
  assert (F2 : same_frame w q).
  { apply (same_frame_join_r (xr_map est t) p w q); auto. }
  destruct (xr_map2_same ndiv w q F2) as (r & Er & Dr & Cr & Sr & _ & Wr & Gr). rewrite Er. cbn [bind]. cbv zeta.
  rewrite relabel_ok; [|apply Ftp|auto|cbn; destruct S; congruence]. cbn [bind].
  eexists. split; [reflexivity|]. cbn [as_arr dat xr_map amap shp get kind_of]. destruct S as [Sw Sp]. split; [congruence|]. split; [auto|].
  intros i Hi. rewrite Gr by congruence. rewrite Gq by (cbn; auto). reflexivity.
Qed.
Lemma c32_types ice (t w p : inp fl) : kind_of w <> kind_of t \/ kind_of p <> kind_of t -> relhum_iw ice t w p = Err TypeError.
Proof. intros H. unfold relhum_iw. destruct t, w, p; cbn in H; try (exfalso; intuition congruence); reflexivity. Qed.
Lemma c32_shapes ice (t w p : inp fl) : kind_of w = kind_of t -> kind_of p = kind_of t ->
  shp (as_arr w) <> shp (as_arr t) \/ shp (as_arr p) <> shp (as_arr t) -> relhum_iw ice t w p = Err ValueError.
Proof.
  intros Kw Kp H. unfold relhum_iw. cbv zeta. rewrite Kw, Kp, kind_beq_refl. cbn [andb negb].
  destruct (shape_eqb_spec (shp (as_arr t)) (shp (as_arr w))) as [E1|N1]; [|reflexivity].
  destruct (shape_eqb_spec (shp (as_arr t)) (shp (as_arr p))) as [E2|N2]; [|reflexivity]. exfalso. intuition congruence.
Qed.
(** vapour pressure used and the pole of its formula *)
Definition magnus (ice : bool) (t : R) : R := if ice then magnus_ice t else magnus_water t.
Definition pole (ice : bool) : R := if ice then -0.56 else 35.86.
Lemma magnus_pos ice t : 0 < magnus ice t.
Proof. destruct ice; [apply magnus_ice_pos|apply magnus_water_pos]. Qed.
Lemma c32_lemma ice (t w p : inp fl) : iw_args t w p -> exists out, relhum_iw ice t w p = Ok out /\ shp (as_arr out) = shp (as_arr t) /\
  kind_of out = match kind_of t with KInt => KFloat | KList => if ice then KList else KNd | k => k end /\
  forall i x a b, inb (shp (as_arr t)) i -> get (as_arr t) i = Fin x -> get (as_arr w) i = Fin a -> get (as_arr p) i = Fin b ->
    pole ice < x -> 0.378 * magnus ice x < 0.01 * b ->
    get (as_arr out) i = Fin (100 * (a / q_sat (magnus ice x) b)).
Proof.
  intros H. destruct (relhum_iw_ok ice t w p H) as (out & E & S & K & G). exists out. split; auto. split; auto. split; auto.
  intros i x a b Hi Ex Ea Eb Hx Hb. rewrite (G i Hi), Ex, Ea, Eb. apply rh_cell_fin; auto; [|apply magnus_pos].
  destruct ice; [apply est_ice_fin|apply est_water_fin]; cbn in Hx; lra.
Qed.
Lemma c32_laws ice (t w p w' p' out out' : inp fl) : iw_args t w p -> iw_args t w' p' -> relhum_iw ice t w p = Ok out -> relhum_iw ice t w' p' = Ok out' ->
  forall i x a b a' b', inb (shp (as_arr t)) i -> get (as_arr t) i = Fin x -> get (as_arr w) i = Fin a -> get (as_arr p) i = Fin b ->
    get (as_arr w') i = Fin a' -> get (as_arr p') i = Fin b' ->
    pole ice < x -> 0.378 * magnus ice x < 0.01 * b -> b <= b' ->
    exists v v', get (as_arr out) i = Fin v /\ get (as_arr out') i = Fin v' /\
      (b' = b -> forall c, a' = c * a -> v' = c * v) /\
      (a = q_sat (magnus ice x) b -> v = 100) /\
      (b < b' -> a' = a -> 0 < a -> v < v').
Proof.
  intros H H' E E' i x a b a' b' Hi Ex Ea Eb Ea' Eb' Hx Hb Hbb.
  destruct (c32_lemma ice t w p H) as (o & Eo & _ & _ & G). rewrite Eo in E. injection E as ->.
  destruct (c32_lemma ice t w' p' H') as (o' & Eo' & _ & _ & G'). rewrite Eo' in E'. injection E' as ->.
  pose proof (magnus_pos ice x) as P. pose proof (q_sat_pos _ _ P Hb) as Q.
  do 2 eexists. split; [eapply G; eauto|]. split; [eapply G'; eauto; lra|]. split; [|split].
  - intros -> c ->. field. lra.
  - intros ->. field. lra.
  - intros Hlt -> Ha. apply rh_pressure; auto.
Qed.
Lemma c32_freezing (t w p out out' : inp fl) : iw_args t w p -> relhum_ice t w p = Ok out -> relhum_water t w p = Ok out' ->
  forall i a b, inb (shp (as_arr t)) i -> get (as_arr t) i = Fin 273.15 -> get (as_arr w) i = Fin a -> get (as_arr p) i = Fin b ->
    0.378 * 6.1128 < 0.01 * b -> get (as_arr out) i = get (as_arr out') i.
Proof.
  intros H E E' i a b Hi Ex Ea Eb Hb. unfold relhum_ice, relhum_water in *. destruct magnus_freezing as [M1 M2].
  destruct (c32_lemma true t w p H) as (o & Eo & _ & _ & G). rewrite Eo in E. injection E as ->.
  destruct (c32_lemma false t w p H) as (o' & Eo' & _ & _ & G'). rewrite Eo' in E'. injection E' as ->.
  rewrite (G i 273.15 a b), (G' i 273.15 a b); cbn [magnus pole]; auto; rewrite ?M1, ?M2; auto; lra.
Qed.

(** ** C33, C34 max_daylight *)
Definition entry (v : inp fl) (k : nat) : fl := nth k (ravel (as_arr v)) NaN.
Definition count (v : inp fl) : nat := List.length (ravel (as_arr v)).
(** ranks the function accepts *)
Definition daylight_ranks (jday lat : inp fl) : Prop :=
  (ndim (as_arr jday) <= 1)%nat /\ (ndim (as_arr lat) <= 1)%nat /\
  (kind_of jday = KDa -> ndim (as_arr jday) = 1%nat /\ ndim (as_arr lat) = 1%nat).
Lemma max_daylight_ok jday lat : daylight_ranks jday lat -> exists wn out, max_daylight jday lat = Ok (wn, out) /\
  kind_of out = (match jday with IDa _ => KDa | _ => KNd end) /\ shp (as_arr out) = [count jday; count lat] /\
  (wn = Some WLimited <-> forall k, (k < count lat)%nat -> nlt (Fin 55) (nabs (entry lat k)) = true /\ nle (nabs (entry lat k)) (Fin 66) = true) /\
  (wn = Some WImpossible <-> (0 < count lat)%nat /\ forall k, (k < count lat)%nat -> nlt (Fin 66) (nabs (entry lat k)) = true) /\
  forall i j, get (as_arr out) [i; j] = daylight_cell (entry jday i) (entry lat j).
Proof.
  intros (R1 & R2 & R3). unfold max_daylight. cbv zeta.
  replace (Nat.ltb 1 (ndim (as_arr lat))) with false by (symmetry; apply Nat.ltb_ge; lia).
  replace (Nat.ltb 1 (ndim (as_arr jday))) with false by (symmetry; apply Nat.ltb_ge; lia). cbn [orb].
  set (ls := ravel (as_arr lat)). set (c1 := forallb _ ls && forallb _ ls). set (c2 := forallb (fun v => ngt (nabs v) (ofZ 66)) ls).
  assert (N : forall P : fl -> bool, forallb P ls = true <-> forall k, (k < List.length ls)%nat -> P (nth k ls NaN) = true).
  { intros P. rewrite forallb_forall. split; [intros A k Hk; apply A, nth_In; auto|]. intros A x Hx. destruct (In_nth ls x NaN Hx) as (k & Hk & <-). auto. }
  assert (C1 : c1 = true <-> forall k, (k < count lat)%nat -> nlt (Fin 55) (nabs (entry lat k)) = true /\ nle (nabs (entry lat k)) (Fin 66) = true).
  { unfold c1. rewrite andb_true_iff, !N. unfold entry, count. fold ls. split; [intros [A B] k Hk; split; [apply A|apply B]; auto|]. intros A. split; intros k Hk; apply A; auto. }
  assert (C2 : c2 = true <-> forall k, (k < count lat)%nat -> nlt (Fin 66) (nabs (entry lat k)) = true) by apply N.
  assert (W : forall wn, wn = (if c1 then Some WLimited else if c2 then Some WImpossible else None) ->
    (wn = Some WLimited <-> forall k, (k < count lat)%nat -> nlt (Fin 55) (nabs (entry lat k)) = true /\ nle (nabs (entry lat k)) (Fin 66) = true) /\
    (wn = Some WImpossible <-> (0 < count lat)%nat /\ forall k, (k < count lat)%nat -> nlt (Fin 66) (nabs (entry lat k)) = true)).
  { intros wn ->. rewrite <- C1, <- C2. destruct c1.
    - split; [tauto|]. split; [discriminate|]. intros [H0 H2]. exfalso. pose proof (proj1 C1 eq_refl) as A. destruct (A 0%nat H0) as [_ A2]. pose proof (proj1 C2 H2 0%nat H0) as B.
      destruct (entry lat 0); cbn in *; try discriminate. unfold rleb, rltb in *. destruct (Rle_dec _ _), (Rlt_dec _ _); try discriminate. lra.
    - destruct c2; (split; [split; discriminate|]); split; try discriminate; try tauto; [|intros [_ H]; discriminate].
      intros _. split; auto. destruct (Nat.eq_dec (count lat) 0) as [E|]; [|lia]. exfalso.
      assert (false = true); [|discriminate]. apply C1. intros k Hk. lia. }
  destruct jday as [d|a|a|x|x]; cbn [kind_of as_arr] in *.
  1: destruct (R3 eq_refl) as [E1 E2]; rewrite E1, E2; cbn [Nat.eqb orb].
  all: do 2 eexists; (split; [reflexivity|]); cbn [kind_of as_arr dat shp get]; (split; [reflexivity|]); (split; [reflexivity|]);
    (split; [apply W; reflexivity|]); (split; [apply W; reflexivity|]); intros; reflexivity.
Qed.
Lemma c33_lemma jday lat : daylight_ranks jday lat -> exists wn out, max_daylight jday lat = Ok (wn, out) /\ shp (as_arr out) = [count jday; count lat] /\
  forall i j n y, entry jday i = Fin n -> entry lat j = Fin y -> -66 <= y <= 66 ->
    exists v, get (as_arr out) [i; j] = Fin v /\ 0 < v < 24 /\
      cos (PI / 24 * v) = - (tan (y * (PI / 180)) * tan (declination n)) /\
      (y = 0 -> v = 12) /\
      (forall j', entry lat j' = Fin (- y) -> get (as_arr out) [i; j'] = Fin (24 - v)).
Proof.
  intros H. destruct (max_daylight_ok jday lat H) as (wn & out & E & _ & S & _ & _ & G). exists wn, out. split; auto. split; auto.
  intros i j n y En Ey Hy. rewrite G, En, Ey. destruct (daylight_cell_fin n y Hy) as (w & Bw & Cw & Ew). pose proof PI_RGT_0 as P.
  exists (24 / PI * w). split; auto. 
  assert (R : PI / 24 * (24 / PI * w) = w) by (field; lra).
  split; [|split; [rewrite R; auto|split]].
  - split; [apply Rmult_lt_0_compat; [apply Rmult_lt_0_compat; [lra|apply Rinv_0_lt_compat; auto]|lra]|].
    apply Rmult_lt_reg_l with (PI / 24); [lra|]. rewrite R. lra.
  - intros ->. assert (w = PI / 2).
    { apply hour_angle_unique; auto; [lra|]. rewrite Cw, Rmult_0_l, tan_0, cos_PI2. ring. }
    subst w. field. lra.
  - intros j' Ej'. rewrite G, En, Ej'. destruct (daylight_cell_fin n (- y) ltac:(lra)) as (w' & Bw' & Cw' & Ew'). rewrite Ew'. apply f_equal.
    assert (w' = PI - w).
    { apply hour_angle_unique; auto; [lra|]. rewrite Cw'. replace (- y * (PI / 180)) with (- (y * (PI / 180))) by ring. rewrite tan_neg.
      rewrite <- (Ropp_involutive (cos (PI - w))). replace (- cos (PI - w)) with (cos w); [rewrite Cw; ring|].
      rewrite (Rtrigo_facts.cos_pi_minus w). ring. }
    subst w'. field. lra.
Qed.
Lemma c34_rank jday lat : ((1 < ndim (as_arr jday))%nat \/ (1 < ndim (as_arr lat))%nat) \/
  (kind_of jday = KDa /\ (ndim (as_arr jday) = 0%nat \/ ndim (as_arr lat) = 0%nat)) -> max_daylight jday lat = Err ValueError.
Proof.
  intros H. unfold max_daylight. cbv zeta. destruct (Nat.ltb 1 (ndim (as_arr lat)) || Nat.ltb 1 (ndim (as_arr jday))) eqn:E; auto.
  apply orb_false_iff in E. rewrite !Nat.ltb_ge in E. destruct H as [H|[K H]]; [lia|]. destruct jday; try discriminate. cbn [as_arr] in *.
  replace (Nat.eqb (ndim (dat d)) 0 || Nat.eqb (ndim (as_arr lat)) 0) with true; auto.
  symmetry. apply orb_true_iff. rewrite !Nat.eqb_eq. auto.
Qed.
Lemma c34_warnings jday lat : daylight_ranks jday lat -> exists wn out, max_daylight jday lat = Ok (wn, out) /\
  kind_of out = (match jday with IDa _ => KDa | _ => KNd end) /\
  (wn = Some WLimited <-> forall k, (k < count lat)%nat -> nlt (Fin 55) (nabs (entry lat k)) = true /\ nle (nabs (entry lat k)) (Fin 66) = true) /\
  (wn = Some WImpossible <-> (0 < count lat)%nat /\ forall k, (k < count lat)%nat -> nlt (Fin 66) (nabs (entry lat k)) = true).
Proof. intros H. destruct (max_daylight_ok jday lat H) as (wn & out & E & K & S & A & B & _). exists wn, out. auto. Qed.

(** ** C35-C37 *)
Definition fahrenheit_not_above_freezing (x : fl) : Prop := match x with Fin f => f <= 32 | PInf => False | _ => True end.
Lemma svp_out (t : inp fl) tfill : let out := saturation_vapor_pressure t tfill in
  shp (as_arr out) = shp (as_arr t) /\ forall i, get (as_arr out) i = svp_cell tfill (get (as_arr t) i).
Proof. destruct t; cbn; auto. Qed.
Lemma c35_lemma (t : inp fl) tfill : let out := saturation_vapor_pressure t tfill in
  shp (as_arr out) = shp (as_arr t) /\
  (forall i f, get (as_arr t) i = Fin f -> 32 < f ->
     exists v, get (as_arr out) i = Fin v /\ 0.6108 < v /\ v = tetens (celsius f) /\
       forall i' f', get (as_arr t) i' = Fin f' -> f < f' -> exists v', get (as_arr out) i' = Fin v' /\ v < v') /\
  (forall i, fahrenheit_not_above_freezing (get (as_arr t) i) -> get (as_arr out) i = tfill) /\
  (forall i, get (as_arr (actual_saturation_vapor_pressure t tfill)) i = get (as_arr out) i) /\
  shp (as_arr (actual_saturation_vapor_pressure t tfill)) = shp (as_arr t).
Proof.
  intros out. destruct (svp_out t tfill) as [S G]. fold out in S, G. split; auto. split; [|split].
  - intros i f Ef Hf. rewrite G, Ef, svp_cell_above by auto. eexists. split; [reflexivity|]. split; [|split; auto].
    + rewrite <- tetens_0. apply tetens_increasing. unfold celsius. lra.
    + intros i' f' Ef' Hff. rewrite G, Ef', svp_cell_above by lra. eexists. split; [reflexivity|]. apply tetens_increasing. unfold celsius. lra.
  - intros i Hi. rewrite G. apply svp_cell_below. auto.
  - unfold out. destruct t; cbn; auto.
Qed.
Lemma c36_lemma (t : inp fl) tfill : let out := saturation_vapor_pressure_slope t tfill in
  shp (as_arr out) = shp (as_arr t) /\
  (forall i f, get (as_arr t) i = Fin f -> 32 < f ->
     exists v d, get (as_arr out) i = Fin v /\ derivable_pt_lim tetens (celsius f) d /\
       v = 4096 / (17.27 * 237.3) * d /\ 0 < d /\ Rabs (v - d) <= 0.0006 * d) /\
  (forall i, fahrenheit_not_above_freezing (get (as_arr t) i) -> get (as_arr out) i = tfill).
Proof.
  intros out. assert (SG : shp (as_arr out) = shp (as_arr t) /\ forall i, get (as_arr out) i = slope_cell tfill (get (as_arr t) i)) by (unfold out; destruct t; cbn; auto).
  destruct SG as [S G]. split; auto. split.
  - intros i f Ef Hf. rewrite G, Ef. rewrite slope_cell_above by auto. set (c := celsius f). assert (Pc : 0 < c) by (unfold c, celsius; lra).
    eexists. exists (17.27 * 237.3 * tetens c / (c + 237.3) ^ 2). split; [reflexivity|]. split; [apply tetens_derivative; auto|].
    assert (Pt : 0 < tetens c) by (pose proof (tetens_increasing 0 c ltac:(lra)); rewrite tetens_0 in *; lra).
    set (d := 17.27 * 237.3 * tetens c / (c + 237.3) ^ 2). assert (E : 4096 * tetens c / (c + 237.3) ^ 2 = 4096 / (17.27 * 237.3) * d) by (unfold d; field; lra).
    assert (Pd : 0 < d) by (unfold d; apply Rmult_lt_0_compat; [nra|apply Rinv_0_lt_compat, pow_lt; lra]).
    split; auto. split; auto. rewrite E. replace (4096 / (17.27 * 237.3) * d - d) with ((4096 / (17.27 * 237.3) - 1) * d) by ring.
    rewrite Rabs_mult, (Rabs_right d) by lra. apply Rmult_le_compat_r; [lra|]. unfold Rabs. destruct (Rcase_abs _); lra.
  - intros i Hi. rewrite G. apply slope_cell_below. auto.
Qed.
Lemma c37_lemma (p : inp fl) : let out := psychrometric_constant p in
  kind_of out = (match p with IDa _ => KDa | _ => KNd end) /\ shp (as_arr out) = shp (as_arr p) /\
  (forall i x, get (as_arr p) i = Fin x -> get (as_arr out) i = Fin (0.00066474 * x)) /\
  (forall d, p = IDa d -> exists d', out = IDa d' /\ dims d' = dims d /\ coords d' = coords d) /\
  forall q c i x, get (as_arr p) i = Fin x -> get (as_arr q) i = Fin (c * x) ->
    exists v, get (as_arr out) i = Fin v /\ get (as_arr (psychrometric_constant q)) i = Fin (c * v).
Proof.
  intros out. assert (G : forall (p : inp fl) i x, get (as_arr p) i = Fin x -> get (as_arr (psychrometric_constant p)) i = Fin (0.00066474 * x)).
  { intros q i x E. destruct q; cbn in *; rewrite E; cbn; apply f_equal; lra. }
  split; [destruct p; reflexivity|]. split; [destruct p; reflexivity|]. split; [apply G|]. split.
  - intros d ->. eexists. split; [reflexivity|]. split; reflexivity.
  - intros q c i x E E'. eexists. split; [apply G; eauto|]. rewrite (G q i _ E'). apply f_equal. ring.
Qed.

(** ** C68: the shape tests of dewtemp and relhum never fire *)
Lemma bshape_outer n m : bshape [n; 1%nat] [m] = Some [n; m].
Proof. unfold bshape. cbn [rev app bshape_rev]. unfold bdim. destruct m as [|[|m]]; reflexivity. Qed.
Lemma bidx_col n m i j : (i < n)%nat -> (j < m)%nat -> bidx [n; 1%nat] [i; j] = [i; 0%nat].
Proof. intros Hi Hj. cbn. destruct (Nat.eqb_spec n 1); [|reflexivity]. f_equal. lia. Qed.
Lemma bidx_row m i j : (j < m)%nat -> bidx [m] [i; j] = [j].
Proof. intros Hj. cbn. destruct (Nat.eqb_spec m 1); [|reflexivity]. f_equal. lia. Qed.
Lemma c68_dewtemp n m (f g : list nat -> fl) : exists out,
  dewtemp (INd (mkArr [n; 1%nat] f)) (INd (mkArr [m] g)) = Ok (INd out) /\ shp out = [n; m] /\
  forall i j tk h, (i < n)%nat -> (j < m)%nat -> f [i; 0%nat] = Fin tk -> g [j] = Fin h -> 0 < tk < 1320 -> 0 < h <= 100 ->
    exists d, get out [i; j] = Fin d /\ / d = / tk - ln (h * 0.01) / lhv_over_gc tk.
Proof.
  unfold dewtemp. cbn [as_arr]. unfold np_map2. cbn [shp]. rewrite bshape_outer. cbn [bind]. eexists. split; [reflexivity|]. split; [reflexivity|].
  intros i j tk h Hi Hj Et Eh Ht Hh. cbn [get]. rewrite (bidx_col n m), bidx_row, Et, Eh by auto. destruct (dew_bounds tk h Ht Hh) as (d & Ed & _ & _ & I). exists d. auto.
Qed.
Lemma c68_relhum n m (f g h : list nat -> fl) : (forall i, (i < n)%nat -> finite (f [i; 0%nat])) -> exists out,
  relhum_np (mkArr [n; 1%nat] f) (mkArr [m] g) (mkArr [m] h) = Ok out /\ shp out = [n; m].
Proof.
  intros Hf. unfold relhum_np.
  destruct (arr_mapM_ok NaN es_cell (mkArr [n; 1%nat] f) (fun i => match f i with Fin x => Fin (Esat x) | _ => NaN end)) as (es & Ee & Se & Ge).
  { intros i Hi. inversion Hi as [|a b r s Ha Hr]; subst. inversion Hr as [|a' b' r' s' Ha' Hr']; subst. inversion Hr'; subst. cbn [get].
    assert (a' = 0%nat) by lia. subst a'. destruct (Hf a Ha) as [x Ex]. rewrite Ex. apply es_cell_fin. }
  change (@nnan fl NumFl) with NaN. rewrite Ee. cbn [bind]. cbn [shp] in Se.
  assert (B1 : bshape [m] [n; 1%nat] = Some [n; m]).
  { unfold bshape. cbn [rev app bshape_rev]. unfold bdim. destruct (Nat.eqb_spec m 1) as [->|]; cbn; reflexivity. }
  assert (B2 : bshape [m] [n; m] = Some [n; m]).
  { unfold bshape. cbn [rev app bshape_rev]. rewrite bdim_refl. cbn. reflexivity. }
  assert (B3 : bshape [n; m] [n; 1%nat] = Some [n; m]).
  { unfold bshape. cbn [rev app bshape_rev]. rewrite bdim_refl. unfold bdim. destruct (Nat.eqb_spec m 1) as [->|]; cbn; reflexivity. }
  unfold np_map2. cbn [shp amap]. rewrite Se, B1. cbn [bind shp]. rewrite B2. cbn [bind shp]. rewrite B3. cbn [bind].
  eexists. split; reflexivity.
Qed.

(** ** C69: relhum_ice / relhum_water label by position *)
Lemma c69_lemma ice n (x y : string) (ft fw fp : list nat -> fl) : x <> y ->
  let t := mkDa [x; y] (mkArr [n; n] ft) [] [] None in
  let w := mkDa [y; x] (mkArr [n; n] fw) [] [] None in
  let p := mkDa [x; y] (mkArr [n; n] fp) [] [] None in
  exists d, relhum_iw ice (IDa t) (IDa w) (IDa p) = Ok (IDa d) /\ dims d = [x; y] /\ shp (dat d) = [n; n] /\
    forall i j, get (dat d) [i; j] = rh_cell (if ice then est_ice else est_water) (ft [j; i]) (fw [i; j]) (fp [j; i]).
Proof.
  intros Hxy t w p. set (est := if ice then est_ice else est_water).
  unfold relhum_iw. cbv zeta. cbn [kind_of kind_beq andb negb as_arr t w p dat shp]. fold est.
  destruct (shape_eqb_spec [n; n] [n; n]) as [_|N]; [|congruence]. cbn [andb negb]. fold t. fold w. fold p. unfold rh_xr.
  assert (Nyx : String.eqb y x = false) by (apply String.eqb_neq; congruence). assert (Nxy : String.eqb x y = false) by (apply String.eqb_neq; congruence).
  destruct (xr_map2_ok (fun e pv => qst e pv) (xr_map est t) p) as (q & Eq & Dq & Cq & Gq & Sq).
  { unfold labels_agree. apply forallb_forall. intros; reflexivity. }
  { apply sizes_agree_same; reflexivity. }
  rewrite Eq. cbn [bind]. rewrite join_dims_sub in Dq by auto. cbn [xr_map t dims] in Dq.
  assert (Sq' : shp (dat q) = [n; n]).
  { rewrite Sq, join_dims_sub by auto. cbn [xr_map t dims map]. unfold dsize. cbn [dims dat xr_map t amap shp sindex]. rewrite !String.eqb_refl, Nyx. reflexivity. }
  destruct (xr_map2_ok ndiv w q) as (r & Er & Dr & Cr & Gr & Sr).
  { unfold labels_agree. apply forallb_forall. intros; reflexivity. }
  { unfold sizes_agree. cbn [w dims forallb]. unfold dsize. rewrite Dq, Sq'. cbn [w dims dat shp sindex]. rewrite !String.eqb_refl, Nyx, Nxy. cbn. rewrite !Nat.eqb_refl. reflexivity. }
  rewrite Er. cbn [bind].
  assert (Dr' : dims r = [y; x]). { rewrite Dr, join_dims_sub; auto. rewrite Dq. cbn. tauto. }
  assert (Sr' : shp (dat r) = [n; n]).
  { rewrite Sr, join_dims_sub by (rewrite Dq; cbn; tauto). cbn [w dims map]. unfold dsize. cbn [dims dat w shp sindex]. rewrite !String.eqb_refl, Nxy. reflexivity. }
  rewrite relabel_ok.
  - cbn [bind]. eexists. split; [reflexivity|]. cbn [dims dat t xr_map amap shp get]. split; [reflexivity|]. split; [auto|].
    intros i j. set (e := env_of [y; x] [i; j]). assert (Ey : e y = i) by (unfold e, env_of; cbn; rewrite String.eqb_refl; reflexivity).
    assert (Ex : e x = j) by (unfold e, env_of; cbn; rewrite Nxy, String.eqb_refl; reflexivity).
    pose proof (Gr e) as G. unfold getn in G at 1 2. rewrite Dr' in G. cbn [w dims dat map get] in G. rewrite Ey, Ex in G. rewrite G, Gq.
    unfold getn. cbn [xr_map t p dims dat amap get map]. rewrite Ey, Ex. reflexivity.
  - split; [reflexivity|]. cbn. repeat constructor; cbn; intuition congruence.
  - intros k c [].
  - cbn. auto.
Qed.

(** a NaN anywhere switches the range check off for non-DataArrays *)
Lemma c27_nan_hides (a b : arr fl) alt : shp a = shp b -> In NaN (ravel b) -> exists out, heat_index (INd a) (INd b) alt = Ok (false, INd out).
Proof.
  intros S Hn. destruct (heat_index_run (INd a) (INd b) alt eq_refl ltac:(cbn; auto) ltac:(cbn; intros E; rewrite E in Hn; destruct Hn)) as [_ B].
  destruct B as (w & out & E & W & K & _). { intros [_ [H|H]]; [discriminate|]. apply H. auto. }
  destruct out as [| o | | |]; cbn in K; try discriminate. destruct w; [|exists o; auto]. exfalso. destruct (proj1 W eq_refl) as (_ & _ & [H|H]); [discriminate|]. apply H. auto.
Qed.
(** ** C99 *)
Lemma c99_kinds E : table_function E -> forall s (t w p : inp fl), mixable s [t; w; p] -> (shp (as_arr t) = [] -> exists i, inb s i) ->
  (forall i, inb s i -> finite (cell t i)) ->
  exists r, relhum t w p = Ok r /\ shp (as_arr r) = s /\ is_da r = is_da t || is_da w || is_da p /\
    (forall d, r = IDa d -> attrs d = rh_attrs /\ forall x, In (IDa x) [t; w; p] -> dims d = dims x /\ labels_agree d x = true) /\
    forall i x a b, inb s i -> cell t i = Fin x -> cell w i = Fin a -> cell p i = Fin b ->
      get (as_arr r) i = Fin (Rmax (100 * (a * (b - 0.378 * E x) / (0.622 * E x))) 0.0001).
Proof.
  intros HE s t w p Mx Ne Ft.
  destruct (relhum_mix s t w p (fun i => match cell t i with Fin x => Fin (Esat x) | _ => NaN end) Mx) as (r & Er & S & D & A & G); auto.
  { intros i Hi. destruct (Ft i Hi) as [x Ex]. rewrite Ex. apply es_cell_fin. }
  exists r. split; [auto|]. split; [auto|]. split; [auto|]. split.
  - intros d Hd. destruct (A d Hd) as [A1 A2]. split; auto. intros x Hx. destruct (A2 x Hx) as (_ & _ & Q & _ & Lb). auto.
  - intros i x a b Hi Ex Ea Eb. rewrite (G i Hi), Ex, Ea, Eb. rewrite (table_function_unique E HE). apply relhum_chain.
Qed.
Lemma c99_nan (t w p : inp fl) i : inb (shp (as_arr t)) i -> get (as_arr t) i = NaN ->
  (forall j, inb (shp (as_arr t)) j -> get (as_arr t) j = NaN \/ finite (get (as_arr t) j)) -> relhum t w p = Err IndexError.
Proof.
  intros Hi Hn Hf. pose proof (c30_nan (as_arr t) (as_arr t) (as_arr t) i Hi Hn Hf) as Q. unfold relhum, es_of_input. unfold relhum_np in Q.
  destruct (arr_mapM nnan es_cell (as_arr t)) as [es|e] eqn:Em; [|cbn in Q |- *; congruence]. exfalso.
  cbn [bind] in Q. unfold arr_mapM in Em.
  destruct (mapM _ (all_idx (shp (as_arr t)))) as [l|] eqn:El in Em; [|discriminate].
  assert (Se : shp es = shp (as_arr t)) by (injection Em as <-; reflexivity).
  destruct (np_map2_same nsub (as_arr t) (amap (fun e => nmul (dec 378 3) e) es)) as (a & Ea & Sa & _); [cbn; congruence|]. rewrite Ea in Q. cbn [bind] in Q.
  destruct (np_map2_same nmul (as_arr t) a) as (b & Eb & Sb & _); [congruence|]. rewrite Eb in Q. cbn [bind] in Q.
  destruct (np_map2_same ndiv b (amap (fun e => nmul (dec 622 3) e) es)) as (c & Ec & _); [cbn; congruence|]. rewrite Ec in Q. discriminate.
Qed.
