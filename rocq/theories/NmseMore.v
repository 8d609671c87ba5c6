(** nmse: consequences on regular grids and Datasets. *)
From Coq Require Import Reals List Bool Arith ZArith Lra Lia String FunctionalExtensionality.
From Verif Require Import PyBase Num NumFacts PyFacts ListFacts Arr ArrFacts XrFacts CellFacts Hybrid HybridFacts ChunkFacts SpecSum SumFacts SpecStats PearsonFacts PearsonApi SphApi SphMore Nmse NmseFacts NmseApi.
Import ListNotations.
Local Open Scope R_scope.

Section More.
  Variables (cf_lat cf_lon : nin fl -> list string).
  Local Notation NMSE := (nmse cf_lat cf_lon).
  (** both arguments DataArrays with matching coordinate names, one latitude and one longitude each *)
  Definition ready (o m : nin fl) (lat lon : coordv fl) : Prop :=
    same_kind o m /\ same_coords o m /\ located cf_lat cf_lon o m /\ one_latlon cf_lat cf_lon o lat lon.

  Lemma nmse_grid o m lat lon t sd ts ss :
    ready (NDa o) (NDa m) lat lon -> spacing_ok lat -> spacing_ok lon ->
    sd = join_dims (cdims lat) (cdims lon) -> ss = map (csize [lat; lon]) sd -> same_grid o m t sd ts ss ->
    (forall q, inb ss q -> exists l, lat_at lat sd q = Fin l) ->
    exists r, NMSE (NDa o) (NDa m) = Ok (ODa r) /\ dims r = t /\ shp (dat r) = ts /\ attrs r = description /\
      forall i, inb ts i -> forall w x y,
        let n := List.length (all_idx ss) in
        latitude_sample n (fun k => lat_at lat sd (nth k (all_idx ss) [])) (fun k => get (dat o) (i ++ nth k (all_idx ss) [])) (fun k => get (dat m) (i ++ nth k (all_idx ss) [])) w x y ->
        (good_weights n w -> nmse_result n w x y (get (dat r) i)) /\ (bigsum n w = 0 -> get (dat r) i = NaN).
  Proof.
    intros (K & H & L & O) S1 S2 Esd Ess G Hl. rewrite nmse_body by auto. rewrite (body_ok cf_lat cf_lon _ _ lat lon O S1 S2). unfold tail_ok. cbv zeta.
    rewrite <- Esd, <- Ess.
    destruct (nmse_da_grid o m t sd ts ss lat ss G) as (r & E & R); auto.
    { intros d Hd. rewrite Esd. apply join_dims_In. auto. }
    exists r. rewrite E. split; auto.
  Qed.

  (** latitude and longitude one-dimensional on the last two dimensions *)
  Definition regular (o m : da fl) (lat lon : coordv fl) (la lo : string) (t : list string) (ts : list nat) (na no : nat) (lv ov : nat -> R) : Prop :=
    cdims lat = [la] /\ cdims lon = [lo] /\ line lat na lv /\ line lon no ov /\ same_grid o m t [la; lo] ts [na; no].
  Lemma regular_sd o m lat lon la lo t ts na no lv ov : regular o m lat lon la lo t ts na no lv ov ->
    join_dims (cdims lat) (cdims lon) = [la; lo] /\ map (csize [lat; lon]) [la; lo] = [na; no].
  Proof.
    intros (E1 & E2 & [S1 _] & [S2 _] & (_ & _ & ND & _)).
    assert (Hne : lo <> la). { apply nodup_l in ND. apply NoDup_cons_iff in ND. destruct ND as [Hn _]. intros ->. apply Hn. left; auto. }
    rewrite E1, E2. split.
    - apply join_dims_new. intros d [<-|[]] [Hd|[]]. auto.
    - cbn [map]. unfold csize. cbn [flat_map]. rewrite E1, E2, S1, S2. cbn [sindex]. rewrite !String.eqb_refl.
      destruct (String.eqb_spec la lo) as [->|_]; [tauto|]. destruct (String.eqb_spec lo la) as [->|_]; [tauto|]. reflexivity.
  Qed.
  Lemma nth_all_idx2 a b k : (k < a * b)%nat -> nth k (all_idx [a; b]) [] = [(k / b)%nat; (k mod b)%nat] /\ (k / b < a)%nat /\ (k mod b < b)%nat.
  Proof.
    intros Hk. assert (Hb : b <> 0%nat) by lia. pose proof (Nat.mod_upper_bound k b Hb) as M.
    assert (D : (k / b < a)%nat) by (apply Nat.div_lt_upper_bound; lia). split; [|auto].
    assert (Ib : inb [a; b] [(k / b)%nat; (k mod b)%nat]) by (apply inb_cons; split; auto; apply inb_cons; split; auto; apply inb_nil).
    pose proof (nth_flat _ _ Ib) as F. replace (flat [a; b] [(k / b)%nat; (k mod b)%nat]) with k in F; auto.
    cbn. pose proof (Nat.div_mod k b Hb). lia.
  Qed.
  Lemma nmse_regular o m lat lon la lo t ts na no lv ov :
    ready (NDa o) (NDa m) lat lon -> regular o m lat lon la lo t ts na no lv ov -> evenly_spaced na lv -> evenly_spaced no ov ->
    exists r, NMSE (NDa o) (NDa m) = Ok (ODa r) /\ dims r = t /\ shp (dat r) = ts /\
      forall i, inb ts i -> forall w x y,
        latitude_sample (na * no) (fun k => Fin (lv (k / no)%nat)) (fun k => get (dat o) (i ++ [(k / no)%nat; (k mod no)%nat])) (fun k => get (dat m) (i ++ [(k / no)%nat; (k mod no)%nat])) w x y ->
        (good_weights (na * no) w -> nmse_result (na * no) w x y (get (dat r) i)) /\ (bigsum (na * no) w = 0 -> get (dat r) i = NaN).
  Proof.
    intros R G Ea Eo. destruct (regular_sd _ _ _ _ _ _ _ _ _ _ _ _ G) as [Esd Ess]. pose proof G as (E1 & E2 & L1 & L2 & SG).
    assert (LA : forall j k, (j < na)%nat -> lat_at lat [la; lo] [j; k] = Fin (lv j)).
    { intros j k Hj. unfold lat_at. rewrite E1. cbn [map]. unfold env_of. cbn [sindex]. rewrite String.eqb_refl. cbn [nth]. apply L1. auto. }
    destruct (nmse_grid o m lat lon t [la; lo] ts [na; no] R) as (r & E & Dr & Sr & _ & V); auto.
    { apply (line_spacing _ _ _ L1). auto. }
    { apply (line_spacing _ _ _ L2). auto. }
    { intros q Hq. destruct q as [|j [|k [|? ?]]]; try (apply inb_length in Hq; discriminate). apply inb_cons in Hq. destruct Hq as [Hj _]. exists (lv j). apply LA. auto. }
    exists r. split; auto. split; auto. split; auto. intros i Hi w x y Hs. specialize (V i Hi w x y). cbv zeta in V. rewrite all_idx_length in V.
    replace (size [na; no]) with (na * no)%nat in V by (cbn; lia). apply V. intros k Hk. specialize (Hs k Hk). cbn beta in Hs |- *.
    destruct (nth_all_idx2 na no k Hk) as (Q & Q1 & Q2). rewrite Q, LA by auto. exact Hs.
  Qed.
  (** the laws, on regular grids *)
  Lemma nmse_laws o m lat lon la lo t ts na no lv ov r :
    ready (NDa o) (NDa m) lat lon -> regular o m lat lon la lo t ts na no lv ov -> evenly_spaced na lv -> evenly_spaced no ov ->
    NMSE (NDa o) (NDa m) = Ok (ODa r) ->
    forall i, inb ts i -> forall w x y,
      let n := (na * no)%nat in
      latitude_sample n (fun k => Fin (lv (k / no)%nat)) (fun k => get (dat o) (i ++ [(k / no)%nat; (k mod no)%nat])) (fun k => get (dat m) (i ++ [(k / no)%nat; (k mod no)%nat])) w x y ->
      good_weights n w -> 0 < variance n w x ->
      (exists v, get (dat r) i = Fin v /\ 0 <= v /\
        (v = 0 <-> forall k, (k < n)%nat -> w k <> 0 -> y k = x k) /\
        ((forall k, (k < n)%nat -> w k <> 0 -> y k = wmean n w x) -> v = 1) /\
        (forall b, (forall k, (k < n)%nat -> w k <> 0 -> y k = x k + b) -> v = b * b / variance n w x)).
  Proof.
    intros R G Ea Eo E i Hi w x y n Hs Gw V. destruct (nmse_regular o m lat lon la lo t ts na no lv ov R G Ea Eo) as (r' & E' & _ & _ & Val).
    rewrite E in E'. injection E' as <-. destruct (Val i Hi w x y Hs) as [A _]. destruct (A Gw) as [A1 _].
    exists (nmse_of n w x y). split; [auto|]. split; [apply nmse_nonneg; auto|]. split; [apply nmse_zero_iff; auto|]. split; [apply nmse_mean_is_one; auto|].
    intros b Hb. rewrite <- (nmse_bias n w x b Gw). unfold nmse_of. f_equal. apply nmse_mask. intros. split; auto.
  Qed.
  (** common affine rescaling c + d x; missing stays missing *)
  Definition rescaled (c d : R) (a a' : da fl) : Prop :=
    dims a' = dims a /\ shp (dat a') = shp (dat a) /\ coords a' = coords a /\
    forall i, inb (shp (dat a)) i -> match get (dat a) i with Fin v => get (dat a') i = Fin (c + d * v) | NaN => get (dat a') i = NaN | _ => True end.
  Lemma nmse_rescale o m o' m' lat lon la lo t ts na no lv ov c d r r' :
    ready (NDa o) (NDa m) lat lon -> ready (NDa o') (NDa m') lat lon -> regular o m lat lon la lo t ts na no lv ov -> evenly_spaced na lv -> evenly_spaced no ov ->
    d <> 0 -> rescaled c d o o' -> rescaled c d m m' ->
    NMSE (NDa o) (NDa m) = Ok (ODa r) -> NMSE (NDa o') (NDa m') = Ok (ODa r') ->
    forall i, inb ts i -> forall w x y,
      let n := (na * no)%nat in
      latitude_sample n (fun k => Fin (lv (k / no)%nat)) (fun k => get (dat o) (i ++ [(k / no)%nat; (k mod no)%nat])) (fun k => get (dat m) (i ++ [(k / no)%nat; (k mod no)%nat])) w x y ->
      good_weights n w -> 0 < variance n w x -> get (dat r') i = get (dat r) i.
  Proof.
    intros R R' G Ea Eo Hd Ro Rm E E' i Hi w x y n Hs Gw V.
    destruct (nmse_regular o m lat lon la lo t ts na no lv ov R G Ea Eo) as (r1 & E1 & _ & _ & Val). rewrite E in E1. injection E1 as <-.
    assert (G' : regular o' m' lat lon la lo t ts na no lv ov).
    { destruct G as (A1 & A2 & A3 & A4 & (Do & Dm & ND & So & Sm & Lt & Ls & La)). destruct Ro as (P1 & P2 & P3 & _). destruct Rm as (Q1 & Q2 & Q3 & _).
      repeat split; try congruence; try (apply A3); try (apply A4). rewrite <- La. unfold labels_agree, index_labels. rewrite P1, P3, Q1, Q3. auto. }
    destruct (nmse_regular o' m' lat lon la lo t ts na no lv ov R' G' Ea Eo) as (r2 & E2 & _ & _ & Val'). rewrite E' in E2. injection E2 as <-.
    destruct (Val i Hi w x y Hs) as [A _]. destruct (A Gw) as [A1 _].
    destruct (Val' i Hi w (fun k => c + d * x k) (fun k => c + d * y k)) as [B _].
    { intros k Hk. specialize (Hs k Hk). cbn beta in Hs |- *. destruct (nth_all_idx2 na no k Hk) as (_ & Q1 & Q2).
      destruct G as (_ & _ & _ & _ & (_ & _ & _ & So & Sm & _)).
      assert (Ib : inb (ts ++ [na; no]) (i ++ [(k / no)%nat; (k mod no)%nat])) by (apply inb_app; auto; apply inb_cons; split; auto; apply inb_cons; split; auto; apply inb_nil).
      destruct Ro as (_ & _ & _ & Ro). destruct Rm as (_ & _ & _ & Rm). rewrite So in Ro. rewrite Sm in Rm. specialize (Ro _ Ib). specialize (Rm _ Ib).
      destruct Hs as [(H1 & H2 & H3)|[[H1|H1] H2]].
      - left. rewrite H1 in Ro. rewrite H2 in Rm. auto.
      - right. rewrite H1 in Ro. auto.
      - right. rewrite H1 in Rm. auto. }
    destruct (B Gw) as [B1 _]. rewrite A1, B1; auto.
    - f_equal. apply nmse_affine; auto.
    - assert (Q : variance n w (fun k => c + d * x k) = d * d * variance n w x).
      { unfold variance. rewrite <- wmean_scal. apply wmean_mask. intros. rewrite wmean_affine by (destruct Gw; lra). ring. }
      fold n. rewrite Q. apply Rmult_lt_0_compat; auto. destruct (Rlt_le_dec 0 d); [apply Rmult_lt_0_compat; auto|]. assert (d < 0) by (destruct r0; [auto|contradiction]). nra.
  Qed.
  (** values hidden by a missing value on either side do not matter *)
  Lemma nmse_hidden o m o' m' lat lon la lo t ts na no lv ov r r' :
    ready (NDa o) (NDa m) lat lon -> ready (NDa o') (NDa m') lat lon ->
    regular o m lat lon la lo t ts na no lv ov -> regular o' m' lat lon la lo t ts na no lv ov -> evenly_spaced na lv -> evenly_spaced no ov ->
    NMSE (NDa o) (NDa m) = Ok (ODa r) -> NMSE (NDa o') (NDa m') = Ok (ODa r') ->
    forall i, inb ts i -> forall w x y,
      let n := (na * no)%nat in
      latitude_sample n (fun k => Fin (lv (k / no)%nat)) (fun k => get (dat o) (i ++ [(k / no)%nat; (k mod no)%nat])) (fun k => get (dat m) (i ++ [(k / no)%nat; (k mod no)%nat])) w x y ->
      good_weights n w ->
      (forall k, (k < n)%nat -> let q := i ++ [(k / no)%nat; (k mod no)%nat] in
         (get (dat o') q = get (dat o) q /\ get (dat m') q = get (dat m) q) \/
         ((get (dat o) q = NaN \/ get (dat m) q = NaN) /\ (get (dat o') q = NaN \/ get (dat m') q = NaN))) ->
      get (dat r') i = get (dat r) i.
  Proof.
    intros R R' G G' Ea Eo E E' i Hi w x y n Hs Gw Hid.
    destruct (nmse_regular o m lat lon la lo t ts na no lv ov R G Ea Eo) as (r1 & E1 & _ & _ & Val). rewrite E in E1. injection E1 as <-.
    destruct (nmse_regular o' m' lat lon la lo t ts na no lv ov R' G' Ea Eo) as (r2 & E2 & _ & _ & Val'). rewrite E' in E2. injection E2 as <-.
    destruct (Val i Hi w x y Hs) as [A _]. destruct (Val' i Hi w x y) as [B _].
    { intros k Hk. specialize (Hs k Hk). specialize (Hid k Hk). cbn beta zeta in Hs, Hid |- *. destruct Hid as [[-> ->]|[H1 H2]]; auto.
      right. split; auto. destruct Hs as [(P & Q & _)|[_ Z]]; auto. exfalso. destruct H1; congruence. }
    destruct (A Gw) as (A1 & A2 & A3). destruct (B Gw) as (B1 & B2 & B3).
    pose proof (variance_nonneg _ _ x Gw) as V. pose proof (mse_nonneg _ _ x y Gw) as Ms.
    destruct (Rle_lt_or_eq_dec _ _ V) as [V'|V']; [rewrite A1, B1; auto|].
    destruct (Rle_lt_or_eq_dec _ _ Ms) as [M'|M']; [rewrite A2, B2; auto|rewrite A3, B3; auto].
  Qed.

  (** ** two-dimensional coordinates: uneven longitudes are accepted *)
  Lemma nmse_plane o m lat lon y x t ts a b f g h k :
    ready (NDa o) (NDa m) lat lon -> cdims lat = [y; x] -> cdims lon = [y; x] -> plane lat a b f -> plane lon a b g ->
    same_grid o m t [y; x] ts [a; b] -> (0 < b)%nat -> (0 < a)%nat ->
    (forall i j, (i < a)%nat -> (j < b)%nat -> f i j = h i) -> (forall i j, (i < a)%nat -> (j < b)%nat -> g i j = k j) ->
    evenly_spaced a h -> exists r, NMSE (NDa o) (NDa m) = Ok (ODa r) /\ dims r = t /\ shp (dat r) = ts.
  Proof.
    intros R D1 D2 P1 P2 G Hb Ha Hf Hg Ev.
    assert (Hne : x <> y). { destruct G as (_ & _ & ND & _). apply nodup_l in ND. apply NoDup_cons_iff in ND. destruct ND as [Hn _]. intros ->. apply Hn. left; auto. }
    destruct (nmse_grid o m lat lon t [y; x] ts [a; b] R) as (r & E & Dr & Sr & _ & V); auto.
    - eapply plane_rows; eauto.
    - eapply plane_blind; eauto.
    - rewrite D1, D2. symmetry. apply join_dims_sub. auto.
    - cbn [map]. unfold csize. cbn [flat_map]. rewrite D1, (proj1 P1). cbn [sindex]. rewrite !String.eqb_refl. destruct (String.eqb_spec x y); [tauto|]. reflexivity.
    - intros q Hq. destruct q as [|i [|j [|? ?]]]; try (apply inb_length in Hq; discriminate). apply inb_cons in Hq. destruct Hq as [Hi Hj]. apply inb_cons in Hj. destruct Hj as [Hj _].
      exists (f i j). unfold lat_at. rewrite D1. cbn [map]. unfold env_of. cbn [sindex]. rewrite !String.eqb_refl. destruct (String.eqb_spec x y); [tauto|]. cbn [nth option_map]. apply P1; auto.
    - exists r. auto.
  Qed.
  (** ** fields on different labels or sizes *)
  Lemma nmse_mismatch o m lat lon : ready (NDa o) (NDa m) lat lon -> spacing_ok lat -> spacing_ok lon ->
    labels_agree o m = false \/ sizes_agree o m = false -> NMSE (NDa o) (NDa m) = Err ValueError.
  Proof.
    intros (K & H & L & O) S1 S2 D. rewrite nmse_body by auto. rewrite (body_ok cf_lat cf_lon _ _ lat lon O S1 S2). unfold tail_ok. cbv zeta.
    unfold nmse_da, compatible. destruct D as [-> | ->]; [|rewrite andb_false_r]; reflexivity.
  Qed.
  (** TypeError is raised for nothing else *)
  Definition notype {A} (r : res A) : Prop := r <> Err TypeError.
  Lemma notype_bind {A B} (r : res A) (f : A -> res B) : notype r -> (forall a, notype (f a)) -> notype (bind r f).
  Proof. unfold notype. intros H1 H2. destruct r; cbn; [apply H2|congruence]. Qed.
  Lemma notype_if {A} (b : bool) (x y : res A) : notype x -> notype y -> notype (if b then x else y).
  Proof. destruct b; auto. Qed.
  Lemma notype_ok {A} (a : A) : notype (Ok a). Proof. discriminate. Qed.
  Lemma notype_mapM {A B} (f : A -> res B) l : (forall a, notype (f a)) -> notype (mapM f l).
  Proof. intros H. induction l as [|a l IH]; cbn; [discriminate|]. apply notype_bind; auto. intros b. apply notype_bind; auto. intros; discriminate. Qed.
  Lemma notype_get names o : notype (cf_get (T := fl) names o).
  Proof. unfold cf_get. destruct names as [|a [|b l]]; try discriminate. destruct (slookup a (ncoords o)); discriminate. Qed.
  Lemma notype_diff ax (a : arr fl) : notype (np_diff ax a).
  Proof. unfold np_diff. apply notype_if; discriminate. Qed.
  Lemma notype_spacing (a : arr fl) : notype (spacing_diff a).
  Proof. unfold spacing_diff. apply notype_bind; [apply notype_diff|]. intros d. apply notype_if; [apply notype_diff|discriminate]. Qed.
  Lemma notype_close (a : arr fl) : notype (allclose0 a).
  Proof. unfold allclose0. apply notype_if; discriminate. Qed.
  Lemma notype_tail o m lat lon : same_kind o m -> notype (tail_ok o m lat lon).
  Proof.
    unfold tail_ok, rmap. destruct o, m; cbn [same_kind]; try tauto; intros _; cbv zeta.
    - unfold nmse_da. apply notype_bind; [|discriminate]. apply notype_if; [discriminate|]. apply notype_if; [discriminate|]. discriminate.
    - unfold nmse_ds. apply notype_bind; [|discriminate]. apply notype_if; [discriminate|]. apply notype_bind.
      + apply notype_mapM. intros p. apply notype_bind; [|discriminate]. unfold oget. destruct (slookup _ _); discriminate.
      + intros ps. apply notype_if; [discriminate|]. apply notype_if; [discriminate|]. discriminate.
  Qed.
  Lemma nmse_type_only o m : NMSE o m = Err TypeError <-> ~ same_kind o m.
  Proof.
    split; [|apply nmse_type_error]. intros E K.
    destruct (Classical_Prop.classic (same_coords o m)) as [H|H]; [|rewrite nmse_key_error in E by auto; discriminate].
    destruct (Classical_Prop.classic (located cf_lat cf_lon o m)) as [L|L]; [|rewrite nmse_unlocated in E by auto; discriminate].
    rewrite nmse_body in E by auto. revert E. unfold body.
    apply notype_bind; [apply notype_get|]. intros lat. apply notype_bind; [apply notype_spacing|]. intros d.
    apply notype_bind; [apply notype_get|]. intros lon. apply notype_bind; [apply notype_spacing|]. intros d'.
    apply notype_bind; [apply notype_close|]. intros b. apply notype_if; [discriminate|].
    apply notype_bind; [apply notype_close|]. intros b'. apply notype_if; [discriminate|]. apply notype_if; [discriminate|]. apply notype_tail. auto.
  Qed.

  (** ** Datasets *)
  (** every variable of both Datasets lies on the same dimensions t ++ sd *)
  Definition common_grid (os ms : list (string * da fl)) (t sd : list string) (ts ss : list nat) : Prop :=
    map fst os = map fst ms /\ NoDup (map fst os) /\ ~ In "variable"%string (t ++ sd) /\
    forall v o m, slookup v os = Some o -> slookup v ms = Some m -> same_grid o m t sd ts ss.
  Lemma slookup_nth {A} (l : list (string * A)) v j : NoDup (map fst l) -> nth_error (map fst l) j = Some v -> exists x, nth_error l j = Some (v, x) /\ slookup v l = Some x.
  Proof.
    revert j. induction l as [|[k x] l IH]; intros j ND E; [destruct j; discriminate|]. cbn in ND. apply NoDup_cons_iff in ND. destruct ND as [Hn ND]. destruct j; cbn in E |- *.
    - injection E as <-. exists x. rewrite String.eqb_refl. auto.
    - destruct (IH j ND E) as (z & Z1 & Z2). exists z. split; auto. destruct (String.eqb_spec v k) as [->|]; auto. exfalso. apply Hn. eapply nth_error_In; eauto.
  Qed.
  Lemma slookup_map {A B} (f : string * A -> B) l v : slookup v (map (fun p => (fst p, f p)) l) = option_map (fun x => f (v, x)) (slookup v l).
  Proof. induction l as [|[k x] l IH]; cbn; auto. destruct (String.eqb_spec v k) as [->|]; auto. Qed.
  Lemma in_slookup {A} (l : list (string * A)) v x : NoDup (map fst l) -> In (v, x) l -> slookup v l = Some x.
  Proof.
    induction l as [|[k y] l IH]; intros ND H; [destruct H|]. cbn in ND |- *. apply NoDup_cons_iff in ND. destruct ND as [Hn ND]. destruct H as [H|H].
    - injection H as -> ->. rewrite String.eqb_refl. auto.
    - destruct (String.eqb_spec v k) as [->|]; auto. exfalso. apply Hn. change k with (fst (k, x)). apply in_map. auto.
  Qed.
  Lemma slookup_keys {A} (l : list (string * A)) v : In v (map fst l) -> exists x, slookup v l = Some x.
  Proof. induction l as [|[k y] l IH]; cbn; [tauto|]. intros H. destruct (String.eqb_spec v k); [eauto|]. destruct H; [congruence|auto]. Qed.
  Lemma same_names_refl l : same_names l l = true.
  Proof. unfold same_names. rewrite Nat.eqb_refl. cbn. rewrite andb_true_iff. split; apply forallb_forall; intros; apply smem_In; auto. Qed.
  (** pairs built by the Dataset branch *)
  Lemma pairs_ok (os ms : list (string * da fl)) : NoDup (map fst os) -> map fst os = map fst ms ->
    exists ps, mapM (fun p => do o <- oget ValueError (slookup (fst p) os) ;; Ok (fst p, (o, snd p))) ms = Ok ps /\ map fst ps = map fst ms /\
      forall v o m, In (v, (o, m)) ps -> slookup v os = Some o /\ slookup v ms = Some m.
  Proof.
    intros ND E. assert (NDm : NoDup (map fst ms)) by congruence. assert (K : forall p, In p ms -> In (fst p) (map fst os)) by (intros p Hp; rewrite E; apply in_map; auto).
    assert (Q : forall l, (forall p, In p l -> In p ms) -> exists ps, mapM (fun p => do o <- oget ValueError (slookup (fst p) os) ;; Ok (fst p, (o, snd p))) l = Ok ps /\ map fst ps = map fst l /\
      forall v o m, In (v, (o, m)) ps -> slookup v os = Some o /\ In (v, m) ms).
    { induction l as [|[v m] l IH]; intros Hl.
      - exists []. cbn. split; auto. split; auto. intros v o m [].
      - destruct IH as (ps & P1 & P2 & P3); [intros; apply Hl; right; auto|]. destruct (slookup_keys os v) as [o Ho]; [apply (K (v, m)); apply Hl; left; auto|].
        exists ((v, (o, m)) :: ps). cbn [mapM fst snd]. rewrite Ho. cbn [oget bind]. rewrite P1. cbn [bind]. split; auto. split; [cbn; f_equal; auto|].
        intros v' o' m' [H|H]; [injection H as <- <- <-; split; auto; apply Hl; left; auto|apply P3; auto]. }
    destruct (Q ms (fun p H => H)) as (ps & P1 & P2 & P3). exists ps. split; auto. split; auto. intros v o m H. destruct (P3 v o m H). split; auto. apply in_slookup; auto.
  Qed.
  Lemma nmse_da_inv lat sd ssz o m r : nmse_da lat sd ssz o m = Ok r -> compatible o m = true /\ nan_weights lat o m = false.
  Proof. unfold nmse_da. destruct (compatible o m); cbn [negb]; [|discriminate]. destruct (nan_weights lat o m); [discriminate|]. auto. Qed.
  Lemma nmse_dataset o m lat lon t sd ts ss :
    ready (NDs o) (NDs m) lat lon -> spacing_ok lat -> spacing_ok lon ->
    sd = join_dims (cdims lat) (cdims lon) -> ss = map (csize [lat; lon]) sd -> common_grid (ds_vars o) (ds_vars m) t sd ts ss ->
    (forall q, inb ss q -> exists l, lat_at lat sd q = Fin l) ->
    exists vs, NMSE (NDs o) (NDs m) = Ok (ODs vs (map fst (ds_vars o))) /\ map fst vs = map fst (ds_vars o) /\
      forall v ov mv, slookup v (ds_vars o) = Some ov -> slookup v (ds_vars m) = Some mv ->
        exists r, slookup v vs = Some r /\ dims r = t ++ ["variable"%string] /\ shp (dat r) = ts ++ [List.length (ds_vars o)] /\
          forall i j u ou mu, inb ts i -> nth_error (map fst (ds_vars o)) j = Some u -> slookup u (ds_vars o) = Some ou -> slookup u (ds_vars m) = Some mu ->
          forall w x y wu xu yu,
            let n := List.length (all_idx ss) in
            let pos k := nth k (all_idx ss) [] in
            latitude_sample n (fun k => lat_at lat sd (pos k)) (fun k => get (dat ov) (i ++ pos k)) (fun k => get (dat mv) (i ++ pos k)) w x y ->
            latitude_sample n (fun k => lat_at lat sd (pos k)) (fun k => get (dat ou) (i ++ pos k)) (fun k => get (dat mu) (i ++ pos k)) wu xu yu ->
            good_weights n wu -> nmse_result n wu (shown w x) (shown w y) (get (dat r) (i ++ [j])).
  Proof.
    intros (K & H & L & O) S1 S2 Esd Ess (EN & ND & Nv & G) Hl. rewrite nmse_body by auto. rewrite (body_ok cf_lat cf_lon _ _ lat lon O S1 S2). unfold tail_ok. cbv zeta.
    rewrite <- Esd, <- Ess. set (os := ds_vars o) in *. set (ms := ds_vars m) in *.
    assert (Hc : forall d, In d (cdims lat) -> In d sd) by (intros d Hd; rewrite Esd; apply join_dims_In; auto).
    unfold nmse_ds. rewrite EN, same_names_refl. cbn [negb]. destruct (pairs_ok os ms ND EN) as (ps & P1 & P2 & P3). rewrite P1. cbn [bind].
    assert (NDp : NoDup (map fst ps)) by congruence.
    assert (PP : forall p, In p ps -> same_grid (fst (snd p)) (snd (snd p)) t sd ts ss).
    { intros [v [a b]] Hp. destruct (P3 _ _ _ Hp). eapply G; eauto. }
    assert (PI' : forall p, In p ps -> compatible (fst (snd p)) (snd (snd p)) = true /\ nan_weights lat (fst (snd p)) (snd (snd p)) = false).
    { intros p Hp. destruct (nmse_da_grid _ _ _ _ _ _ lat ss (PP p Hp)) as (r & E & _); auto. eapply nmse_da_inv; eauto. }
    rewrite (proj2 (forallb_forall _ ps)) by (intros p Hp; apply PI'; auto). cbn [negb].
    assert (NW : existsb (fun p => nan_weights lat (fst (snd p)) (snd (snd p))) ps = false).
    { destruct (existsb _ ps) eqn:E; auto. apply existsb_exists in E. destruct E as (p & Hp & E). destruct (PI' p Hp) as [_ Q]. congruence. }
    rewrite NW. cbv zeta.
    set (alld := fold_left join_dims _ []).
    set (W := fun j => match slookup (nth j (map fst ms) ""%string) ps with Some (o0, m0) => wgt lat o0 m0 | None => fun _ => nnan end).
    set (allv := map snd ms ++ map snd os).
    set (own := fun o0 m0 : da fl => keep_dims sd (join_dims (dims m0) (wdims lat o0 m0))).
    set (DS := fun o0 m0 => own o0 m0 ++ "variable"%string :: filter (fun d => negb (smem d (own o0 m0))) (keep_dims sd alld)).
    set (mk := fun p : string * (da fl * da fl) => mkDa (DS (fst (snd p)) (snd (snd p)))
       (mkArr (map (fun d => if String.eqb d "variable" then List.length os else sizeof allv d) (DS (fst (snd p)) (snd (snd p))))
              (fun i => metric sd ss (wgt lat (fst (snd p)) (snd (snd p))) (W (env_of (DS (fst (snd p)) (snd (snd p))) i "variable"%string)) (fst (snd p)) (snd (snd p)) (env_of (DS (fst (snd p)) (snd (snd p))) i)))
       [] description None).
    match goal with |- context [map ?f ps] => assert (EM : map f ps = map (fun p => (fst p, mk p)) ps) end.
    { apply map_ext. intros [v [a b]]. reflexivity. }
    rewrite EM. eexists. split; [reflexivity|]. split; [rewrite map_map; cbn [fst]; exact P2|].
    intros v ov mv Ho Hm.
    assert (Sp : slookup v ps = Some (ov, mv)).
    { assert (In v (map fst ps)) by (rewrite P2, <- EN; clear -Ho; induction os as [|[k x] l IH]; cbn in Ho |- *; [discriminate|]; destruct (String.eqb_spec v k); auto).
      destruct (slookup_keys ps v) as [[a b] E]; auto. rewrite E. assert (Hin : In (v, (a, b)) ps).
      { clear -E. induction ps as [|[k x] l IH]; cbn in E |- *; [discriminate|]. destruct (String.eqb_spec v k) as [->|]; [injection E as ->; auto|auto]. }
      destruct (P3 _ _ _ Hin). congruence. }
    rewrite slookup_map, Sp. cbn [option_map]. eexists. split; [reflexivity|].
    pose proof (G v ov mv Ho Hm) as Gv. pose proof Gv as (Do & Dm & NDs' & So & Sm & Lt & Ls & La).
    assert (Wd : forall p, In p ps -> forall d, In d (wdims lat (fst (snd p)) (snd (snd p))) -> In d (t ++ sd)).
    { intros p Hp d Hd. destruct (PP p Hp) as (D1 & D2 & _). unfold wdims in Hd. rewrite D1, D2, (join_dims_sub (t ++ sd) (t ++ sd)) in Hd by auto. apply join_dims_In in Hd. destruct Hd as [Hd|Hd]; auto. apply in_app_iff. auto. }
    assert (Eown : own ov mv = t).
    { unfold own. rewrite Dm, join_dims_sub; [apply keep_t; auto|]. intros d Hd. unfold wdims in Hd. rewrite Do, Dm, (join_dims_sub (t ++ sd) (t ++ sd)) in Hd by auto. apply join_dims_In in Hd. destruct Hd as [Hd|Hd]; auto. apply in_app_iff. auto. }
    assert (Ad : forall d, In d alld -> In d (t ++ sd)).
    { assert (Q : forall ls acc, (forall l, In l ls -> forall d, In d l -> In d (t ++ sd)) -> (forall d, In d acc -> In d (t ++ sd)) -> forall d, In d (fold_left join_dims ls acc) -> In d (t ++ sd)).
      { induction ls as [|l ls IH]; intros acc H1 H2 d; cbn; auto. apply IH; [intros; eapply H1; eauto; right; auto|]. intros d' Hd'. apply join_dims_In in Hd'. destruct Hd'; auto. eapply H1; eauto. left; auto. }
      apply Q; [|intros d []]. intros l Hl' d. apply in_map_iff in Hl'. destruct Hl' as (p & <- & Hp). apply Wd. auto. }
    assert (EDS : DS ov mv = t ++ ["variable"%string]).
    { unfold DS. rewrite Eown. f_equal. f_equal.
      assert (Q : forall l, (forall d, In d l -> In d t) -> filter (fun d => negb (smem d t)) l = []).
      { induction l as [|a l IH]; intros Q; cbn; auto. rewrite (proj2 (smem_In a t)) by (apply Q; left; auto). cbn. apply IH. intros; apply Q; right; auto. }
      apply Q. intros d Hd. unfold keep_dims in Hd. apply filter_In in Hd. destruct Hd as [Hd Hs]. apply Ad in Hd. apply in_app_iff in Hd. destruct Hd as [Hd|Hd]; auto.
      rewrite (proj2 (smem_In d sd) Hd) in Hs. discriminate. }
    assert (Nvt : ~ In "variable"%string t) by (intros Q; apply Nv; apply in_app_iff; auto).
    unfold mk. cbn [dims dat shp get fst snd]. rewrite EDS. split; [reflexivity|]. split.
    - rewrite map_app. cbn [map]. f_equal. apply nth_ext with (d := 0%nat) (d' := 0%nat); [rewrite map_length; auto|]. intros k Hk. rewrite map_length in Hk.
      destruct (nth_error t k) as [d|] eqn:Ek; [|apply nth_error_None in Ek; lia].
      set (f := fun d0 => if String.eqb d0 "variable" then List.length os else sizeof allv d0).
      rewrite (nth_indep (map f t) 0%nat (f ""%string)) by (rewrite map_length; auto). rewrite map_nth, (nth_error_nth t k ""%string Ek). unfold f.
      destruct (String.eqb_spec d "variable") as [->|_]; [exfalso; apply Nvt; eapply nth_error_In; eauto|].
      assert (Q : forall a, In a allv -> dsize a d = Some (nth k ts 0%nat)).
      { intros a Ha. assert (Hg : dims a = t ++ sd /\ shp (dat a) = ts ++ ss).
        { assert (Hv : exists v' o' m', slookup v' os = Some o' /\ slookup v' ms = Some m' /\ (a = o' \/ a = m')).
          { unfold allv in Ha. apply in_app_iff in Ha. assert (NDm : NoDup (map fst ms)) by congruence. destruct Ha as [Ha|Ha]; apply in_map_iff in Ha; destruct Ha as ([v' a'] & Ea & Ha); cbn in Ea; subst a'.
            - destruct (slookup_keys os v') as [o' Ho']; [rewrite EN; change v' with (fst (v', a)); apply in_map; auto|]. exists v', o', a. split; auto. split; auto. apply in_slookup; auto.
            - destruct (slookup_keys ms v') as [m' Hm']; [rewrite <- EN; change v' with (fst (v', a)); apply in_map; auto|]. exists v', a, m'. split; [apply in_slookup; auto|]. auto. }
          destruct Hv as (v' & o' & m' & Hv1 & Hv2 & Hv3). destruct (G v' o' m' Hv1 Hv2) as (A1 & A2 & _ & A3 & A4 & _). destruct Hv3; subst a; auto. }
        destruct Hg as [Hg1 Hg2]. unfold dsize. rewrite Hg1, Hg2.
        assert (Hin : In d (t ++ sd)) by (apply in_app_iff; left; eapply nth_error_In; eauto). destruct (sindex_In _ _ Hin) as (j' & E & Hlt & _). rewrite E.
        assert (Ej : j' = k). { apply (proj1 (NoDup_nth_error _) NDs'); auto. rewrite (sindex_Some _ _ _ E). rewrite nth_error_app1; auto. } subst j'.
        rewrite nth_error_app1 by lia. apply nth_error_nth'. lia. }
      unfold sizeof. destruct allv as [|a l] eqn:Eal.
      { exfalso. assert (In mv allv). { unfold allv. apply in_app_iff. left. clear -Hm. induction ms as [|[k' x] l IH]; cbn in Hm |- *; [discriminate|]. destruct (String.eqb_spec v k'); [injection Hm as ->; auto|auto]. } rewrite Eal in H0. destruct H0. }
      cbn [flat_map]. rewrite (Q a) by (left; auto). reflexivity.
    - intros i j u ou mu Hi Hj Hou Hmu w x y wu xu yu Hs Hu Gw.
      assert (Li : List.length i = List.length t) by (apply inb_length in Hi; lia).
      set (e := env_of (t ++ ["variable"%string]) (i ++ [j])).
      assert (NDt : NoDup (t ++ ["variable"%string])).
      { clear -NDs' Nvt. apply nodup_r in NDs'. induction t as [|a t IH]; cbn; [constructor; [intros []|constructor]|]. apply NoDup_cons_iff in NDs'. destruct NDs' as [Hn ND]. constructor.
        - intros Q. apply in_app_iff in Q. destruct Q as [Q|[Q|[]]]; auto. apply Nvt. left; auto.
        - apply IH; auto. intros Q. apply Nvt. right; auto. }
      assert (Em : map e (t ++ ["variable"%string]) = i ++ [j]) by (apply map_env_of; [auto|rewrite !app_length; cbn; lia]).
      rewrite map_app in Em. apply app_inj_tail in Em. destruct Em as [Et Ev].
      rewrite Ev.
      assert (EW : W j = wgt lat ou mu).
      { unfold W. rewrite (nth_error_nth _ j ""%string Hj).
        assert (Su : slookup u ps = Some (ou, mu)).
        { destruct (slookup_keys ps u) as [[a b] E]; [rewrite P2; eapply nth_error_In; eauto|]. rewrite E. assert (Hin : In (u, (a, b)) ps).
          { clear -E. induction ps as [|[k x] l IH]; cbn in E |- *; [discriminate|]. destruct (String.eqb_spec u k) as [->|]; [injection E as ->; auto|auto]. }
          destruct (P3 _ _ _ Hin). congruence. }
        rewrite Su. auto. }
      rewrite EW.
      assert (H1 : holds_at sd ss lat ov mv e w x y) by (exact (holds_grid ov mv t sd ts ss lat e i w x y Gv Hc Et Hs)).
      assert (H2 : holds_at sd ss lat ou mu e wu xu yu) by (exact (holds_grid ou mu t sd ts ss lat e i wu xu yu (G u ou mu Hou Hmu) Hc Et Hu)).
      rewrite (metric_gen sd ss _ _ ov mv e wu (shown w x) (shown w y)).
      2:{ intros k Hk. rewrite (wgt_value sd ss lat ou mu e wu xu yu k H2 Hk), (zeroed_obs sd ss lat ov mv e w x y k H1 Hk), (zeroed_mod sd ss lat ov mv e w x y k H1 Hk). auto. }
      rewrite reqb_false by (destruct Gw; unfold npts; lra). unfold nmse_result. change (@ndiv fl NumFl) with fl_div. fold (npts ss). split; [|split].
      + intros V. rewrite fdiv_fin by lra. reflexivity.
      + intros V Ms. rewrite V. cbn [fl_div]. destruct (Req_EM_T 0 0); [|contradiction]. destruct (Req_EM_T (mse (npts ss) wu (shown w x) (shown w y)) 0); [lra|]. destruct (Rlt_dec 0 (mse (npts ss) wu (shown w x) (shown w y))); [reflexivity|contradiction].
      + intros V Ms. rewrite V, Ms. cbn [fl_div]. destruct (Req_EM_T 0 0); [|contradiction]. reflexivity.
  Qed.
  (** at the variable itself the fields need not be blanked *)
  Lemma nmse_result_shown n w x y v : nmse_result n w (shown w x) (shown w y) v <-> nmse_result n w x y v.
  Proof.
    destruct (nmse_mask n w (shown w x) (shown w y) x y) as [E1 E2].
    { intros k Hk Hw. unfold shown. rewrite (reqb_false _ _ Hw). auto. }
    unfold nmse_result, nmse_of. rewrite E1, E2. tauto.
  Qed.
  Lemma nmse_ds_names o m lat lon : ready (NDs o) (NDs m) lat lon -> spacing_ok lat -> spacing_ok lon ->
    same_names (map fst (ds_vars o)) (map fst (ds_vars m)) = false -> NMSE (NDs o) (NDs m) = Err ValueError.
  Proof.
    intros (K & H & L & O) S1 S2 D. rewrite nmse_body by auto. rewrite (body_ok cf_lat cf_lon _ _ lat lon O S1 S2). unfold tail_ok, nmse_ds. cbv zeta. rewrite D. reflexivity.
  Qed.
End More.
