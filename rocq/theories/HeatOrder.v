(** Proofs for C107 and C108: order of the heat index and of the dew point. *)
From Coq Require Import Reals List Bool Arith ZArith Lia Lra Psatz String.
From Verif Require Import PyBase Num NumFacts Arr ArrFacts CellFacts Hybrid Meteo SpecMeteo MeteoFacts MeteoCells MeteoApi MeteoApi2.
Import ListNotations.
Local Open Scope R_scope.

(** ** the regressions *)
(** lowest temperature from which the regression applies at every humidity and no window begins *)
Definition hot (alt : bool) : R := if alt then 80 else 81.2.

Definition slope (alt : bool) (s h : R) : R :=
  if alt then 0.988622465 - 0.114037667 * h + 0.000274954 * h ^ 2 + s * (- 0.000850208 + 0.000687678 * h)
  else 2.04901523 - 0.22475541 * h + 0.00085282 * h ^ 2 + s * (- 0.00683783 + 0.00122874 * h - 0.00000199 * h ^ 2).
Lemma regression_dt alt t t' h : regression alt t' h - regression alt t h = (t' - t) * slope alt (t + t') h.
Proof. unfold regression, slope. destruct alt; lra. Qed.
(** [slope] is affine in s *)
Lemma slope_ends alt a b c s h : a <= s <= b -> c <= slope alt a h -> c <= slope alt b h -> c <= slope alt s h.
Proof.
  intros H A B. unfold slope in *. destruct alt.
  - set (u := 0.988622465 - 0.114037667 * h + 0.000274954 * h ^ 2) in *. set (v := - 0.000850208 + 0.000687678 * h) in *. clearbody u v.
    destruct (Rle_dec 0 v); nra.
  - set (u := 2.04901523 - 0.22475541 * h + 0.00085282 * h ^ 2) in *. set (v := - 0.00683783 + 0.00122874 * h - 0.00000199 * h ^ 2) in *. clearbody u v.
    destruct (Rle_dec 0 v); nra.
Qed.
Lemma slope_pos alt s h : 2 * hot alt <= s <= 280 -> 0 <= h <= 100 -> 0.1 <= slope alt s h.
Proof.
  intros H Hh. apply (slope_ends alt (2 * hot alt) 280); auto; unfold slope, hot; destruct alt; nra.
Qed.
Lemma slope_dry alt s h : 2 * hot alt <= s <= 224 -> 0 <= h <= 13 -> 0.4 <= slope alt s h.
Proof.
  intros H Hh. apply (slope_ends alt (2 * hot alt) 224); auto; unfold slope, hot; destruct alt; nra.
Qed.
Lemma slope_humid alt s h : 2 * hot alt <= s <= 280 -> 85 <= h <= 100 -> 0.4 <= slope alt s h.
Proof.
  intros H Hh. apply (slope_ends alt (2 * hot alt) 280); auto; unfold slope, hot; destruct alt; nra.
Qed.

Definition slope_h (alt : bool) (t s : R) : R :=
  if alt then 4.777114035 - 0.114037667 * t + 0.000687678 * t ^ 2 + s * (- 0.020716198 + 0.000274954 * t)
  else 10.14333127 - 0.22475541 * t + 0.00122874 * t ^ 2 + s * (- 0.05481717 + 0.00085282 * t - 0.00000199 * t ^ 2).
Lemma regression_dh alt t h h' : regression alt t h' - regression alt t h = (h' - h) * slope_h alt t (h + h').
Proof. unfold regression, slope_h. destruct alt; lra. Qed.
Lemma slope_h_ends alt t a b s : a <= s <= b -> 0 < slope_h alt t a -> 0 < slope_h alt t b -> 0 < slope_h alt t s.
Proof.
  intros H A B. unfold slope_h in *. destruct alt.
  - set (u := 4.777114035 - 0.114037667 * t + 0.000687678 * t ^ 2) in *. set (v := - 0.020716198 + 0.000274954 * t) in *. clearbody u v.
    destruct (Rle_dec 0 v); nra.
  - set (u := 10.14333127 - 0.22475541 * t + 0.00122874 * t ^ 2) in *. set (v := - 0.05481717 + 0.00085282 * t - 0.00000199 * t ^ 2) in *. clearbody u v.
    destruct (Rle_dec 0 v); nra.
Qed.
Lemma slope_h_pos alt t s : hot alt <= t <= 140 -> 26 <= s <= 200 -> 0 < slope_h alt t s.
Proof.
  intros H Hs. apply (slope_h_ends alt t 26 200); auto; unfold slope_h, hot in *; destruct alt.
  - pose proof (pow2_ge_0 (t - 82)). nra.
  - pose proof (pow2_ge_0 (t - 86.06)). nra.
  - nra.
  - nra.
Qed.
Lemma slope_h_warm alt t s : 112 <= t <= 140 -> 0 <= s <= 200 -> 0 < slope_h alt t s.
Proof. intros H Hs. apply (slope_h_ends alt t 0 200); auto; unfold slope_h in *; destruct alt; nra. Qed.

(** ** the dry adjustment *)
Definition g (t : R) : R := sqrt (Rabs (17 - Rabs (t - 95)) / 17).
Lemma g_left t : 78 <= t <= 95 -> g t = sqrt ((t - 78) / 17).
Proof. intros H. unfold g. f_equal. rewrite (Rabs_left1 (t - 95)) by lra. rewrite Rabs_right by lra. lra. Qed.
Lemma g_right t : 95 <= t <= 112 -> g t = sqrt ((112 - t) / 17).
Proof. intros H. unfold g. f_equal. rewrite (Rabs_right (t - 95)) by lra. rewrite Rabs_right by lra. lra. Qed.
Lemma g_nonneg t : 0 <= g t.
Proof. apply sqrt_pos. Qed.
Lemma g_lip_left t t' : 80 <= t -> t <= t' -> t' <= 95 -> g t' - g t <= 0.09 * (t' - t).
Proof.
  intros H1 H2 H3. rewrite !g_left by lra. set (u := sqrt ((t - 78) / 17)). set (u' := sqrt ((t' - 78) / 17)).
  assert (U : u * u = (t - 78) / 17) by (apply sqrt_sqrt; lra). assert (U' : u' * u' = (t' - 78) / 17) by (apply sqrt_sqrt; lra).
  assert (P : 0 <= u) by apply sqrt_pos. assert (P' : 0 <= u') by apply sqrt_pos.
  assert (L : 0.34 <= u). { apply Rnot_lt_le. intros C. nra. }
  assert (L' : u <= u') by (apply sqrt_le_1_alt; lra). nra.
Qed.
Lemma g_dec_right t t' : 95 <= t -> t <= t' -> t' <= 112 -> g t' <= g t.
Proof. intros H1 H2 H3. rewrite !g_right by lra. apply sqrt_le_1_alt. lra. Qed.
Lemma g_lip t t' : 80 <= t -> t <= t' -> t' <= 112 -> g t' - g t <= 0.09 * (t' - t).
Proof.
  intros H1 H2 H3. destruct (Rle_dec t' 95) as [A|A]; [apply g_lip_left; lra|]. destruct (Rle_dec 95 t) as [B|B].
  - pose proof (g_dec_right t t' ltac:(lra) ltac:(lra) ltac:(lra)). lra.
  - pose proof (g_dec_right 95 t' ltac:(lra) ltac:(lra) ltac:(lra)). pose proof (g_lip_left t 95 ltac:(lra) ltac:(lra) ltac:(lra)). lra.
Qed.
Lemma g_lower t : 80 <= t <= 112 -> (17 - Rabs (t - 95)) / 17 <= g t.
Proof.
  intros H. assert (A : 0 <= (17 - Rabs (t - 95)) / 17 <= 1).
  { destruct (Rle_dec t 95); [rewrite (Rabs_left1 (t - 95)) by lra|rewrite (Rabs_right (t - 95)) by lra]; lra. }
  unfold g. rewrite (Rabs_right (17 - _)) by lra. set (a := (17 - Rabs (t - 95)) / 17) in *.
  assert (E : sqrt a * sqrt a = a) by (apply sqrt_sqrt; lra). pose proof (sqrt_pos a). nra.
Qed.
(** what the dry adjustment gains from more humidity outweighs the regression's loss *)
Lemma slope_h_dry alt t s : hot alt <= t <= 112 -> 0 <= s <= 26 -> 0 < slope_h alt t s + g t / 4.
Proof.
  intros H Hs. assert (Ht : 80 <= t <= 112) by (unfold hot in H; destruct alt; lra). pose proof (g_lower t Ht) as L.
  assert (K : 0 < slope_h alt t 0 + g t / 4 /\ 0 < slope_h alt t 26 + g t / 4).
  { split.
    - destruct (Rle_dec t 95); [rewrite (Rabs_left1 (t - 95)) in L by lra|rewrite (Rabs_right (t - 95)) in L by lra]; unfold slope_h, hot in *; destruct alt; pose proof (pow2_ge_0 (t - 85.47)); pose proof (pow2_ge_0 (t - 97.44)); pose proof (pow2_ge_0 (t - 82.9)); nra.
    - pose proof (slope_h_pos alt t 26 ltac:(lra) ltac:(lra)). pose proof (g_nonneg t). lra. }
  destruct K as [K0 K1]. unfold slope_h in *. destruct alt.
  - set (u := 4.777114035 - 0.114037667 * t + 0.000687678 * t ^ 2) in *. set (v := - 0.020716198 + 0.000274954 * t) in *. clearbody u v.
    destruct (Rle_dec 0 v); nra.
  - set (u := 10.14333127 - 0.22475541 * t + 0.00122874 * t ^ 2) in *. set (v := - 0.05481717 + 0.00085282 * t - 0.00000199 * t ^ 2) in *. clearbody u v.
    destruct (Rle_dec 0 v); nra.
Qed.

(** ** hot air *)
Definition dry (t h : R) : R := if Rle_dec t 112 then if Rle_dec h 13 then (13 - h) / 4 * g t else 0 else 0.
Definition humid (t h : R) : R := if Rle_dec t 87 then if Rlt_dec 85 h then (h - 85) / 10 * ((87 - t) / 5) else 0 else 0.
Lemma hot_value alt t h v : hot alt <= t -> 0 <= h <= 100 -> index_value alt t h v -> v = regression alt t h - dry t h + humid t h.
Proof.
  intros Ht Hh I. assert (T80 : 80 <= t) by (unfold hot in Ht; destruct alt; lra).
  assert (B : base_index alt t h = regression alt t h).
  { unfold base_index, simple_index, critical, hot in *. destruct (Rlt_dec t 40); [lra|]. destruct (Rle_dec _ _) as [?|C]; auto. exfalso. apply C. destruct alt; lra. }
  unfold dry, humid, g. destruct I as [(W & ->)|[(W & ->)|(W1 & W2 & ->)]]; rewrite B; unfold dry_window, humid_window, dry_adjustment, humid_adjustment in *.
  - destruct (Rle_dec t 112); [|lra]. destruct (Rle_dec h 13); [|lra]. destruct (Rle_dec t 87); [destruct (Rlt_dec 85 h); lra|lra].
  - destruct (Rle_dec t 87); [|lra]. destruct (Rlt_dec 85 h); [|lra]. destruct (Rle_dec t 112); [destruct (Rle_dec h 13); lra|lra].
  - destruct (Rle_dec t 112); [destruct (Rle_dec h 13); [exfalso; apply W1; lra|]|]; (destruct (Rle_dec t 87); [destruct (Rlt_dec 85 h); [exfalso; apply W2; lra|lra]|lra]).
Qed.
Lemma hot_t alt t t' h : hot alt <= t -> t < t' -> t' <= 140 -> 0 <= h <= 100 ->
  regression alt t h - dry t h + humid t h < regression alt t' h - dry t' h + humid t' h.
Proof.
  intros H1 H2 H3 Hh. assert (T80 : 80 <= t) by (unfold hot in H1; destruct alt; lra).
  pose proof (regression_dt alt t t' h) as R. pose proof (slope_pos alt (t + t') h ltac:(lra) Hh) as S0.
  assert (Dn : 0 <= dry t h). { unfold dry. destruct (Rle_dec t 112); [|lra]. destruct (Rle_dec h 13); [|lra]. pose proof (g_nonneg t). nra. }
  destruct (Rle_dec h 13) as [A|A].
  - assert (Z : humid t h = 0 /\ humid t' h = 0). { unfold humid. destruct (Rle_dec t 87), (Rle_dec t' 87), (Rlt_dec 85 h); lra. } destruct Z as [-> ->].
    destruct (Rle_dec t' 112) as [B|B].
    + pose proof (slope_dry alt (t + t') h ltac:(lra) ltac:(lra)) as S1. pose proof (g_lip t t' T80 ltac:(lra) B) as L.
      unfold dry. destruct (Rle_dec t 112); [|lra]. destruct (Rle_dec t' 112); [|lra]. destruct (Rle_dec h 13); [|lra].
      assert (Q : (13 - h) / 4 * (g t' - g t) <= 0.3 * (t' - t)).
      { destruct (Rle_dec 0 (g t' - g t)); nra. }
      nra.
    + assert (Z : dry t' h = 0) by (unfold dry; destruct (Rle_dec t' 112); [lra|auto]). rewrite Z. nra.
  - assert (Z : dry t h = 0 /\ dry t' h = 0). { unfold dry. destruct (Rle_dec t 112), (Rle_dec t' 112), (Rle_dec h 13); lra. } destruct Z as [-> ->].
    destruct (Rlt_dec 85 h) as [B|B].
    + pose proof (slope_humid alt (t + t') h ltac:(lra) ltac:(lra)) as S1.
      assert (Q : humid t h - humid t' h <= 0.3 * (t' - t)).
      { unfold humid. destruct (Rlt_dec 85 h); [|lra]. destruct (Rle_dec t 87), (Rle_dec t' 87); try lra; nra. }
      nra.
    + assert (Z : humid t h = 0 /\ humid t' h = 0). { unfold humid. destruct (Rle_dec t 87), (Rle_dec t' 87), (Rlt_dec 85 h); lra. } destruct Z as [-> ->]. nra.
Qed.
Lemma humid_h t h h' : h <= h' -> humid t h <= humid t h'.
Proof. intros H. unfold humid. destruct (Rle_dec t 87); [|lra]. destruct (Rlt_dec 85 h), (Rlt_dec 85 h'); try lra; nra. Qed.
Lemma hot_h_wet alt t h h' : hot alt <= t <= 140 -> 13 <= h -> h < h' -> h' <= 100 ->
  regression alt t h - dry t h + humid t h < regression alt t h' - dry t h' + humid t h'.
Proof.
  intros H1 H2 H3 H4. pose proof (regression_dh alt t h h') as R. pose proof (slope_h_pos alt t (h + h') H1 ltac:(lra)) as S0.
  pose proof (humid_h t h h' ltac:(lra)).
  assert (Z : dry t h = 0). { unfold dry. destruct (Rle_dec t 112); [|lra]. destruct (Rle_dec h 13); [|lra]. replace h with 13 by lra. lra. }
  assert (Z' : dry t h' = 0). { unfold dry. destruct (Rle_dec t 112); [|lra]. destruct (Rle_dec h' 13); lra. }
  rewrite Z, Z'. nra.
Qed.
Lemma hot_h_dry alt t h h' : hot alt <= t <= 140 -> 0 <= h -> h < h' -> h' <= 13 ->
  regression alt t h - dry t h + humid t h < regression alt t h' - dry t h' + humid t h'.
Proof.
  intros H1 H2 H3 H4. pose proof (regression_dh alt t h h') as R. pose proof (humid_h t h h' ltac:(lra)).
  unfold dry. destruct (Rle_dec t 112).
  - destruct (Rle_dec h 13); [|lra]. destruct (Rle_dec h' 13); [|lra]. pose proof (slope_h_dry alt t (h + h') ltac:(lra) ltac:(lra)). nra.
  - pose proof (slope_h_warm alt t (h + h') ltac:(lra) ltac:(lra)). nra.
Qed.
Lemma hot_h alt t h h' : hot alt <= t <= 140 -> 0 <= h -> h < h' -> h' <= 100 ->
  regression alt t h - dry t h + humid t h < regression alt t h' - dry t h' + humid t h'.
Proof.
  intros H1 H2 H3 H4. destruct (Rle_dec h' 13); [apply hot_h_dry; auto; lra|]. destruct (Rle_dec 13 h); [apply hot_h_wet; auto|].
  pose proof (hot_h_dry alt t h 13 H1 H2 ltac:(lra) ltac:(lra)). pose proof (hot_h_wet alt t 13 h' H1 ltac:(lra) ltac:(lra) H4). lra.
Qed.
Lemma hot_order alt t t' h h' v v' : hot alt <= t -> t <= t' -> t' <= 140 -> 0 <= h -> h <= h' -> h' <= 100 -> t < t' \/ h < h' ->
  index_value alt t h v -> index_value alt t' h' v' -> v < v'.
Proof.
  intros H1 H2 H3 H4 H5 H6 N I I'. apply hot_value in I; try lra. apply hot_value in I'; try lra. subst.
  assert (A : t = t' \/ t < t') by lra. assert (B : h = h' \/ h < h') by lra.
  destruct A as [<-|A], B as [<-|B]; try lra.
  - apply hot_h; auto; lra.
  - apply hot_t; auto; lra.
  - pose proof (hot_t alt t t' h H1 A H3 ltac:(lra)). pose proof (hot_h alt t' h h' ltac:(lra) H4 B H6). lra.
Qed.

(** ** cold and mild air *)
Lemma cold_value alt t h v : t < 40 -> index_value alt t h v -> v = t.
Proof.
  intros Ht I. assert (B : base_index alt t h = t).
  { unfold base_index, simple_index, critical. destruct (Rlt_dec t 40); [|lra]. destruct (Rle_dec _ _) as [C|]; auto. destruct alt; lra. }
  destruct I as [(W & _)|[(W & _)|(_ & _ & ->)]]; auto; destruct W; lra.
Qed.
Lemma mild_value alt t h v : 40 <= t < 80 -> (61 + 1.2 * (t - 68) + 0.094 * h + t) / 2 < critical alt -> index_value alt t h v ->
  v = (61 + 1.2 * (t - 68) + 0.094 * h + t) / 2.
Proof.
  intros Ht Hc I. assert (B : base_index alt t h = (61 + 1.2 * (t - 68) + 0.094 * h + t) / 2).
  { unfold base_index, simple_index. destruct (Rlt_dec t 40); [lra|]. destruct (Rle_dec _ _); [lra|auto]. }
  destruct I as [(W & _)|[(W & _)|(_ & _ & ->)]]; auto; destruct W; lra.
Qed.
Lemma warm_value alt t h v : 40 <= t < 80 -> critical alt <= (61 + 1.2 * (t - 68) + 0.094 * h + t) / 2 -> index_value alt t h v -> v = regression alt t h.
Proof.
  intros Ht Hc I. assert (B : base_index alt t h = regression alt t h).
  { unfold base_index, simple_index. destruct (Rlt_dec t 40); [lra|]. destruct (Rle_dec _ _); [auto|lra]. }
  destruct I as [(W & _)|[(W & _)|(_ & _ & ->)]]; auto; destruct W; lra.
Qed.

(** ** C107 *)
Lemma c107_hot (t rh t' rh' : inp fl) alt w out w' out' : kind_of t = kind_of rh -> compat rh t -> ravel (as_arr rh) <> [] ->
  kind_of t' = kind_of rh' -> compat rh' t' -> ravel (as_arr rh') <> [] -> heat_index t rh alt = Ok (w, out) -> heat_index t' rh' alt = Ok (w', out') ->
  forall i i' x h x' h', inb (shp (as_arr t)) i -> inb (shp (as_arr t')) i' ->
    get (as_arr t) i = Fin x -> get (as_arr rh) i = Fin h -> get (as_arr t') i' = Fin x' -> get (as_arr rh') i' = Fin h' ->
    (if alt then 80 else 81.2) <= x -> x <= x' -> x' <= 140 -> 0 <= h -> h <= h' -> h' <= 100 -> x < x' \/ h < h' ->
    exists v v', get (as_arr out) i = Fin v /\ get (as_arr out') i' = Fin v' /\ v < v'.
Proof.
  intros K C Hne K' C' Hne' E E' i i' x h x' h' Hi Hi' Gt Gh Gt' Gh' H1 H2 H3 H4 H5 H6 N.
  destruct (c28_lemma t rh alt w out K C Hne E i x h Hi Gt Gh) as (v & Gv & I).
  destruct (c28_lemma t' rh' alt w' out' K' C' Hne' E' i' x' h' Hi' Gt' Gh') as (v' & Gv' & I').
  exists v, v'. split; auto. split; auto. eapply (hot_order alt x x' h h'); eauto.
Qed.
Lemma c107_mild (t rh t' rh' : inp fl) alt w out w' out' : kind_of t = kind_of rh -> compat rh t -> ravel (as_arr rh) <> [] ->
  kind_of t' = kind_of rh' -> compat rh' t' -> ravel (as_arr rh') <> [] -> heat_index t rh alt = Ok (w, out) -> heat_index t' rh' alt = Ok (w', out') ->
  forall i i' x h x' h', inb (shp (as_arr t)) i -> inb (shp (as_arr t')) i' ->
    get (as_arr t) i = Fin x -> get (as_arr rh) i = Fin h -> get (as_arr t') i' = Fin x' -> get (as_arr rh') i' = Fin h' ->
    (x < x' -> x' < 40 -> exists v v', get (as_arr out) i = Fin v /\ get (as_arr out') i' = Fin v' /\ v < v') /\
    (40 <= x -> x <= x' -> x' < 80 -> h <= h' -> x < x' \/ h < h' -> (61 + 1.2 * (x' - 68) + 0.094 * h' + x') / 2 < (if alt then 70 else 79) ->
     exists v v', get (as_arr out) i = Fin v /\ get (as_arr out') i' = Fin v' /\ v < v').
Proof.
  intros K C Hne K' C' Hne' E E' i i' x h x' h' Hi Hi' Gt Gh Gt' Gh'.
  destruct (c28_lemma t rh alt w out K C Hne E i x h Hi Gt Gh) as (v & Gv & I).
  destruct (c28_lemma t' rh' alt w' out' K' C' Hne' E' i' x' h' Hi' Gt' Gh') as (v' & Gv' & I').
  split.
  - intros H1 H2. exists v, v'. split; auto. split; auto. rewrite (cold_value alt x h v), (cold_value alt x' h' v'); auto; lra.
  - intros H1 H2 H3 H4 N Hc. change (if alt then 70 else 79) with (critical alt) in Hc. exists v, v'. split; auto. split; auto.
    rewrite (mild_value alt x h v), (mild_value alt x' h' v'); auto; lra.
Qed.

Lemma heat_scalar alt t h : 0 <= h <= 100 -> exists w v, heat_index (IFloat (Fin t)) (IFloat (Fin h)) alt = Ok (w, IFloat (Fin v)) /\ index_value alt t h v.
Proof.
  intros Hh. destruct (heat_index_run (IFloat (Fin t)) (IFloat (Fin h)) alt eq_refl eq_refl ltac:(discriminate)) as [_ B].
  destruct B as (w & out & E & _ & K & S & G).
  { intros [(x & [<-|[]] & O) _]. destruct O as [O|O]; cbn in O; unfold rltb in O; destruct (Rlt_dec _ _); try discriminate; lra. }
  destruct out as [d|a|a|x|x]; cbn in K; try discriminate. specialize (G [] ltac:(constructor)). cbn [as_arr get scalar] in G.
  destruct (hi_cell_fin alt t h) as (v & Ev & I). rewrite Ev in G. subst x. exists w, v. auto.
Qed.
Lemma c107_forty alt t h : 39 <= t < 40 -> 0 <= h <= 100 ->
  exists w v v', heat_index (IFloat (Fin t)) (IFloat (Fin h)) alt = Ok (w, IFloat (Fin v)) /\
    heat_index (IFloat (Fin 40)) (IFloat (Fin h)) alt = Ok (w, IFloat (Fin v')) /\ v = t /\ v' = 33.7 + 0.047 * h /\ v' < v.
Proof.
  intros Ht Hh. destruct (heat_scalar alt t h Hh) as (w & v & E & I). destruct (heat_scalar alt 40 h Hh) as (w' & v' & E' & I').
  assert (W : w = w').
  { destruct (heat_index_run (IFloat (Fin t)) (IFloat (Fin h)) alt eq_refl eq_refl ltac:(discriminate)) as [A B].
    destruct (heat_index_run (IFloat (Fin 40)) (IFloat (Fin h)) alt eq_refl eq_refl ltac:(discriminate)) as [A' B'].
    assert (N : ~ range_rejects (IFloat (Fin h))) by (intros X; rewrite (A X) in E; discriminate).
    destruct (B N) as (w1 & o1 & E1 & W1 & _). destruct (B' N) as (w2 & o2 & E2 & W2 & _).
    assert (w = w1) by congruence. assert (w' = w2) by congruence. subst. destruct w1, w2; auto; [symmetry; apply W2, W1; auto|apply W1, W2; auto]. }
  subst w'. exists w, v, v'. split; auto. split; auto. pose proof (cold_value alt t h v ltac:(lra) I) as Ev.
  assert (Ev' : v' = (61 + 1.2 * (40 - 68) + 0.094 * h + 40) / 2) by (apply (mild_value alt 40 h v'); auto; [lra|unfold critical; destruct alt; lra]).
  split; auto. split; lra.
Qed.
Lemma c107_threshold :
  (exists w w' v v', heat_index (IFloat (Fin 76.9)) (IFloat (Fin 100)) false = Ok (w, IFloat (Fin v)) /\
     heat_index (IFloat (Fin 77)) (IFloat (Fin 100)) false = Ok (w', IFloat (Fin v')) /\ v' < v - 1.3) /\
  (exists w w' v v', heat_index (IFloat (Fin 77)) (IFloat (Fin 97)) false = Ok (w, IFloat (Fin v)) /\
     heat_index (IFloat (Fin 77)) (IFloat (Fin 98)) false = Ok (w', IFloat (Fin v')) /\ v' < v - 1) /\
  (exists w w' v v', heat_index (IFloat (Fin 68.7)) (IFloat (Fin 100)) true = Ok (w, IFloat (Fin v)) /\
     heat_index (IFloat (Fin 68.8)) (IFloat (Fin 100)) true = Ok (w', IFloat (Fin v')) /\ v' < v - 4.9).
Proof.
  split; [|split].
  - destruct (heat_scalar false 76.9 100 ltac:(lra)) as (w & v & E & I). destruct (heat_scalar false 77 100 ltac:(lra)) as (w' & v' & E' & I').
    exists w, w', v, v'. split; auto. split; auto.
    rewrite (mild_value false 76.9 100 v ltac:(lra) ltac:(unfold critical; lra) I), (warm_value false 77 100 v' ltac:(lra) ltac:(unfold critical; lra) I'). unfold regression. lra.
  - destruct (heat_scalar false 77 97 ltac:(lra)) as (w & v & E & I). destruct (heat_scalar false 77 98 ltac:(lra)) as (w' & v' & E' & I').
    exists w, w', v, v'. split; auto. split; auto.
    rewrite (mild_value false 77 97 v ltac:(lra) ltac:(unfold critical; lra) I), (warm_value false 77 98 v' ltac:(lra) ltac:(unfold critical; lra) I'). unfold regression. lra.
  - destruct (heat_scalar true 68.7 100 ltac:(lra)) as (w & v & E & I). destruct (heat_scalar true 68.8 100 ltac:(lra)) as (w' & v' & E' & I').
    exists w, w', v, v'. split; auto. split; auto.
    rewrite (mild_value true 68.7 100 v ltac:(lra) ltac:(unfold critical; lra) I), (warm_value true 68.8 100 v' ltac:(lra) ltac:(unfold critical; lra) I'). unfold regression. lra.
Qed.

(** ** C108: dew point and temperature *)
Lemma exp_nat n : exp (INR n) = exp 1 ^ n.
Proof. induction n as [|n IH]; [apply exp_0|]. rewrite S_INR, exp_plus, IH. simpl. ring. Qed.
Lemma ln_lower h : 0.000001 <= h -> -27 < ln (h * 0.01).
Proof.
  intros H. rewrite <- (ln_exp (-27)). apply ln_increasing; [apply exp_pos|].
  assert (E2 : 2 <= exp 1) by (pose proof (exp_ineq1_le 1); lra).
  assert (E : 2 ^ 27 <= exp 27). { replace (exp 27) with (exp (INR 27)) by (f_equal; simpl; lra). rewrite exp_nat. apply pow_incr. lra. }
  replace (-27) with (- (27)) by lra. rewrite exp_Ropp. assert (P : 134217728 <= exp 27) by (replace 134217728 with (2 ^ 27) by lra; lra).
  assert (Q : / exp 27 <= / 134217728) by (apply Rinv_le_contravar; lra). lra.
Qed.
Lemma dew_temperature tk tk' h d d' : 0 < tk -> tk < tk' -> tk' <= 400 -> 0.000001 <= h <= 100 ->
  dewtemp_cell (Fin tk) (Fin h) = Fin d -> dewtemp_cell (Fin tk') (Fin h) = Fin d' -> d < d'.
Proof.
  intros H1 H2 H3 Hh E E'. destruct (dew_bounds tk h ltac:(lra) ltac:(lra)) as (e & E1 & B & _ & I). destruct (dew_bounds tk' h ltac:(lra) ltac:(lra)) as (e' & E1' & B' & _ & I').
  assert (e = d) by congruence. assert (e' = d') by congruence. subst.
  pose proof (ln_lower h ltac:(lra)) as L. pose proof (ln_le_0 (h * 0.01) ltac:(lra)) as L0. set (n := ln (h * 0.01)) in *.
  pose proof (lhv_pos tk ltac:(lra)) as P. pose proof (lhv_pos tk' ltac:(lra)) as P'.
  assert (/ d' < / d); [|rewrite <- (Rinv_inv d), <- (Rinv_inv d'); apply Rinv_lt_contravar; auto; apply Rmult_lt_0_compat; apply Rinv_0_lt_compat; lra].
  rewrite I, I'.
  assert (X : lhv_over_gc tk - lhv_over_gc tk' = (tk' - tk) * (0.57 / (461.5 / (1000 * 4.186)))) by (unfold lhv_over_gc; field; lra).
  assert (Q : 4760 <= lhv_over_gc tk') by (unfold lhv_over_gc; lra). assert (Q1 : lhv_over_gc tk' <= lhv_over_gc tk) by (unfold lhv_over_gc; lra).
  set (l := lhv_over_gc tk) in *. set (l' := lhv_over_gc tk') in *.
  assert (K : - n * (l - l') / (l * l') < (tk' - tk) / (tk * tk')).
  { assert (A0 : 0 <= l - l' <= (tk' - tk) * 5.1702) by (split; [lra|rewrite X; apply Rmult_le_compat_l; lra]).
    assert (A1 : - n * (l - l') <= (tk' - tk) * 140) by nra.
    assert (A2 : 0 < / (l * l') <= / 22657600) by (split; [apply Rinv_0_lt_compat; nra|apply Rinv_le_contravar; nra]).
    assert (A3 : / 160000 <= / (tk * tk')) by (apply Rinv_le_contravar; nra).
    unfold Rdiv. apply Rle_lt_trans with ((tk' - tk) * 140 * / 22657600).
    - apply Rle_trans with ((tk' - tk) * 140 * / (l * l')); [apply Rmult_le_compat_r; lra|apply Rmult_le_compat_l; nra].
    - apply Rlt_le_trans with ((tk' - tk) * / 160000); [nra|apply Rmult_le_compat_l; lra]. }
  assert (Y1 : (tk' - tk) / (tk * tk') = / tk - / tk') by (field; lra).
  assert (Y2 : - n * (l - l') / (l * l') = n / l - n / l') by (field; lra). lra.
Qed.
Lemma c108_lemma (t rh t' rh' out out' : inp fl) : compat t rh -> compat t' rh' -> dewtemp t rh = Ok out -> dewtemp t' rh' = Ok out' ->
  forall i i' tk h tk' h', inb (shp (as_arr t)) i -> inb (shp (as_arr t')) i' ->
    get (as_arr t) i = Fin tk -> get (as_arr rh) i = Fin h -> get (as_arr t') i' = Fin tk' -> get (as_arr rh') i' = Fin h' ->
    0 < tk -> tk <= tk' -> tk' <= 400 -> 0.000001 <= h -> h <= h' -> h' <= 100 -> tk < tk' \/ h < h' ->
    exists d d', get (as_arr out) i = Fin d /\ get (as_arr out') i' = Fin d' /\ d < d'.
Proof.
  intros C C' E E' i i' tk h tk' h' Hi Hi' Gt Gh Gt' Gh' H1 H2 H3 H4 H5 H6 N.
  destruct (dewtemp_ok t rh C) as (o & Eo & _ & _ & G). destruct (dewtemp_ok t' rh' C') as (o' & Eo' & _ & _ & G').
  rewrite Eo in E. injection E as ->. rewrite Eo' in E'. injection E' as ->. rewrite (G i Hi), (G' i' Hi'), Gt, Gh, Gt', Gh'.
  destruct (dew_bounds tk h ltac:(lra) ltac:(lra)) as (d & Ed & _). destruct (dew_bounds tk' h' ltac:(lra) ltac:(lra)) as (d' & Ed' & _).
  destruct (dew_bounds tk' h ltac:(lra) ltac:(lra)) as (m & Em & _).
  exists d, d'. split; auto. split; auto.
  assert (A : d <= m). { assert (Q : tk = tk' \/ tk < tk') by lra. destruct Q as [Q|Q]; [subst; assert (d = m) by congruence; lra|left; eapply (dew_temperature tk tk' h); eauto; lra]. }
  assert (B : m <= d'). { assert (Q : h = h' \/ h < h') by lra. destruct Q as [Q|Q]; [subst; assert (d' = m) by congruence; lra|left; eapply (dew_increasing tk' h h'); eauto; lra]. }
  destruct N as [N|N].
  - pose proof (dew_temperature tk tk' h d m H1 N H3 ltac:(lra) Ed Em). lra.
  - pose proof (dew_increasing tk' h h' m d' ltac:(lra) ltac:(lra) ltac:(lra) Em Ed'). lra.
Qed.
