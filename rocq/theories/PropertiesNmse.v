(** C53, C54, C84, C85: nmse.  [wmean], [mse], [variance], [nmse_of], [nmse_result], [latitude_sample], [evenly_spaced],
    [good_weights] and [shown] are in SpecStats.v.  [cf_lat], [cf_lon] stand for cf_xarray's recognition of coordinates. *)
From Coq Require Import Reals List Bool Arith ZArith Lra Lia String.
From Verif Require Import PyBase Num NumFacts Arr ArrFacts XrFacts Hybrid SpecSum SumFacts SpecStats PsiFacts Nmse NmseFacts NmseApi NmseMore.
Import ListNotations.
Local Open Scope R_scope.

(** C53.  Fields on [t ..., lat, lon] with evenly spaced one-dimensional coordinates: the result lives on t, and at each index
    is the cosine-weighted normalised mean squared error over the points where both fields are present (NaN if there is none). *)
Theorem C53_value :
  forall (cf_lat cf_lon : nin fl -> list string),
  forall o m lat lon la lo t ts na no lv ov,
  ready cf_lat cf_lon (NDa o) (NDa m) lat lon -> regular o m lat lon la lo t ts na no lv ov -> evenly_spaced na lv -> evenly_spaced no ov ->
    exists r, nmse cf_lat cf_lon (NDa o) (NDa m) = Ok (ODa r) /\ dims r = t /\ shp (dat r) = ts /\
      forall i, inb ts i -> forall w x y,
        latitude_sample (na * no) (fun k => Fin (lv (k / no)%nat)) (fun k => get (dat o) (i ++ [(k / no)%nat; (k mod no)%nat])) (fun k => get (dat m) (i ++ [(k / no)%nat; (k mod no)%nat])) w x y ->
        (good_weights (na * no) w -> nmse_result (na * no) w x y (get (dat r) i)) /\ (bigsum (na * no) w = 0 -> get (dat r) i = NaN).
Proof. exact nmse_regular. Qed.
Print Assumptions C53_value.


(** C53.  It is nonnegative, zero exactly for agreement at all weighted points, one for the weighted mean as model, and
    b^2 / variance for a constant bias b. *)
Theorem C53_laws :
  forall (cf_lat cf_lon : nin fl -> list string),
  forall o m lat lon la lo t ts na no lv ov r,
  ready cf_lat cf_lon (NDa o) (NDa m) lat lon -> regular o m lat lon la lo t ts na no lv ov -> evenly_spaced na lv -> evenly_spaced no ov ->
    nmse cf_lat cf_lon (NDa o) (NDa m) = Ok (ODa r) ->
    forall i, inb ts i -> forall w x y,
      let n := (na * no)%nat in
      latitude_sample n (fun k => Fin (lv (k / no)%nat)) (fun k => get (dat o) (i ++ [(k / no)%nat; (k mod no)%nat])) (fun k => get (dat m) (i ++ [(k / no)%nat; (k mod no)%nat])) w x y ->
      good_weights n w -> 0 < variance n w x ->
      (exists v, get (dat r) i = Fin v /\ 0 <= v /\
        (v = 0 <-> forall k, (k < n)%nat -> w k <> 0 -> y k = x k) /\
        ((forall k, (k < n)%nat -> w k <> 0 -> y k = wmean n w x) -> v = 1) /\
        (forall b, (forall k, (k < n)%nat -> w k <> 0 -> y k = x k + b) -> v = b * b / variance n w x)).
Proof. exact nmse_laws. Qed.
Print Assumptions C53_laws.


(** C53.  A common affine change of units of both fields does not change it. *)
Theorem C53_rescale :
  forall (cf_lat cf_lon : nin fl -> list string),
  forall o m o' m' lat lon la lo t ts na no lv ov c d r r',
  ready cf_lat cf_lon (NDa o) (NDa m) lat lon -> ready cf_lat cf_lon (NDa o') (NDa m') lat lon -> regular o m lat lon la lo t ts na no lv ov -> evenly_spaced na lv -> evenly_spaced no ov ->
    d <> 0 -> rescaled c d o o' -> rescaled c d m m' ->
    nmse cf_lat cf_lon (NDa o) (NDa m) = Ok (ODa r) -> nmse cf_lat cf_lon (NDa o') (NDa m') = Ok (ODa r') ->
    forall i, inb ts i -> forall w x y,
      let n := (na * no)%nat in
      latitude_sample n (fun k => Fin (lv (k / no)%nat)) (fun k => get (dat o) (i ++ [(k / no)%nat; (k mod no)%nat])) (fun k => get (dat m) (i ++ [(k / no)%nat; (k mod no)%nat])) w x y ->
      good_weights n w -> 0 < variance n w x -> get (dat r') i = get (dat r) i.
Proof. exact nmse_rescale. Qed.
Print Assumptions C53_rescale.


(** C53.  Values at points where either field is missing do not matter, nor does which of the two is missing. *)
Theorem C53_hidden :
  forall (cf_lat cf_lon : nin fl -> list string),
  forall o m o' m' lat lon la lo t ts na no lv ov r r',
  ready cf_lat cf_lon (NDa o) (NDa m) lat lon -> ready cf_lat cf_lon (NDa o') (NDa m') lat lon ->
    regular o m lat lon la lo t ts na no lv ov -> regular o' m' lat lon la lo t ts na no lv ov -> evenly_spaced na lv -> evenly_spaced no ov ->
    nmse cf_lat cf_lon (NDa o) (NDa m) = Ok (ODa r) -> nmse cf_lat cf_lon (NDa o') (NDa m') = Ok (ODa r') ->
    forall i, inb ts i -> forall w x y,
      let n := (na * no)%nat in
      latitude_sample n (fun k => Fin (lv (k / no)%nat)) (fun k => get (dat o) (i ++ [(k / no)%nat; (k mod no)%nat])) (fun k => get (dat m) (i ++ [(k / no)%nat; (k mod no)%nat])) w x y ->
      good_weights n w ->
      (forall k, (k < n)%nat -> let q := i ++ [(k / no)%nat; (k mod no)%nat] in
         (get (dat o') q = get (dat o) q /\ get (dat m') q = get (dat m) q) \/
         ((get (dat o) q = NaN \/ get (dat m) q = NaN) /\ (get (dat o') q = NaN \/ get (dat m') q = NaN))) ->
      get (dat r') i = get (dat r) i.
Proof. exact nmse_hidden. Qed.
Print Assumptions C53_hidden.


(** C53.  The same for coordinates of any rank passing the spacing check. *)
Theorem C53_general_grid :
  forall (cf_lat cf_lon : nin fl -> list string),
  forall o m lat lon t sd ts ss,
  ready cf_lat cf_lon (NDa o) (NDa m) lat lon -> spacing_ok lat -> spacing_ok lon ->
    sd = join_dims (cdims lat) (cdims lon) -> ss = map (csize [lat; lon]) sd -> same_grid o m t sd ts ss ->
    (forall q, inb ss q -> exists l, lat_at lat sd q = Fin l) ->
    exists r, nmse cf_lat cf_lon (NDa o) (NDa m) = Ok (ODa r) /\ dims r = t /\ shp (dat r) = ts /\ attrs r = description /\
      forall i, inb ts i -> forall w x y,
        let n := List.length (all_idx ss) in
        latitude_sample n (fun k => lat_at lat sd (nth k (all_idx ss) [])) (fun k => get (dat o) (i ++ nth k (all_idx ss) [])) (fun k => get (dat m) (i ++ nth k (all_idx ss) [])) w x y ->
        (good_weights n w -> nmse_result n w x y (get (dat r) i)) /\ (bigsum n w = 0 -> get (dat r) i = NaN).
Proof. exact nmse_grid. Qed.
Print Assumptions C53_general_grid.

(** two times, latitudes 0 and 60, longitudes 0 and 90; at the first time one observation is missing *)
Definition ex_lat : coordv fl := mkCoord ["lat"%string] (vec NaN [Fin 0; Fin 60]).
Definition ex_lon : coordv fl := mkCoord ["lon"%string] (vec NaN [Fin 0; Fin 90]).
Definition ex_cs : list (string * coordv fl) := [("lat"%string, ex_lat); ("lon"%string, ex_lon)].
Definition ex_o : da fl := mkDa ["time"; "lat"; "lon"]%string (of_flat NaN [2; 2; 2]%nat [Fin 1; Fin 2; Fin 3; NaN; Fin 1; Fin 1; Fin 1; Fin 1]) ex_cs [] None.
Definition ex_m : da fl := mkDa ["time"; "lat"; "lon"]%string (of_flat NaN [2; 2; 2]%nat [Fin 1; Fin 2; Fin 5; Fin 7; Fin 1; Fin 1; Fin 1; Fin 1]) ex_cs [] None.
Definition ex_cf_lat : nin fl -> list string := fun _ => ["lat"%string].
Definition ex_cf_lon : nin fl -> list string := fun _ => ["lon"%string].
Lemma ex_labels (o m : da fl) : dims o = dims m -> coords o = coords m -> (forall d, In d (dims o) -> d <> "time"%string -> d = "lat"%string \/ d = "lon"%string) -> coords o = ex_cs -> labels_agree o m = true.
Proof.
  intros D C Hd E. unfold labels_agree. rewrite <- D. apply forallb_forall. intros d Hin. apply filter_In in Hin. destruct Hin as [Hin _]. unfold index_labels. rewrite <- C, E.
  destruct (String.eqb_spec d "time") as [->|Hn]; [reflexivity|]. destruct (Hd d Hin Hn) as [-> | ->]; cbn; rewrite !reqb_true by reflexivity; reflexivity.
Qed.
Lemma ex_even a b : a <> b -> evenly_spaced 2 (fun j => nth j [a; b] 0).
Proof.
  intros Hne. split; [exists 0%nat; split; [lia|cbn; auto]|]. intros [|j] Hj; [|lia]. cbn [nth]. replace (b - a - (b - a)) with 0 by ring. rewrite Rabs_R0. pose proof (Rabs_pos (b - a)). lra.
Qed.
Lemma ex_line d a b : line (mkCoord d (vec NaN [Fin a; Fin b])) 2 (fun j => nth j [a; b] 0).
Proof. split; [reflexivity|]. intros [|[|j]] Hj; try lia; reflexivity. Qed.
Lemma ex_ready : ready ex_cf_lat ex_cf_lon (NDa ex_o) (NDa ex_m) ex_lat ex_lon.
Proof.
  split; [exact I|]. split; [intros n; cbn; tauto|]. split; [repeat split; discriminate|].
  split; eexists; (split; [reflexivity|reflexivity]).
Qed.
Lemma ex_regular : regular ex_o ex_m ex_lat ex_lon "lat" "lon" ["time"%string] [2%nat] 2 2 (fun j => nth j [0; 60] 0) (fun j => nth j [0; 90] 0).
Proof.
  split; [reflexivity|]. split; [reflexivity|]. split; [apply ex_line|]. split; [apply ex_line|].
  split; [reflexivity|]. split; [reflexivity|]. split; [repeat constructor; cbn; intuition discriminate|]. do 4 (split; [reflexivity|]).
  apply ex_labels; try reflexivity. intros d [<-|[<-|[<-|[]]]] Hn; auto; congruence.
Qed.
Lemma cos60 : cos (60 * (PI / 180)) = 1 / 2.
Proof. replace (60 * (PI / 180)) with (PI / 3) by field. apply cos_PI3. Qed.
Lemma cos_0deg : cos (0 * (PI / 180)) = 1.
Proof. rewrite Rmult_0_l. apply cos_0. Qed.
Definition ex_w (k : nat) : R := nth k [1; 1; 1 / 2; 0] 0.
Definition ex_x (k : nat) : R := nth k [1; 2; 3; 0] 0.
Definition ex_y (k : nat) : R := nth k [1; 2; 5; 7] 0.
Lemma ex_sample : latitude_sample (2 * 2) (fun k => Fin (nth (k / 2)%nat [0; 60] 0)) (fun k => get (dat ex_o) ([0%nat] ++ [(k / 2)%nat; (k mod 2)%nat])) (fun k => get (dat ex_m) ([0%nat] ++ [(k / 2)%nat; (k mod 2)%nat])) ex_w ex_x ex_y.
Proof.
  intros [|[|[|[|k]]]] Hk; cbn in Hk; try lia; cbn.
  - left. split; auto. split; auto. exists 0. rewrite cos_0deg. auto.
  - left. split; auto. split; auto. exists 0. rewrite cos_0deg. auto.
  - left. split; auto. split; auto. exists 60. rewrite cos60. auto.
  - right. auto.
Qed.
Lemma ex_good : good_weights (2 * 2) ex_w.
Proof. split; [intros [|[|[|[|k]]]] Hk; cbn in Hk; try lia; cbn; lra|cbn; lra]. Qed.
Example C53_example : exists r, nmse ex_cf_lat ex_cf_lon (NDa ex_o) (NDa ex_m) = Ok (ODa r) /\ dims r = ["time"%string] /\ get (dat r) [0%nat] = Fin (10 / 7).
Proof.
  destruct (C53_value _ _ _ _ _ _ _ _ _ _ _ _ _ _ ex_ready ex_regular (ex_even 0 60 ltac:(lra)) (ex_even 0 90 ltac:(lra))) as (r & E & D & S & V).
  exists r. split; [exact E|]. split; [exact D|].
  destruct (V [0%nat] ltac:(apply inb_cons; split; [lia|apply inb_nil]) _ _ _ ex_sample) as [V1 _]. destruct (V1 ex_good) as [V2 _].
  assert (M : wmean (2 * 2) ex_w ex_x = 9 / 5) by (unfold wmean; cbn; lra).
  assert (Vr : variance (2 * 2) ex_w ex_x = 14 / 25) by (unfold variance; rewrite M; unfold wmean; cbn; lra).
  assert (Ms : mse (2 * 2) ex_w ex_x ex_y = 4 / 5) by (unfold mse, wmean; cbn; lra).
  rewrite V2 by lra. unfold nmse_of. rewrite Ms, Vr. f_equal. lra.
Qed.



(** C54.  TypeError exactly when the arguments are not two DataArrays or two Datasets. *)
Theorem C54_types :
  forall (cf_lat cf_lon : nin fl -> list string),
  forall o m,
  nmse cf_lat cf_lon o m = Err TypeError <-> ~ same_kind o m.
Proof. exact nmse_type_only. Qed.
Print Assumptions C54_types.


(** C54.  Next, KeyError if the sets of coordinate names differ. *)
Theorem C54_coordinate_names :
  forall (cf_lat cf_lon : nin fl -> list string),
  forall o m,
  same_kind o m -> ~ same_coords o m -> nmse cf_lat cf_lon o m = Err KeyError.
Proof. exact nmse_key_error. Qed.
Print Assumptions C54_coordinate_names.


(** C54.  Next, ValueError if latitude or longitude is not recognised in one of the arguments. *)
Theorem C54_unrecognised :
  forall (cf_lat cf_lon : nin fl -> list string),
  forall o m,
  same_kind o m -> same_coords o m -> ~ located cf_lat cf_lon o m -> nmse cf_lat cf_lon o m = Err ValueError.
Proof. exact nmse_unlocated. Qed.
Print Assumptions C54_unrecognised.


(** C54.  Several recognised latitudes: KeyError; the branch raising the documented ValueError is never reached. *)
Theorem C54_several_latitudes :
  forall (cf_lat cf_lon : nin fl -> list string),
  forall o m,
  same_kind o m -> same_coords o m -> located cf_lat cf_lon o m -> (1 < List.length (cf_lat o))%nat -> nmse cf_lat cf_lon o m = Err KeyError.
Proof. exact nmse_multiple. Qed.
Print Assumptions C54_several_latitudes.


(** C54.  One-dimensional coordinates not evenly spaced (a single point or a constant coordinate included): ValueError. *)
Theorem C54_uneven :
  forall (cf_lat cf_lon : nin fl -> list string),
  forall o m lat lon na la no lo,
  same_kind o m -> same_coords o m -> located cf_lat cf_lon o m -> one_latlon cf_lat cf_lon o lat lon ->
    line lat na la -> line lon no lo -> ~ (evenly_spaced na la /\ evenly_spaced no lo) -> nmse cf_lat cf_lon o m = Err ValueError.
Proof. exact nmse_uneven. Qed.
Print Assumptions C54_uneven.


(** C54.  Fields with different labels or sizes: ValueError. *)
Theorem C54_mismatch :
  forall (cf_lat cf_lon : nin fl -> list string),
  forall o m lat lon,
  ready cf_lat cf_lon (NDa o) (NDa m) lat lon -> spacing_ok lat -> spacing_ok lon ->
    labels_agree o m = false \/ sizes_agree o m = false -> nmse cf_lat cf_lon (NDa o) (NDa m) = Err ValueError.
Proof. exact nmse_mismatch. Qed.
Print Assumptions C54_mismatch.

Example C54_example : nmse ex_cf_lat ex_cf_lon (NDa ex_o) NOther = Err TypeError /\
  nmse ex_cf_lat ex_cf_lon (NDa ex_o) (NDa (mkDa [] (mkArr [] (fun _ => Fin 1)) [] [] None)) = Err KeyError /\
  nmse ex_cf_lat (fun _ => []) (NDa ex_o) (NDa ex_m) = Err ValueError /\
  nmse (fun _ => ["lat"; "lat2"]%string) ex_cf_lon (NDa ex_o) (NDa ex_m) = Err KeyError /\
  (let c := [("lat"%string, mkCoord ["lat"%string] (vec NaN [Fin 0; Fin 10; Fin 30])); ("lon"%string, ex_lon)] in
   let f := mkDa ["lat"; "lon"]%string (of_flat NaN [3; 2]%nat (repeat (Fin 1) 6)) c [] None in
   nmse ex_cf_lat ex_cf_lon (NDa f) (NDa f) = Err ValueError).
Proof.
  split; [reflexivity|]. split; [reflexivity|]. split; [reflexivity|]. split; [reflexivity|].
  cbv zeta. eapply (C54_uneven ex_cf_lat ex_cf_lon _ _ _ _ 3 (fun j => nth j [0; 10; 30] 0) 2 (fun j => nth j [0; 90] 0)).
  - exact I.
  - intros n; tauto.
  - repeat split; discriminate.
  - split; eexists; (split; [reflexivity|reflexivity]).
  - split; [reflexivity|]. intros [|[|[|j]]] Hj; try lia; reflexivity.
  - apply ex_line.
  - intros [[_ Ev] _]. specialize (Ev 1%nat ltac:(lia)). cbn [nth] in Ev. replace (30 - 10 - (10 - 0)) with 10 in Ev by ring. rewrite !Rabs_right in Ev by lra. lra.
Qed.


(** C84.  Two-dimensional coordinates on [y, x]: latitude evenly spaced along y, longitude any function k of x whatsoever.
    The call succeeds, so uneven spacing along the second axis is never detected. *)
Theorem C84_uneven_longitude_refuted :
  forall (cf_lat cf_lon : nin fl -> list string),
  forall o m lat lon y x t ts a b f g h k,
  ready cf_lat cf_lon (NDa o) (NDa m) lat lon -> cdims lat = [y; x] -> cdims lon = [y; x] -> plane lat a b f -> plane lon a b g ->
    same_grid o m t [y; x] ts [a; b] -> (0 < b)%nat -> (0 < a)%nat ->
    (forall i j, (i < a)%nat -> (j < b)%nat -> f i j = h i) -> (forall i j, (i < a)%nat -> (j < b)%nat -> g i j = k j) ->
    evenly_spaced a h -> exists r, nmse cf_lat cf_lon (NDa o) (NDa m) = Ok (ODa r) /\ dims r = t /\ shp (dat r) = ts.
Proof. exact nmse_plane. Qed.
Print Assumptions C84_uneven_longitude_refuted.


(** C84.  The reason: a coordinate varying along its second axis only passes the spacing check whatever its values. *)
Theorem C84_any_spacing_along_second_axis :
  forall c a b f g,
  plane c a b f -> (0 < a)%nat -> (forall i j, (i < a)%nat -> (j < b)%nat -> f i j = g j) -> spacing_ok c.
Proof. exact plane_blind. Qed.
Print Assumptions C84_any_spacing_along_second_axis.

(** longitudes 0, 1, 100 *)
Example C84_example : exists r,
  let lat := mkCoord ["y"; "x"]%string (of_flat NaN [2; 3]%nat [Fin 0; Fin 0; Fin 0; Fin 60; Fin 60; Fin 60]) in
  let lon := mkCoord ["y"; "x"]%string (of_flat NaN [2; 3]%nat [Fin 0; Fin 1; Fin 100; Fin 0; Fin 1; Fin 100]) in
  let f := mkDa ["y"; "x"]%string (of_flat NaN [2; 3]%nat (repeat (Fin 1) 6)) [("lat"%string, lat); ("lon"%string, lon)] [] None in
  nmse ex_cf_lat ex_cf_lon (NDa f) (NDa f) = Ok (ODa r).
Proof.
  edestruct (C84_uneven_longitude_refuted ex_cf_lat ex_cf_lon) as (r & E & _).
  12: exists r; cbv zeta; exact E.
  - split; [exact I|]. split; [intros n; tauto|]. split; [repeat split; discriminate|]. split; eexists; (split; [reflexivity|reflexivity]).
  - reflexivity.
  - reflexivity.
  - instantiate (1 := fun i _ => nth i [0; 60] 0). instantiate (1 := 3%nat). instantiate (1 := 2%nat). split; [reflexivity|]. intros [|[|i]] [|[|[|j]]] Hi Hj; try lia; reflexivity.
  - instantiate (1 := fun _ j => nth j [0; 1; 100] 0). split; [reflexivity|]. intros [|[|i]] [|[|[|j]]] Hi Hj; try lia; reflexivity.
  - instantiate (1 := []). instantiate (1 := []). split; [reflexivity|]. split; [reflexivity|]. split; [repeat constructor; cbn; intuition discriminate|]. do 4 (split; [reflexivity|]). reflexivity.
  - lia.
  - lia.
  - instantiate (1 := fun i => nth i [0; 60] 0). auto.
  - instantiate (1 := fun j => nth j [0; 1; 100] 0). auto.
  - apply ex_even. lra.
Qed.


(** C85.  Datasets: each variable v of the result has an extra dimension "variable"; its entry at variable u averages v's
    fields, blanked to zero where v is missing, with u's weights. *)
Theorem C85_dataset :
  forall (cf_lat cf_lon : nin fl -> list string),
  forall o m lat lon t sd ts ss,
  ready cf_lat cf_lon (NDs o) (NDs m) lat lon -> spacing_ok lat -> spacing_ok lon ->
    sd = join_dims (cdims lat) (cdims lon) -> ss = map (csize [lat; lon]) sd -> common_grid (ds_vars o) (ds_vars m) t sd ts ss ->
    (forall q, inb ss q -> exists l, lat_at lat sd q = Fin l) ->
    exists vs, nmse cf_lat cf_lon (NDs o) (NDs m) = Ok (ODs vs (map fst (ds_vars o))) /\ map fst vs = map fst (ds_vars o) /\
      forall v ov mv, slookup v (ds_vars o) = Some ov -> slookup v (ds_vars m) = Some mv ->
        exists r, slookup v vs = Some r /\ dims r = t ++ ["variable"%string] /\ shp (dat r) = ts ++ [List.length (ds_vars o)] /\
          forall i j u ou mu, inb ts i -> nth_error (map fst (ds_vars o)) j = Some u -> slookup u (ds_vars o) = Some ou -> slookup u (ds_vars m) = Some mu ->
          forall w x y wu xu yu,
            let n := List.length (all_idx ss) in
            let pos k := nth k (all_idx ss) [] in
            latitude_sample n (fun k => lat_at lat sd (pos k)) (fun k => get (dat ov) (i ++ pos k)) (fun k => get (dat mv) (i ++ pos k)) w x y ->
            latitude_sample n (fun k => lat_at lat sd (pos k)) (fun k => get (dat ou) (i ++ pos k)) (fun k => get (dat mu) (i ++ pos k)) wu xu yu ->
            good_weights n wu -> nmse_result n wu (shown w x) (shown w y) (get (dat r) (i ++ [j])).
Proof. exact nmse_dataset. Qed.
Print Assumptions C85_dataset.


(** C85.  Hence the entry of v at variable v is v's normalised mean squared error. *)
Theorem C85_own_entry :
  forall n w x y v,
  nmse_result n w (shown w x) (shown w y) v <-> nmse_result n w x y v.
Proof. exact nmse_result_shown. Qed.
Print Assumptions C85_own_entry.


(** C85.  Datasets with different variable names: ValueError. *)
Theorem C85_variable_names :
  forall (cf_lat cf_lon : nin fl -> list string),
  forall o m lat lon,
  ready cf_lat cf_lon (NDs o) (NDs m) lat lon -> spacing_ok lat -> spacing_ok lon ->
    same_names (map fst (ds_vars o)) (map fst (ds_vars m)) = false -> nmse cf_lat cf_lon (NDs o) (NDs m) = Err ValueError.
Proof. exact nmse_ds_names. Qed.
Print Assumptions C85_variable_names.

Definition ex_f (l : list fl) : da fl := mkDa ["lat"; "lon"]%string (of_flat NaN [2; 2]%nat l) ex_cs [] None.
Definition ex_obs : nds fl := mkNds ex_cs [("a"%string, ex_f [Fin 0; Fin 2; Fin 0; Fin 0]); ("b"%string, ex_f [Fin 1; Fin 1; Fin 1; NaN])].
Definition ex_mod : nds fl := mkNds ex_cs [("a"%string, ex_f [Fin 0; Fin 2; Fin 0; Fin 1]); ("b"%string, ex_f [Fin 1; Fin 1; Fin 1; Fin 1])].
(** C85.  The entries differ: variable a, complete and wrong at one point, has error zero at variable b, which is missing there. *)
Theorem C85_other_entries_refuted : exists vs r v, nmse ex_cf_lat ex_cf_lon (NDs ex_obs) (NDs ex_mod) = Ok (ODs vs ["a"; "b"]%string) /\
  slookup "a"%string vs = Some r /\ dims r = ["variable"%string] /\ get (dat r) [0%nat] = Fin v /\ 0 < v /\ get (dat r) [1%nat] = Fin 0.
Proof.
  destruct (C85_dataset ex_cf_lat ex_cf_lon ex_obs ex_mod ex_lat ex_lon [] ["lat"; "lon"]%string [] [2; 2]%nat) as (vs & E & Nm & V).
  - split; [exact I|]. split; [intros n; tauto|]. split; [repeat split; discriminate|]. split; eexists; (split; [reflexivity|reflexivity]).
  - apply (line_spacing _ _ _ (ex_line _ 0 60)). apply ex_even. lra.
  - apply (line_spacing _ _ _ (ex_line _ 0 90)). apply ex_even. lra.
  - reflexivity.
  - reflexivity.
  - split; [reflexivity|]. split; [repeat constructor; cbn; intuition discriminate|]. split; [cbn; intuition discriminate|].
    intros v o m Ho Hm. cbn in Ho, Hm.
    destruct (String.eqb v "a"); [|destruct (String.eqb v "b"); [|discriminate]]; injection Ho as <-; injection Hm as <-;
      (split; [reflexivity|]; split; [reflexivity|]; split; [repeat constructor; cbn; intuition discriminate|]; do 4 (split; [reflexivity|]); apply ex_labels; try reflexivity; intros d [<-|[<-|[]]] Hn; auto; congruence).
  - intros q Hq. destruct q as [|[|[|i]] [|j [|? ?]]]; try (apply inb_length in Hq; discriminate); [exists 0; reflexivity|exists 60; reflexivity|]. apply inb_cons in Hq. lia.
  - destruct (V "a"%string _ _ eq_refl eq_refl) as (r & Er & Dr & Sr & W).
    assert (Sa : latitude_sample 4 (fun k => lat_at ex_lat ["lat"; "lon"]%string (nth k (all_idx [2; 2]%nat) [])) (fun k => get (dat (ex_f [Fin 0; Fin 2; Fin 0; Fin 0])) ([] ++ nth k (all_idx [2; 2]%nat) []))
       (fun k => get (dat (ex_f [Fin 0; Fin 2; Fin 0; Fin 1])) ([] ++ nth k (all_idx [2; 2]%nat) [])) (fun k => nth k [1; 1; 1 / 2; 1 / 2] 0) (fun k => nth k [0; 2; 0; 0] 0) (fun k => nth k [0; 2; 0; 1] 0)).
    { intros [|[|[|[|k]]]] Hk; try lia; cbn; left; (split; [reflexivity|]); (split; [reflexivity|]); eexists; (split; [reflexivity|]); rewrite ?cos_0deg, ?cos60; reflexivity. }
    assert (Sb : latitude_sample 4 (fun k => lat_at ex_lat ["lat"; "lon"]%string (nth k (all_idx [2; 2]%nat) [])) (fun k => get (dat (ex_f [Fin 1; Fin 1; Fin 1; NaN])) ([] ++ nth k (all_idx [2; 2]%nat) []))
       (fun k => get (dat (ex_f [Fin 1; Fin 1; Fin 1; Fin 1])) ([] ++ nth k (all_idx [2; 2]%nat) [])) (fun k => nth k [1; 1; 1 / 2; 0] 0) (fun k => nth k [1; 1; 1; 1] 0) (fun k => nth k [1; 1; 1; 1] 0)).
    { intros [|[|[|[|k]]]] Hk; try lia; cbn; try (left; (split; [reflexivity|]); (split; [reflexivity|]); eexists; (split; [reflexivity|]); rewrite ?cos_0deg, ?cos60; reflexivity). right. auto. }
    set (wa := fun k => nth k [1; 1; 1 / 2; 1 / 2] 0) in *. set (wb := fun k => nth k [1; 1; 1 / 2; 0] 0) in *. set (x := fun k => nth k [0; 2; 0; 0] 0) in *. set (y := fun k => nth k [0; 2; 0; 1] 0) in *.
    assert (Ga : good_weights 4 wa) by (split; [intros [|[|[|[|k]]]] Hk; try lia; cbn; lra|cbn; lra]).
    assert (Gb : good_weights 4 wb) by (split; [intros [|[|[|[|k]]]] Hk; try lia; cbn; lra|cbn; lra]).
    pose proof (W [] 0%nat "a"%string _ _ inb_nil eq_refl eq_refl eq_refl _ _ _ _ _ _ Sa Sa Ga) as Va. pose proof (W [] 1%nat "b"%string _ _ inb_nil eq_refl eq_refl eq_refl _ _ _ _ _ _ Sa Sb Gb) as Vb.
    apply (proj1 (C85_own_entry _ _ _ _ _)) in Va. cbn [app] in Va, Vb. change (List.length (all_idx [2; 2]%nat)) with 4%nat in Va, Vb.
    assert (A : wmean 4 wa x = 2 / 3) by (unfold wmean; cbn; lra).
    assert (A1 : variance 4 wa x = 8 / 9) by (unfold variance; rewrite A; unfold wmean; cbn; lra).
    assert (A2 : mse 4 wa x y = 1 / 6) by (unfold mse, wmean; cbn; lra).
    assert (X : forall k, (k < 4)%nat -> wb k <> 0 -> shown wa x k = x k /\ shown wa y k = y k).
    { intros k Hk _. unfold shown. rewrite reqb_false; auto. destruct k as [|[|[|[|k]]]]; try lia; cbn; lra. }
    destruct (nmse_mask 4 wb (shown wa x) (shown wa y) x y X) as [M1 M2].
    assert (B : wmean 4 wb x = 4 / 5) by (unfold wmean; cbn; lra).
    assert (B1 : variance 4 wb x = 24 / 25) by (unfold variance; rewrite B; unfold wmean; cbn; lra).
    assert (B2 : mse 4 wb x y = 0) by (unfold mse, wmean; cbn; lra).
    exists vs, r, (nmse_of 4 wa x y). split; [exact E|]. split; [exact Er|]. split; [exact Dr|]. split; [apply (proj1 Va); lra|]. split; [unfold nmse_of; rewrite A1, A2; lra|].
    destruct Vb as [Vb _]. rewrite Vb by lra. unfold nmse_of. rewrite M1, M2, B1, B2. f_equal. lra.
Qed.
Print Assumptions C85_other_entries_refuted.

