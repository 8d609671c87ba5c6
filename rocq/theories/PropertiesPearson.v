(** C55, C78, C79: pearson_r.  [wmean], [wcov], [wcorr], [good_weights] and [sample] are in SpecStats.v.
    [ins ax k i] is the index i with k inserted at position ax, [del ax s] the shape s without axis ax. *)
From Coq Require Import Reals List Bool Arith ZArith Lra Lia String.
From Verif Require Import PyBase Num NumFacts Arr ArrFacts Hybrid SpecSum SumFacts SpecStats Pearson PearsonFacts PearsonApi PearsonMore.
Import ListNotations.
Local Open Scope R_scope.

(** C55.  Without an axis, arrays and nested lists are flattened together with the weights and correlated as one vector. *)
Theorem C55_flattening :
  forall (X D : Type) (xs : pin (T := fl) -> pin (T := fl) -> option D -> option (pin (T := fl)) -> bool -> bool -> res X),
  let call := pearson_r X D xs in let RN := RNp (T := fl) X in
  forall a b w la lb lw dim skipna keep,
  (forall d, a <> PDa d) -> (forall d, b <> PDa d) -> values a = Some la -> values b = Some lb ->
    match w, lw with Some p, Some l => values p = Some l | None, None => True | _, _ => False end ->
    snd (call a b dim w skipna keep None) =
    snd (call (PNd (vec nnan la)) (PNd (vec nnan lb)) dim (option_map (fun l => PNd (vec nnan l)) lw) skipna keep (Some 0%Z)).
Proof. exact (fun X D xs a b w la lb lw dim s k Ha Hb => pearson_flatten X D xs a b w la lb lw dim s k (not_da a Ha) (not_da b Hb)). Qed.
Print Assumptions C55_flattening.


(** C55.  As soon as one argument is a DataArray the call goes to xskillscore, and a ValueError becomes None. *)
Theorem C55_labelled_arrays :
  forall (X D : Type) (xs : pin (T := fl) -> pin (T := fl) -> option D -> option (pin (T := fl)) -> bool -> bool -> res X),
  let call := pearson_r X D xs in let RN := RNp (T := fl) X in
  forall a b dim w skipna keep axis,
  (exists d, a = PDa d) \/ (exists d, b = PDa d) ->
    snd (call a b dim w skipna keep axis) =
    match xs a b dim w skipna keep with Ok x => Ok (RXr X x) | Err ValueError => Ok (RNone X) | Err e => Err e end.
Proof. intros X D xs call RN a b dim w s k ax H. rewrite <- (da_iff a), <- (da_iff b) in H. exact (pearson_labelled X D xs a b dim w s k ax H). Qed.
Print Assumptions C55_labelled_arrays.


(** C55.  No call raises ValueError. *)
Theorem C55_no_value_error :
  forall (X D : Type) (xs : pin (T := fl) -> pin (T := fl) -> option D -> option (pin (T := fl)) -> bool -> bool -> res X),
  let call := pearson_r X D xs in let RN := RNp (T := fl) X in
  forall a b dim w skipna keep axis,
  snd (call a b dim w skipna keep axis) <> Err ValueError.
Proof. exact pearson_never_valueerror. Qed.
Print Assumptions C55_no_value_error.


(** C55.  A warning is issued exactly when dim and axis are both given. *)
Theorem C55_warning :
  forall (X D : Type) (xs : pin (T := fl) -> pin (T := fl) -> option D -> option (pin (T := fl)) -> bool -> bool -> res X),
  let call := pearson_r X D xs in let RN := RNp (T := fl) X in
  forall a b dim w skipna keep axis,
  fst (call a b dim w skipna keep axis) = true <-> dim <> None /\ axis <> None.
Proof. exact pearson_warns. Qed.
Print Assumptions C55_warning.


(** C55.  Datasets, although documented, never reach xskillscore unless the other argument is a DataArray. *)
Theorem C55_datasets_fail :
  forall (X D : Type) (xs : pin (T := fl) -> pin (T := fl) -> option D -> option (pin (T := fl)) -> bool -> bool -> res X),
  let call := pearson_r X D xs in let RN := RNp (T := fl) X in
  forall b dim w skipna keep axis,
  (forall d, b <> PDa d) ->
    snd (call PDs b dim w skipna keep axis) = Err (match axis with None => TypeError | Some _ => AttributeError end).
Proof. exact (fun X D xs b dim w s k ax Hb => pearson_datasets X D xs b dim w s k ax (not_da b Hb)). Qed.
Print Assumptions C55_datasets_fail.


(** C55.  Nested lists are only accepted without an axis. *)
Theorem C55_lists_need_no_axis :
  forall (X D : Type) (xs : pin (T := fl) -> pin (T := fl) -> option D -> option (pin (T := fl)) -> bool -> bool -> res X),
  let call := pearson_r X D xs in let RN := RNp (T := fl) X in
  forall a b dim w skipna keep z,
  (forall d, b <> PDa d) -> snd (call (PList a) b dim w skipna keep (Some z)) = Err AttributeError.
Proof. exact (fun X D xs a b dim w s k z Hb => pearson_list_axis X D xs a b dim w s k z (not_da b Hb)). Qed.
Print Assumptions C55_lists_need_no_axis.


(** C55.  Flattened arguments of different sizes give None. *)
Theorem C55_sizes_differ :
  forall (X D : Type) (xs : pin (T := fl) -> pin (T := fl) -> option D -> option (pin (T := fl)) -> bool -> bool -> res X),
  let call := pearson_r X D xs in let RN := RNp (T := fl) X in
  forall (a b : pin) la lb dim skipna keep,
  (forall d, a <> PDa d) -> (forall d, b <> PDa d) -> values a = Some la -> values b = Some lb ->
    skipna = false \/ (~ In NaN la /\ ~ In NaN lb) ->
    List.length la <> List.length lb -> List.length la <> 1%nat -> List.length lb <> 1%nat ->
    snd (call a b dim None skipna keep None) = Ok (RNone X).
Proof. exact (fun X D xs a b la lb dim s k Ha Hb => pearson_sizes_differ X D xs a b la lb dim s k (not_da a Ha) (not_da b Hb)). Qed.
Print Assumptions C55_sizes_differ.

Example C55_example : snd (pearson_r unit unit (fun _ _ _ _ _ _ => Err ValueError) (PNd (vec NaN [Fin 1; Fin 2])) (PList (vec NaN [Fin 1; Fin 2; Fin 4])) None None false false None) = Ok (RNone unit) /\
  fst (pearson_r unit unit (fun _ _ _ _ _ _ => Err ValueError) (PNd (vec NaN [Fin 1])) (PList (vec NaN [Fin 1])) (Some tt) None false false (Some 0%Z)) = true.
Proof.
  split; [|reflexivity]. apply (C55_sizes_differ unit unit _ _ _ [Fin 1; Fin 2] [Fin 1; Fin 2; Fin 4]); try reflexivity; auto; discriminate.
Qed.


(** C78.  Along an axis the result at each remaining index is the weighted correlation of the two columns, and NaN when one
    of them is constant.  With skipna an incomplete pair counts with weight zero. *)
Theorem C78_value_along_axis :
  forall (X D : Type) (xs : pin (T := fl) -> pin (T := fl) -> option D -> option (pin (T := fl)) -> bool -> bool -> res X),
  let call := pearson_r X D xs in let RN := RNp (T := fl) X in
  forall (a b : arr fl) (w : option (arr fl)) (z : Z) (ax : nat) dim skipna keep,
  shp b = shp a -> (forall v, w = Some v -> shp v = shp a) -> pyidx (ndim a) z = Some ax ->
    exists out, snd (call (PNd a) (PNd b) dim (option_map PNd w) skipna keep (Some z)) = Ok (RN out) /\ shp out = del ax (shp a) /\
      forall i x y wt, inb (del ax (shp a)) i ->
        sample skipna (nth ax (shp a) 0%nat) (fun k => get a (ins ax k i)) (fun k => get b (ins ax k i))
               (fun k => match w with Some v => get v (ins ax k i) | None => Fin 1 end) x y wt ->
        good_weights (nth ax (shp a) 0%nat) wt ->
        let n := nth ax (shp a) 0%nat in
        (0 < wcov n wt x x -> 0 < wcov n wt y y -> get out i = Fin (wcorr n wt x y)) /\
        (wcov n wt x x = 0 \/ wcov n wt y y = 0 -> get out i = NaN).
Proof. exact pearson_axis. Qed.
Print Assumptions C78_value_along_axis.


(** C78.  Without an axis the result is the weighted correlation of all values in row-major order. *)
Theorem C78_value_overall :
  forall (X D : Type) (xs : pin (T := fl) -> pin (T := fl) -> option D -> option (pin (T := fl)) -> bool -> bool -> res X),
  let call := pearson_r X D xs in let RN := RNp (T := fl) X in
  forall (a b : pin) w la lb lw dim skipna keep,
  (forall d, a <> PDa d) -> (forall d, b <> PDa d) -> values a = Some la -> values b = Some lb ->
    match w, lw with Some p, Some l => values p = Some l /\ List.length l = List.length la | None, None => True | _, _ => False end ->
    List.length lb = List.length la ->
    exists out, snd (call a b dim w skipna keep None) = Ok (RN out) /\ shp out = [] /\
      forall x y wt,
        sample skipna (List.length la) (fun k => nth k la NaN) (fun k => nth k lb NaN)
               (fun k => match lw with Some l => nth k l NaN | None => Fin 1 end) x y wt ->
        good_weights (List.length la) wt ->
        let n := List.length la in
        (0 < wcov n wt x x -> 0 < wcov n wt y y -> get out [] = Fin (wcorr n wt x y)) /\
        (wcov n wt x x = 0 \/ wcov n wt y y = 0 -> get out [] = NaN).
Proof. exact (fun X D xs a b w la lb lw dim s k Ha Hb => pearson_all X D xs a b w la lb lw dim s k (not_da a Ha) (not_da b Hb)). Qed.
Print Assumptions C78_value_overall.


(** C78.  Without skipna a missing value makes the correlation of its column NaN. *)
Theorem C78_missing_value :
  forall (X D : Type) (xs : pin (T := fl) -> pin (T := fl) -> option D -> option (pin (T := fl)) -> bool -> bool -> res X),
  let call := pearson_r X D xs in let RN := RNp (T := fl) X in
  forall (a b : arr fl) (w : option (arr fl)) (z : Z) (ax : nat) dim keep,
  shp b = shp a -> (forall v, w = Some v -> shp v = shp a) -> pyidx (ndim a) z = Some ax ->
    exists out, snd (call (PNd a) (PNd b) dim (option_map PNd w) false keep (Some z)) = Ok (RN out) /\
      forall i k, inb (del ax (shp a)) i -> (k < nth ax (shp a) 0%nat)%nat ->
        get a (ins ax k i) = NaN \/ get b (ins ax k i) = NaN -> get out i = NaN.
Proof. exact pearson_nan. Qed.
Print Assumptions C78_missing_value.


(** C78.  The weighted correlation lies in [-1, 1]. *)
Theorem C78_range :
  forall n w x y,
  good_weights n w -> 0 < wcov n w x x -> 0 < wcov n w y y -> -1 <= wcorr n w x y <= 1.
Proof. exact wcorr_range. Qed.
Print Assumptions C78_range.


(** C78.  It is symmetric. *)
Theorem C78_symmetric :
  forall n w x y,
  wcorr n w x y = wcorr n w y x.
Proof. exact wcorr_sym. Qed.
Print Assumptions C78_symmetric.


(** C78.  It does not change under an increasing change of units ... *)
Theorem C78_affine :
  forall n w x y c d,
  good_weights n w -> 0 < d -> 0 < wcov n w x x -> 0 < wcov n w y y ->
  wcorr n w (fun k => c + d * x k) y = wcorr n w x y.
Proof. exact wcorr_affine. Qed.
Print Assumptions C78_affine.


(** C78.  ... and changes sign under a decreasing one. *)
Theorem C78_affine_decreasing :
  forall n w x y c d,
  good_weights n w -> d < 0 -> 0 < wcov n w x x -> 0 < wcov n w y y ->
  wcorr n w (fun k => c + d * x k) y = - wcorr n w x y.
Proof. exact wcorr_neg. Qed.
Print Assumptions C78_affine_decreasing.


(** C78.  Data correlate perfectly with themselves. *)
Theorem C78_self :
  forall n w x,
  0 < wcov n w x x -> wcorr n w x x = 1.
Proof. exact wcorr_self. Qed.
Print Assumptions C78_self.


(** C78.  Only the ratios of the weights matter. *)
Theorem C78_weights_scale :
  forall n w x y c,
  0 < c -> good_weights n w -> 0 < wcov n w x x -> 0 < wcov n w y y ->
  wcorr n (fun k => c * w k) x y = wcorr n w x y.
Proof. exact wcorr_weights_scale. Qed.
Print Assumptions C78_weights_scale.


(** C78.  The NaN case is exactly the case of data constant on the positively weighted points. *)
Theorem C78_constant_iff :
  forall n w x,
  good_weights n w -> (wcov n w x x = 0 <-> exists c, forall k, (k < n)%nat -> w k <> 0 -> x k = c).
Proof. exact wcov_zero_iff. Qed.
Print Assumptions C78_constant_iff.

(** three pairs, the last incomplete *)
Example C78_example : exists out, snd (pearson_r unit unit (fun _ _ _ _ _ _ => Err ValueError) (PNd (vec NaN [Fin 1; Fin 2; Fin 7])) (PList (vec NaN [Fin 5; Fin 9; NaN])) None None true false None) = Ok (RNp unit out) /\ get out [] = Fin 1.
Proof.
  destruct (C78_value_overall unit unit (fun _ _ _ _ _ _ => Err ValueError) (PNd (vec NaN [Fin 1; Fin 2; Fin 7])) (PList (vec NaN [Fin 5; Fin 9; NaN])) None [Fin 1; Fin 2; Fin 7] [Fin 5; Fin 9; NaN] None None true false ltac:(discriminate) ltac:(discriminate) eq_refl eq_refl I eq_refl) as (out & E & S & V).
  exists out. split; [exact E|].
  set (w := fun k : nat => match k with 2%nat => 0 | _ => 1 end). set (x := fun k : nat => match k with 0%nat => 1 | 1%nat => 2 | _ => 7 end). set (y := fun k : nat => match k with 0%nat => 5 | 1%nat => 9 | _ => 0 end).
  assert (Gd : good_weights 3 w) by (split; [intros [|[|[|]]] Hk; try lia; cbn; lra|cbn; lra]).
  assert (Cx : 0 < wcov 3 w x x) by (unfold wcov, wmean; cbn; lra). assert (Cy : 0 < wcov 3 w y y) by (unfold wcov, wmean; cbn; lra).
  destruct (V x y w) as [V1 _]; auto.
  - intros [|[|[|]]] Hk; cbn in Hk; try lia; cbn; [left; auto|left; auto|right; auto].
  - rewrite V1 by assumption. f_equal. cbn [List.length].
    assert (E1 : wcov 3 w x y = 2) by (unfold wcov, wmean; cbn; lra). assert (E2 : wcov 3 w x x = 1/2) by (unfold wcov, wmean; cbn; lra). assert (E3 : wcov 3 w y y = 8) by (unfold wcov, wmean; cbn; lra).
    unfold wcorr. rewrite E1, E2, E3. replace (1/2 * 8) with (2 * 2) by lra. rewrite sqrt_square by lra. lra.
Qed.


(** C79.  A weight vector matching the reduced axis, the documented form, is never usable with arrays of rank two or more
    unless the last remaining axis has the same length: the call prints a message and returns None. *)
Theorem C79_weight_vector_gives_none :
  forall (X D : Type) (xs : pin (T := fl) -> pin (T := fl) -> option D -> option (pin (T := fl)) -> bool -> bool -> res X),
  let call := pearson_r X D xs in let RN := RNp (T := fl) X in
  forall (a b v : arr fl) z ax q m r dim skipna keep,
  shp b = shp a -> pyidx (ndim a) z = Some ax -> shp v = [q] -> nth ax (shp a) 0%nat = q -> del ax (shp a) = r ++ [m] ->
    skipna = false \/ (forall i, inb (shp a) i -> get a i <> NaN /\ get b i <> NaN) ->
    m <> q -> m <> 1%nat -> q <> 1%nat -> (exists k, (k < q)%nat /\ get v [k] <> NaN) ->
    snd (call (PNd a) (PNd b) dim (Some (PNd v)) skipna keep (Some z)) = Ok (RNone X).
Proof. exact pearson_weight_vector_none. Qed.
Print Assumptions C79_weight_vector_gives_none.


(** C79.  In the square case a number is returned that is not the weighted correlation: here perfectly correlated
    columns come out different from 1. *)
Theorem C79_square_wrong_refuted :
  forall (X D : Type) xs (dim : option D) keep,
  exists (a b v : arr fl) (x y wt : nat -> R) out,
  shp a = [2; 2]%nat /\ shp b = [2; 2]%nat /\ shp v = [2%nat] /\
  (forall k, (k < 2)%nat -> get a [k; 0%nat] = Fin (x k) /\ get b [k; 0%nat] = Fin (y k) /\ get v [k] = Fin (wt k)) /\
  good_weights 2 wt /\ wcorr 2 wt x y = 1 /\
  snd (pearson_r X D xs (PNd a) (PNd b) dim (Some (PNd v)) false keep (Some 0%Z)) = Ok (RNp X out) /\ get out [0%nat] <> Fin 1.
Proof. exact pearson_square_refuted. Qed.
Print Assumptions C79_square_wrong_refuted.

Example C79_example : snd (pearson_r unit unit (fun _ _ _ _ _ _ => Err ValueError) (PNd (mkArr [2; 3]%nat (fun _ => Fin 1))) (PNd (mkArr [2; 3]%nat (fun _ => Fin 2))) None (Some (PNd (vec NaN [Fin 1; Fin 1]))) false false (Some 0%Z)) = Ok (RNone unit).
Proof.
  apply (C79_weight_vector_gives_none unit unit _ _ _ _ 0%Z 0%nat 2 3 []); try reflexivity; auto; try discriminate. exists 0%nat. split; [lia|discriminate].
Qed.

