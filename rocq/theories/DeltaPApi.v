(** Proofs about the n-dimensional entry point [delta_pressure]. *)
From Coq Require Import Reals List Bool Arith ZArith Lra Lia String.
From Verif Require Import PyBase Num NumFacts Arr ArrFacts PyFacts Spec DeltaP DeltaPFacts.
Import ListNotations.
Local Open Scope R_scope.

Lemma pyset_length {A} (l : list A) i v l' : pyset l i v = Ok l' -> List.length l' = List.length l.
Proof.
  unfold pyset. destruct (pyidx _ _); [|discriminate]. intros H. injection H as <-. apply upd_length.
Qed.
Lemma slice_bound_le n i : (slice_bound n i <= n)%nat.
Proof. unfold slice_bound. lia. Qed.
Lemma pysetslice_length {A} (l : list A) a b vs l' : (slice_lo (List.length l) a <= slice_hi (List.length l) b)%nat \/ True ->
  pysetslice l a b vs = Ok l' -> List.length l' = List.length l.
Proof.
  intros _. unfold pysetslice.
  set (lo := slice_lo _ a). set (hi := slice_hi _ b).
  assert (Hlo : (lo <= List.length l)%nat).
  { unfold lo, slice_lo. destruct a; [apply slice_bound_le|lia]. }
  assert (Hhi : (hi <= List.length l)%nat).
  { unfold hi, slice_hi. destruct b; [apply slice_bound_le|lia]. }
  destruct (Nat.eqb_spec (List.length vs) (hi - lo)) as [E|E].
  - intros H. injection H as <-. rewrite !app_length, firstn_length, skipn_length. lia.
  - destruct vs as [|v [|w vs]]; try discriminate. intros H. injection H as <-.
    rewrite !app_length, firstn_length, skipn_length, repeat_length. lia.
Qed.

Lemma delta_pressure1D_length {T} {N : Num T} (lev : list T) ps top r :
  delta_pressure1D lev ps top = Ok r -> List.length r = List.length lev.
Proof.
  unfold delta_pressure1D.
  destruct (top <? ofZ 0)%num; [discriminate|]. destruct (ngt top ps); [discriminate|].
  destruct (pyget lev 1) as [p1|]; [|discriminate]. destruct (pyget lev 0) as [p0|]; [|discriminate].
  cbn [bind]. set (plev := if (p1 <? p0)%num then rev lev else lev).
  assert (Hpl : List.length plev = List.length lev).
  { unfold plev. destruct (p1 <? p0)%num; auto. apply rev_length. }
  destruct (nonzero _) as [|i0 rest]; [discriminate|].
  repeat match goal with
         | |- bind (pyget ?l ?i) _ = _ -> _ => destruct (pyget l i); [cbn [bind]|discriminate]
         end.
  match goal with |- bind ?x _ = _ -> _ => destruct x eqn:E1; [cbn [bind]|discriminate] end.
  match goal with |- bind ?x _ = _ -> _ => destruct x eqn:E2; [cbn [bind]|discriminate] end.
  repeat match goal with
         | |- bind (pyget ?l ?i) _ = _ -> _ => destruct (pyget l i); [cbn [bind]|discriminate]
         end.
  match goal with |- bind ?x _ = _ -> _ => destruct x eqn:E3; [cbn [bind]|discriminate] end.
  apply pyset_length in E1. apply pysetslice_length in E2; [|auto]. apply pyset_length in E3.
  rewrite repeat_length in E1. intros H. injection H as <-.
  clearbody plev. match goal with |- context [if ?c then _ else _] => destruct c end; rewrite ?rev_length; lia.
Qed.

Lemma Forall2_nth' {A B} (P : A -> B -> Prop) l l' k dA dB :
  Forall2 P l l' -> (k < List.length l)%nat -> P (nth k l dA) (nth k l' dB).
Proof.
  intros H; revert k; induction H; intros [|k] Hk; simpl in *; try lia; auto. apply IHForall2. lia.
Qed.

Lemma Forall2_len {A B} (P : A -> B -> Prop) l l' : Forall2 P l l' -> List.length l = List.length l'.
Proof. intros H; induction H; simpl; congruence. Qed.

Lemma nth_list_ext {A} (l l' : list A) d : List.length l = List.length l' ->
  (forall k, (k < List.length l)%nat -> nth k l d = nth k l' d) -> l = l'.
Proof. intros. apply (nth_ext _ _ d d); auto. Qed.

Lemma column_length {T} (a : arr T) idx n : List.length (column a idx n) = n.
Proof. unfold column. rewrite map_length, seq_length. auto. Qed.
Lemma column_nth {T} (a : arr T) idx n k d : (k < n)%nat -> nth k (column a idx n) d = get a (idx ++ [k]).
Proof.
  intros H. unfold column. rewrite (nth_map _ _ _ 0%nat) by (rewrite seq_length; auto).
  rewrite seq_nth by auto. reflexivity.
Qed.

Lemma delta_pressure_nd_ok {T} {N : Num T} lv (a : arr T) top r :
  delta_pressure_nd lv a top = Ok r ->
  shp r = shp a ++ [List.length lv] /\
  forall idx, inb (shp a) idx -> delta_pressure1D lv (get a idx) top = Ok (column r idx (List.length lv)).
Proof.
  unfold delta_pressure_nd. destruct (mapM _ _) as [rows|] eqn:E; [|discriminate].
  cbn [bind]. intros H. injection H as <-. split; [reflexivity|].
  intros idx Hidx. apply mapM_Ok_iff in E.
  assert (Hlen : List.length rows = size (shp a)).
  { rewrite <- (Forall2_len _ _ _ E). apply ravel_length. }
  assert (Hrow : Forall (fun x => List.length x = List.length lv) rows).
  { clear -E. induction E as [|x y xs ys Hxy _ IH]; constructor; auto.
    apply delta_pressure1D_length in Hxy. auto. }
  pose proof (flat_bound _ _ Hidx) as Hb.
  pose proof (Forall2_nth' _ _ _ (flat (shp a) idx) nnan [] E ltac:(rewrite ravel_length; auto)) as Hc.
  cbn beta in Hc. rewrite nth_ravel in Hc by auto. rewrite Hc. f_equal.
  assert (Hl : List.length (nth (flat (shp a) idx) rows []) = List.length lv).
  { rewrite Forall_forall in Hrow. apply Hrow. apply nth_In. lia. }
  apply (nth_list_ext _ _ nnan).
  { rewrite column_length. auto. }
  intros k Hk. rewrite column_nth by lia. cbn [get of_flat].
  rewrite flat_app by (apply inb_length; auto). cbn [size fold_right flat].
  rewrite Nat.add_0_r, !Nat.mul_1_r. rewrite (nth_concat _ _ (List.length lv)); auto; lia.
Qed.

Lemma delta_pressure_nd_err {T} {N : Num T} lv (a : arr T) top e :
  delta_pressure_nd lv a top = Err e ->
  exists idx, inb (shp a) idx /\ delta_pressure1D lv (get a idx) top = Err e.
Proof.
  unfold delta_pressure_nd. destruct (mapM _ _) as [rows|e'] eqn:E; [discriminate|].
  cbn [bind]. intros H. injection H as ->. apply mapM_Err_iff in E.
  destruct E as (l1 & x & l2 & El & Hx & _).
  assert (Hin : In x (ravel a)) by (rewrite El; apply in_app_iff; simpl; auto).
  apply in_map_iff in Hin. destruct Hin as (idx & <- & Hi). apply all_idx_inb in Hi. eauto.
Qed.

(** the effective top *)
Definition eff_top {T} {N : Num T} (lev : levels T) (t : option T) : res T :=
  do lmin <- lev_min lev ;;
  match t with None => Ok lmin | Some t => if ngt t lmin then Err ValueError else Ok t end.

Lemma delta_pressure_ok {T} {N : Num T} (lev : levels T) s a t out :
  surf_arr s = Some a -> delta_pressure lev s t = Ok out ->
  exists top, eff_top lev t = Ok top /\
  shp (out_arr out) = shp a ++ [List.length (lev_vals lev)] /\
  forall idx, inb (shp a) idx ->
    delta_pressure1D (lev_vals lev) (get a idx) top = Ok (column (out_arr out) idx (List.length (lev_vals lev))).
Proof.
  intros Hs. unfold delta_pressure, eff_top.
  destruct (lev_min lev) as [lmin|]; [|discriminate]. cbn [bind].
  destruct (match t with None => _ | Some _ => _ end) as [top|]; [|discriminate]. cbn [bind].
  destruct s as [x|b|d|]; cbn in Hs; try discriminate; injection Hs as <-.
  - destruct (delta_pressure1D _ _ _) as [r|] eqn:E; [|discriminate]. cbn [bind]. intros H. injection H as <-.
    exists top. split; auto. pose proof (delta_pressure1D_length _ _ _ _ E) as Hl. cbn. split.
    + rewrite Hl. reflexivity.
    + intros idx Hidx. inversion Hidx; subst. rewrite E. f_equal.
      apply (nth_list_ext _ _ nnan).
      * rewrite column_length. auto.
      * intros k Hk. rewrite column_nth by lia. reflexivity.
  - destruct (delta_pressure_nd _ _ _) as [r|] eqn:E; [|discriminate]. cbn [bind]. intros H. injection H as <-.
    apply delta_pressure_nd_ok in E. destruct E. exists top. auto.
  - destruct (delta_pressure_nd _ _ _) as [r|] eqn:E; [|discriminate]. cbn [bind]. intros H. injection H as <-.
    apply delta_pressure_nd_ok in E. destruct E. exists top. auto.
Qed.

Lemma delta_pressure_err {T} {N : Num T} (lev : levels T) s a t e :
  surf_arr s = Some a -> delta_pressure lev s t = Err e ->
  eff_top lev t = Err e \/
  exists top idx, eff_top lev t = Ok top /\ inb (shp a) idx /\
    delta_pressure1D (lev_vals lev) (get a idx) top = Err e.
Proof.
  intros Hs. unfold delta_pressure, eff_top.
  destruct (lev_min lev) as [lmin|]; cbn [bind]; [|intros H; left; congruence].
  destruct (match t with None => _ | Some _ => _ end) as [top|]; cbn [bind]; [|intros H; left; congruence].
  intros H. right. exists top.
  destruct s as [x|b|d|]; cbn in Hs; try discriminate; injection Hs as <-.
  - exists []. repeat split; [constructor|]. cbn.
    destruct (delta_pressure1D _ _ _) as [r|] eqn:E; [discriminate|]. cbn [bind] in H. congruence.
  - destruct (delta_pressure_nd _ _ _) as [r|] eqn:E; [discriminate|]. cbn [bind] in H. injection H as ->.
    apply delta_pressure_nd_err in E. destruct E as (idx & H1 & H2). eauto.
  - destruct (delta_pressure_nd _ _ _) as [r|] eqn:E; [discriminate|]. cbn [bind] in H. injection H as ->.
    apply delta_pressure_nd_err in E. destruct E as (idx & H1 & H2). eauto.
Qed.

(** ** minimum of the levels *)
Lemma rminl_unique x l m : (In m (x :: l)) -> (forall y, In y (x :: l) -> m <= y) -> rminl x l = m.
Proof.
  intros Hin Hle. destruct (rminl_le l x) as [H1 H2]. destruct (rminl_in l x) as [H3|H3].
  - apply Rle_antisym.
    + destruct Hin as [->|Hin]; auto.
    + rewrite H3. apply Hle. simpl; auto.
  - apply Rle_antisym.
    + destruct Hin as [->|Hin]; auto.
    + apply Hle. simpl; auto.
Qed.

Lemma increasing_min l y : increasing l -> (0 < List.length l)%nat -> In y l -> at_ l 0 <= y.
Proof.
  intros H Hn Hy. destruct (In_nth _ _ 0 Hy) as (k & Hk & <-). apply increasing_le; auto. lia.
Qed.

Lemma filter_fin l : filter (fun x : fl => negb (isnan x)) (map Fin l) = map Fin l.
Proof. induction l as [|x l IH]; [reflexivity|]. cbn [map filter isnan NumFl fl_isnan negb]. f_equal. exact IH. Qed.

Lemma lev_min_fin isda l at' m : (0 < List.length l)%nat -> In m l -> (forall y, In y l -> m <= y) ->
  lev_min (mkLevels isda (map Fin l) at') = Ok (Fin m).
Proof.
  intros Hn Hin Hle. unfold lev_min. cbn [lev_da lev_vals]. rewrite filter_fin.
  assert (E : (if isda then map Fin l else map Fin l) = map Fin l) by (destruct isda; auto). rewrite E.
  destruct l as [|x l]; [simpl in Hn; lia|]. cbn [map]. rewrite nminl_fin. do 2 f_equal.
  apply rminl_unique; auto.
Qed.

(** levels in the caller's order: [l] top down or bottom up *)
Definition ordered (l : list R) (down : bool) : list R := if down then l else rev l.

Lemma lev_min_ordered isda l down at' : increasing l -> (0 < List.length l)%nat ->
  lev_min (mkLevels isda (map Fin (ordered l down)) at') = Ok (Fin (at_ l 0)).
Proof.
  intros H Hn. apply lev_min_fin.
  - destruct down; simpl; rewrite ?rev_length; auto.
  - destruct down; simpl; [|apply -> in_rev]; apply nth_In; auto.
  - intros y Hy. apply increasing_min; auto. destruct down; simpl in Hy; auto. apply in_rev; auto.
Qed.

Lemma eff_top_ordered isda l down at' t top :
  increasing l -> (0 < List.length l)%nat -> top <= at_ l 0 ->
  t = Some (Fin top) \/ t = None /\ top = at_ l 0 ->
  eff_top (mkLevels isda (map Fin (ordered l down)) at') t = Ok (Fin top).
Proof.
  intros H Hn Ht Hc. unfold eff_top. rewrite lev_min_ordered by auto. cbn [bind].
  destruct Hc as [->|[-> ->]]; auto. flsimpl. rewrite rltb_false by auto. reflexivity.
Qed.

Lemma delta_pressure1D_ordered l down ps top :
  increasing l -> (2 <= List.length l)%nat -> 0 <= top -> top <= at_ l 0 -> interface top l 1 < ps ->
  delta_pressure1D (map Fin (ordered l down)) (Fin ps) (Fin top)
  = Ok (if down then layers top ps l else rev (layers top ps l)).
Proof.
  intros. destruct down; simpl.
  - apply delta_pressure1D_asc; auto.
  - rewrite delta_pressure1D_rev by auto. rewrite delta_pressure1D_asc by auto. reflexivity.
Qed.

Lemma column_thickness isda at' l down s a t top ps0 :
  increasing l -> (2 <= List.length l)%nat -> 0 <= top -> top <= at_ l 0 ->
  t = Some (Fin top) \/ t = None /\ top = at_ l 0 ->
  surf_arr s = Some a ->
  (forall idx, inb (shp a) idx -> get a idx = Fin (ps0 idx) /\ interface top l 1 < ps0 idx) ->
  exists out, delta_pressure (mkLevels isda (map Fin (ordered l down)) at') s t = Ok out /\
    shp (out_arr out) = shp a ++ [List.length l] /\
    forall idx, inb (shp a) idx ->
      column (out_arr out) idx (List.length l)
      = (if down then layers top (ps0 idx) l else rev (layers top (ps0 idx) l)).
Proof.
  intros Hinc Hn Htop Htop0 Ht Hs Hps.
  assert (Hol : List.length (map Fin (ordered l down)) = List.length l).
  { destruct down; simpl; rewrite map_length, ?rev_length; auto. }
  destruct (delta_pressure _ s t) as [out|e] eqn:E.
  - exists out. split; auto.
    destruct (delta_pressure_ok _ _ _ _ _ Hs E) as (top' & H1 & H2 & H3).
    rewrite (eff_top_ordered _ _ _ _ _ top) in H1 by (auto; lia). injection H1 as <-.
    cbn [lev_vals] in H2, H3. rewrite Hol in H2, H3. split; auto.
    intros idx Hidx. specialize (H3 _ Hidx). destruct (Hps _ Hidx) as [Hg Hi].
    rewrite Hg in H3. rewrite delta_pressure1D_ordered in H3 by auto. congruence.
  - exfalso. destruct (delta_pressure_err _ _ _ _ _ Hs E) as [H|(top' & idx & H1 & H2 & H3)].
    + rewrite (eff_top_ordered _ _ _ _ _ top) in H by (auto; lia). discriminate.
    + rewrite (eff_top_ordered _ _ _ _ _ top) in H1 by (auto; lia). injection H1 as <-.
      destruct (Hps _ H2) as [Hg Hi]. cbn [lev_vals] in H3.
      rewrite Hg, delta_pressure1D_ordered in H3 by auto. discriminate.
Qed.

(** ** the property lemmas *)
Lemma c01_lemma isda at' l (down : bool) s a t top ps0 :
  increasing l -> (2 <= List.length l)%nat -> 0 <= top <= at_ l 0 ->
  t = Some (Fin top) \/ t = None /\ top = at_ l 0 ->
  surf_arr s = Some a ->
  (forall idx, inb (shp a) idx -> get a idx = Fin (ps0 idx) /\ interface top l 1 < ps0 idx) ->
  exists out, delta_pressure (mkLevels isda (map Fin (if down then l else rev l)) at') s t = Ok out /\
    shp (out_arr out) = shp a ++ [List.length l] /\
    forall idx, inb (shp a) idx ->
      sum_finite (column (out_arr out) idx (List.length l)) = ps0 idx - top.
Proof.
  intros H1 H2 [H3 H4] H5 H6 H7.
  destruct (column_thickness isda at' l down s a t top ps0) as (out & E1 & E2 & E3); auto.
  exists out. split; [exact E1|]. split; [exact E2|]. intros idx Hidx. rewrite E3 by auto.
  destruct (H7 _ Hidx).
  destruct down; rewrite ?sum_finite_rev; apply layers_sum; auto.
Qed.

Lemma c02_lemma isda at' l (down : bool) s a t top ps0 :
  increasing l -> (2 <= List.length l)%nat -> 0 <= top <= at_ l 0 ->
  t = Some (Fin top) \/ t = None /\ top = at_ l 0 ->
  surf_arr s = Some a ->
  (forall idx, inb (shp a) idx -> get a idx = Fin (ps0 idx) /\ interface top l 1 < ps0 idx) ->
  exists out, delta_pressure (mkLevels isda (map Fin (if down then l else rev l)) at') s t = Ok out /\
    forall idx k, inb (shp a) idx -> (k < List.length l)%nat ->
      let d := get (out_arr out) (idx ++ [if down then k else (List.length l - 1 - k)%nat]) in
      (underground top (ps0 idx) l k -> d = NaN) /\
      (~ underground top (ps0 idx) l k ->
         exists r, d = Fin r /\ 0 < r /\
                   r = lower_interface top (ps0 idx) l k - interface top l k).
Proof.
  intros H1 H2 [H3 H4] H5 H6 H7.
  destruct (column_thickness isda at' l down s a t top ps0) as (out & E1 & E2 & E3); auto.
  exists out. split; [exact E1|]. intros idx k Hidx Hk. cbv zeta.
  destruct (H7 _ Hidx) as [Hg Hi]. specialize (E3 _ Hidx).
  assert (Hd : get (out_arr out) (idx ++ [if down then k else (List.length l - 1 - k)%nat])
               = layer_val top (ps0 idx) l k).
  { rewrite <- (column_nth _ _ (List.length l) _ NaN) by (destruct down; lia). rewrite E3.
    assert (Hll : List.length (layers top (ps0 idx) l) = List.length l).
    { unfold layers. rewrite map_length, seq_length. auto. }
    destruct down.
    - apply layers_nth; auto.
    - rewrite rev_nth by lia. rewrite Hll. rewrite layers_nth by lia. f_equal. lia. }
  rewrite Hd. split; intros Hu.
  - apply layer_val_nan; auto.
  - apply layer_val_pos; auto.
Qed.

Lemma delta_pressure_none s t lev : surf_arr s = None ->
  exists e, delta_pressure lev s t = Err e.
Proof.
  destruct s; try discriminate. intros _. unfold delta_pressure.
  destruct (lev_min lev); cbn [bind]; [|eauto].
  destruct (match t with None => _ | Some _ => _ end); cbn [bind]; eauto.
Qed.

Lemma eff_top_rev isda at' l t : increasing l -> (0 < List.length l)%nat ->
  eff_top (mkLevels isda (map Fin (rev l)) at') t = eff_top (mkLevels isda (map Fin l) at') t.
Proof.
  intros H Hn. unfold eff_top. pose proof (lev_min_ordered isda l true at' H Hn) as E1.
  pose proof (lev_min_ordered isda l false at' H Hn) as E2. cbn [ordered] in E1, E2.
  rewrite E1, E2. reflexivity.
Qed.

(** totality characterisation: Ok iff the top is acceptable and every cell succeeds *)
Lemma delta_pressure_cells lev s a t top :
  surf_arr s = Some a -> eff_top lev t = Ok top ->
  (forall idx, inb (shp a) idx -> exists r, delta_pressure1D (lev_vals lev) (get a idx) top = Ok r) ->
  exists out, delta_pressure lev s t = Ok out.
Proof.
  intros Hs Ht Hc. destruct (delta_pressure lev s t) as [out|e] eqn:E; eauto. exfalso.
  destruct (delta_pressure_err _ _ _ _ _ Hs E) as [H|(top' & idx & H1 & H2 & H3)].
  - congruence.
  - rewrite Ht in H1. injection H1 as <-. destruct (Hc _ H2). congruence.
Qed.

Lemma c03_lemma isda at' l s a t :
  increasing l -> (2 <= List.length l)%nat -> surf_arr s = Some a ->
  (forall out, delta_pressure (mkLevels isda (map Fin l) at') s t = Ok out ->
     exists out', delta_pressure (mkLevels isda (map Fin (rev l)) at') s t = Ok out' /\
       shp (out_arr out') = shp (out_arr out) /\
       forall idx k, inb (shp a) idx -> (k < List.length l)%nat ->
         get (out_arr out') (idx ++ [k]) = get (out_arr out) (idx ++ [(List.length l - 1 - k)%nat])) /\
  ((exists e, delta_pressure (mkLevels isda (map Fin l) at') s t = Err e) ->
   exists e, delta_pressure (mkLevels isda (map Fin (rev l)) at') s t = Err e).
Proof.
  intros Hinc Hn Hs. split.
  - intros out E. destruct (delta_pressure_ok _ _ _ _ _ Hs E) as (top & H1 & H2 & H3).
    cbn [lev_vals] in *. rewrite map_length in *.
    destruct (delta_pressure_cells (mkLevels isda (map Fin (rev l)) at') s a t top) as [out' E']; auto.
    + rewrite eff_top_rev by (auto; lia). auto.
    + intros idx Hidx. cbn [lev_vals]. rewrite delta_pressure1D_rev by auto. rewrite H3 by auto.
      cbn [rmap]. eauto.
    + exists out'. split; auto.
      destruct (delta_pressure_ok _ _ _ _ _ Hs E') as (top' & H1' & H2' & H3').
      rewrite eff_top_rev, H1 in H1' by (auto; lia). injection H1' as <-.
      cbn [lev_vals] in *. rewrite map_length, rev_length in *.
      split; [congruence|]. intros idx k Hidx Hk.
      specialize (H3' _ Hidx). rewrite delta_pressure1D_rev, H3 in H3' by auto.
      cbn [rmap] in H3'. injection H3' as H3'.
      rewrite <- (column_nth (out_arr out') idx (List.length l) k NaN) by auto. rewrite <- H3'.
      rewrite rev_nth by (rewrite column_length; auto). rewrite column_length, column_nth by lia.
      do 2 f_equal. f_equal. lia.
  - intros [e E]. destruct (delta_pressure (mkLevels isda (map Fin (rev l)) at') s t) as [out'|e'] eqn:E'; eauto.
    exfalso. destruct (delta_pressure_ok _ _ _ _ _ Hs E') as (top & H1 & H2 & H3).
    destruct (delta_pressure_err _ _ _ _ _ Hs E) as [H|(top' & idx & H1' & H2' & H3')].
    + rewrite eff_top_rev in H1 by (auto; lia). congruence.
    + rewrite eff_top_rev in H1 by (auto; lia). rewrite H1 in H1'. injection H1' as <-.
      specialize (H3 _ H2'). cbn [lev_vals] in *. rewrite delta_pressure1D_rev, H3' in H3 by auto. discriminate.
Qed.

(** scalar call *)
Lemma delta_pressure_scalar lev x t out :
  delta_pressure lev (SScalar x) t = Ok out ->
  exists r, out = ONd (vec nnan r) /\ List.length r = List.length (lev_vals lev).
Proof.
  unfold delta_pressure. destruct (lev_min lev); [|discriminate]. cbn [bind].
  destruct (match t with None => _ | Some _ => _ end); [|discriminate]. cbn [bind].
  destruct (delta_pressure1D _ _ _) as [r|] eqn:E; [|discriminate]. cbn [bind]. intros H. injection H as <-.
  apply delta_pressure1D_length in E. eauto.
Qed.

Lemma c04_ok_lemma lev s a t out :
  surf_arr s = Some a -> delta_pressure lev s t = Ok out ->
  let n := List.length (lev_vals lev) in
  shp (out_arr out) = shp a ++ [n] /\
  forall idx, inb (shp a) idx ->
    exists c, delta_pressure lev (SScalar (get a idx)) t = Ok (ONd c) /\ shp c = [n] /\
      forall k, (k < n)%nat -> get (out_arr out) (idx ++ [k]) = get c [k].
Proof.
  intros Hs E n. destruct (delta_pressure_ok _ _ _ _ _ Hs E) as (top & H1 & H2 & H3). split; auto.
  intros idx Hidx.
  destruct (delta_pressure_cells lev (SScalar (get a idx)) (scalar (get a idx)) t top) as [out' E'];
    [reflexivity|auto| |].
  - intros i Hi. cbn in *. rewrite H3 by auto. eauto.
  - destruct (delta_pressure_ok lev (SScalar (get a idx)) (scalar (get a idx)) _ _ eq_refl E') as (top' & H1' & H2' & H3').
    rewrite H1 in H1'. injection H1' as <-.
    destruct (delta_pressure_scalar _ _ _ _ E') as (r & -> & Hr).
    exists (vec nnan r). split; auto. split; [exact H2'|]. intros k Hk.
    specialize (H3' [] ltac:(constructor)). cbn [get scalar] in H3'. rewrite H3 in H3' by auto.
    injection H3' as H3'. rewrite <- (column_nth _ _ n _ NaN) by auto. unfold n. rewrite H3'.
    rewrite column_nth by auto. reflexivity.
Qed.

Lemma c04_err_lemma lev s a t :
  surf_arr s = Some a -> (exists idx, inb (shp a) idx) ->
  (exists e, delta_pressure lev s t = Err e) <->
  exists idx e, inb (shp a) idx /\ delta_pressure lev (SScalar (get a idx)) t = Err e.
Proof.
  intros Hs Hne. split.
  - intros [e E]. destruct (delta_pressure_err _ _ _ _ _ Hs E) as [H|(top & idx & H1 & H2 & H3)].
    + destruct Hne as [idx Hidx]. exists idx.
      destruct (delta_pressure lev (SScalar (get a idx)) t) as [o|e'] eqn:E'; [|eauto].
      destruct (delta_pressure_ok lev (SScalar (get a idx)) (scalar (get a idx)) t o eq_refl E') as (? & ? & _). congruence.
    + exists idx.
      destruct (delta_pressure lev (SScalar (get a idx)) t) as [o|e'] eqn:E'; [|eauto].
      destruct (delta_pressure_ok lev (SScalar (get a idx)) (scalar (get a idx)) t o eq_refl E') as (top' & G1 & _ & G3).
      rewrite H1 in G1. injection G1 as <-. specialize (G3 [] ltac:(constructor)).
      change (get (scalar (get a idx)) []) with (get a idx) in G3. congruence.
  - intros (idx & e & Hidx & He). destruct (delta_pressure lev s t) as [out|e'] eqn:E; eauto.
    destruct (c04_ok_lemma _ _ _ _ _ Hs E) as [_ H]. destruct (H _ Hidx) as (c & Hc & _). congruence.
Qed.

(** labelled output *)
Lemma c04_labels_lemma lev d t out :
  delta_pressure lev (SDa d) t = Ok out ->
  exists o, out = ODa o /\ dims o = dims d ++ ["lev"%string] /\
    slookup "lev"%string (coords o) = Some (mkCoord ["lev"%string] (vec nnan (lev_vals lev))) /\
    (forall c, c <> "lev"%string -> slookup c (coords o) = slookup c (coords d)) /\
    slookup "long name"%string (attrs o) = Some "pressure layer thickness"%string /\
    (forall k, k <> "long name"%string ->
       slookup k (attrs o) = slookup k (if lev_da lev then lev_attrs lev else attrs d)) /\
    daname o = Some "delta pressure"%string.
Proof.
  unfold delta_pressure. destruct (lev_min lev); [|discriminate]. cbn [bind].
  destruct (match t with None => _ | Some _ => _ end); [|discriminate]. cbn [bind].
  destruct (delta_pressure_nd _ _ _) as [r|]; [|discriminate]. cbn [bind].
  intros H. injection H as <-. eexists. split; [reflexivity|]. cbn [dims coords attrs daname].
  assert (G : forall A (k : string) (v : A) l, slookup k (sset k v l) = Some v).
  { intros A k v l. induction l as [|[k' w] l IH]; cbn.
    - rewrite String.eqb_refl. auto.
    - destruct (String.eqb_spec k k') as [->|]; cbn.
      + rewrite String.eqb_refl. auto.
      + destruct (String.eqb_spec k k'); [contradiction|auto]. }
  assert (G' : forall A (k c : string) (v : A) l, c <> k -> slookup c (sset k v l) = slookup c l).
  { intros A k c v l Hc. induction l as [|[k' w] l IH]; cbn.
    - destruct (String.eqb_spec c k); [contradiction|auto].
    - destruct (String.eqb_spec k k') as [->|]; cbn.
      + destruct (String.eqb_spec c k'); [contradiction|auto].
      + destruct (String.eqb_spec c k'); auto. }
  repeat split; auto.
Qed.

(** ** C05 *)
Lemma c05_top_above_levels isda at' l s t m :
  l <> [] -> In m l -> (forall y, In y l -> m <= y) -> m < t ->
  delta_pressure (mkLevels isda (map Fin l) at') s (Some (Fin t)) = Err ValueError.
Proof.
  intros Hl Hin Hle Ht. unfold delta_pressure.
  rewrite (lev_min_fin _ _ _ m); auto.
  - cbn [bind]. flsimpl. rewrite rltb_true by auto. reflexivity.
  - destruct l; [contradiction|simpl; lia].
Qed.

Lemma c05_negative_top isda at' l s a t :
  l <> [] -> surf_arr s = Some a -> (exists idx, inb (shp a) idx) -> t < 0 ->
  delta_pressure (mkLevels isda (map Fin l) at') s (Some (Fin t)) = Err ValueError.
Proof.
  intros Hl Hs [idx0 Hne] Ht.
  destruct (delta_pressure _ s (Some (Fin t))) as [out|e] eqn:E.
  - exfalso. destruct (delta_pressure_ok _ _ _ _ _ Hs E) as (top & H1 & _ & H3).
    specialize (H3 _ Hne). unfold eff_top in H1.
    destruct (lev_min _) as [m|]; [|discriminate]. cbn [bind] in H1.
    destruct (ngt (Fin t) m); [discriminate|]. injection H1 as <-.
    unfold delta_pressure1D in H3. flsimpl. rewrite rltb_true in H3 by auto. discriminate.
  - destruct (delta_pressure_err _ _ _ _ _ Hs E) as [H|(top & idx & H1 & H2 & H3)].
    + unfold eff_top in H. destruct l as [|x l]; [contradiction|].
      destruct (lev_min _) as [m|] eqn:Em.
      * cbn [bind] in H. destruct (ngt (Fin t) m); congruence.
      * unfold lev_min in Em. cbn [lev_da lev_vals] in Em. rewrite filter_fin in Em.
        destruct isda; discriminate.
    + unfold eff_top in H1. destruct (lev_min _) as [m|]; [|discriminate]. cbn [bind] in H1.
      destruct (ngt (Fin t) m); [discriminate|]. injection H1 as <-.
      unfold delta_pressure1D in H3. flsimpl. rewrite rltb_true in H3 by auto. congruence.
Qed.

Lemma c05_top_below_surface isda at' l (down : bool) s a t top idx ps :
  increasing l -> (1 <= List.length l)%nat -> top <= at_ l 0 ->
  t = Some (Fin top) \/ t = None /\ top = at_ l 0 ->
  surf_arr s = Some a -> inb (shp a) idx -> get a idx = Fin ps -> ps < top ->
  exists e, delta_pressure (mkLevels isda (map Fin (if down then l else rev l)) at') s t = Err e.
Proof.
  intros Hinc Hn Htop Ht Hs Hidx Hg Hps.
  destruct (delta_pressure _ s t) as [out|e] eqn:E; eauto. exfalso.
  destruct (delta_pressure_ok _ _ _ _ _ Hs E) as (top' & H1 & _ & H3).
  fold (ordered l down) in H1. rewrite (eff_top_ordered _ _ down _ _ top) in H1 by (auto; lia). injection H1 as <-.
  specialize (H3 _ Hidx). rewrite Hg in H3. unfold delta_pressure1D in H3. flsimpl.
  destruct (rltb top 0); [discriminate|]. rewrite rltb_true in H3 by auto. discriminate.
Qed.

Lemma c05_scalar_ps isda at' l (down : bool) t top ps :
  increasing l -> (1 <= List.length l)%nat -> top <= at_ l 0 ->
  t = Some (Fin top) \/ t = None /\ top = at_ l 0 -> ps < top ->
  delta_pressure (mkLevels isda (map Fin (if down then l else rev l)) at') (SScalar (Fin ps)) t = Err ValueError.
Proof.
  intros Hinc Hn Htop Ht Hps. unfold delta_pressure.
  pose proof (eff_top_ordered isda l down at' t top Hinc ltac:(lia) Htop Ht) as H.
  unfold eff_top in H. fold (ordered l down).
  destruct (lev_min _) as [m|]; [|discriminate]. cbn [bind] in *. rewrite H. cbn [bind].
  unfold delta_pressure1D. flsimpl. destruct (rltb top 0); [reflexivity|].
  rewrite rltb_true by auto. reflexivity.
Qed.

Lemma c05_default isda at' l s m :
  l <> [] -> In m l -> (forall y, In y l -> m <= y) ->
  delta_pressure (mkLevels isda (map Fin l) at') s None
  = delta_pressure (mkLevels isda (map Fin l) at') s (Some (Fin m)).
Proof.
  intros Hl Hin Hle. unfold delta_pressure. rewrite (lev_min_fin _ _ _ m); auto.
  - cbn [bind]. flsimpl. rewrite rltb_false by lra. reflexivity.
  - destruct l; [contradiction|simpl; lia].
Qed.

(** ** C06 *)
Lemma c06_lemma isda at' l (down : bool) t top ps :
  increasing l -> (2 <= List.length l)%nat -> 0 <= top <= at_ l 0 ->
  t = Some (Fin top) \/ t = None /\ top = at_ l 0 ->
  top <= ps -> 0 < ps -> ps <= interface top l 1 ->
  exists c, delta_pressure (mkLevels isda (map Fin (if down then l else rev l)) at') (SScalar (Fin ps)) t
            = Ok (ONd c) /\ shp c = [List.length l] /\
    (forall k, (1 <= k < List.length l)%nat -> get c [if down then k else (List.length l - 1 - k)%nat] = NaN) /\
    get c [if down then 0%nat else (List.length l - 1)%nat]
    = Fin (ps - (at_ l 0 + at_ l (List.length l - 1)) / 2) /\
    ps - (at_ l 0 + at_ l (List.length l - 1)) / 2 <= 0.
Proof.
  intros Hinc Hn [Ht0 Htl] Ht Htps Hps0 Hps.
  pose proof (delta_pressure1D_single l ps top Hinc Hn Ht0 Htl Htps Hps0 Hps) as E0.
  set (n := List.length l) in *.
  set (v := Fin (ps - (at_ l 0 + at_ l (n - 1)) / 2)) in *.
  assert (E : delta_pressure1D (map Fin (ordered l down)) (Fin ps) (Fin top)
              = Ok (if down then v :: repeat NaN (n - 1) else rev (v :: repeat NaN (n - 1)))).
  { destruct down; simpl ordered; auto. rewrite delta_pressure1D_rev by auto. rewrite E0. reflexivity. }
  exists (vec nnan (if down then v :: repeat NaN (n - 1) else rev (v :: repeat NaN (n - 1)))).
  split; [|split; [|split; [|split]]].
  - unfold delta_pressure.
    pose proof (eff_top_ordered isda l down at' t top Hinc ltac:(lia) Htl Ht) as H.
    unfold eff_top in H. fold (ordered l down).
    destruct (lev_min _) as [m|]; [|discriminate]. cbn [bind] in *. rewrite H. cbn [bind lev_vals].
    rewrite E. reflexivity.
  - cbn [shp vec]. destruct down; rewrite ?rev_length; cbn [List.length]; rewrite repeat_length; f_equal; lia.
  - intros k Hk. cbn [get vec hd]. destruct down.
    + destruct k; [lia|]. cbn [nth]. apply nth_repeat.
    + rewrite rev_nth by (cbn [List.length]; rewrite repeat_length; lia).
      cbn [List.length]. rewrite repeat_length.
      replace (S (n - 1) - S (n - 1 - k))%nat with k by lia. destruct k; [lia|]. cbn [nth]. apply nth_repeat.
  - cbn [get vec hd]. destruct down; [reflexivity|].
    rewrite rev_nth by (cbn [List.length]; rewrite repeat_length; lia).
    cbn [List.length]. rewrite repeat_length.
    replace (S (n - 1) - S (n - 1))%nat with 0%nat by lia. reflexivity.
  - simpl in Hps. assert (at_ l 1 <= at_ l (n - 1)) by (apply increasing_le; auto; unfold n; lia). lra.
Qed.

Lemma c06_refuted :
  exists l ps top c, increasing l /\ (2 <= List.length l)%nat /\ 0 <= top <= at_ l 0 /\ top < ps /\
    delta_pressure (mkLevels false (map Fin l) []) (SScalar (Fin ps)) (Some (Fin top)) = Ok (ONd c) /\
    sum_finite (column c [] (List.length l)) <> ps - top.
Proof.
  exists [100; 500; 1000], 200, 100.
  assert (Hi : increasing [100; 500; 1000]).
  { unfold increasing, at_; intros [|[|[|i]]] [|[|[|j]]]; simpl; intros; try lia; try lra. }
  destruct (c06_lemma false [] [100; 500; 1000] true (Some (Fin 100)) 100 200) as (c & H1 & H2 & H3 & H4 & _);
    auto; unfold interface, at_; simpl; try lra; try lia.
  exists c. repeat split; auto; try (simpl; lia); try (unfold at_; simpl; lra).
  pose proof (H3 1%nat ltac:(simpl; lia)) as E1. pose proof (H3 2%nat ltac:(simpl; lia)) as E2.
  unfold column. cbn [List.length seq map app]. rewrite E1, E2. cbn [app] in H4. rewrite H4.
  unfold at_. simpl. lra.
Qed.
