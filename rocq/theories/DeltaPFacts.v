(** Proofs about [DeltaP]. *)
From Coq Require Import Reals List Bool Arith ZArith Lra Lia String.
From Verif Require Import PyBase Num NumFacts Arr ArrFacts PyFacts Spec DeltaP.
Import ListNotations.
Local Open Scope R_scope.

(** ** nonzero / min / max of an index list *)
Lemma nonzero_in mask i : In i (nonzero mask) <-> nth i mask false = true.
Proof.
  unfold nonzero. rewrite in_map_iff.
  assert (G : forall s, (exists x : nat * bool, fst x = i /\ In x (filter snd (combine (seq s (List.length mask)) mask)))
                        <-> (s <= i)%nat /\ nth (i - s) mask false = true).
  { induction mask as [|b mask IH]; intros s; simpl.
    - split; [intros [x [_ []]]|]. intros [_ H]. destruct (i - s)%nat; discriminate.
    - destruct b; simpl.
      + split.
        * intros [x [Hx [<-|H]]].
          -- simpl in Hx. subst. split; [lia|]. rewrite Nat.sub_diag. reflexivity.
          -- destruct (proj1 (IH (S s))) as [H1 H2]; [exists x; auto|]. split; [lia|].
             replace (i - s)%nat with (S (i - S s)) by lia. auto.
        * intros [H1 H2]. destruct (Nat.eq_dec i s) as [->|Hne].
          -- exists (s, true). auto.
          -- destruct (proj2 (IH (S s))) as [x [Hx Hin]].
             ++ split; [lia|]. replace (i - s)%nat with (S (i - S s)) in H2 by lia. auto.
             ++ exists x. auto.
      + split.
        * intros [x [Hx H]]. destruct (proj1 (IH (S s))) as [H1 H2]; [exists x; auto|]. split; [lia|].
          replace (i - s)%nat with (S (i - S s)) by lia. auto.
        * intros [H1 H2]. destruct (Nat.eq_dec i s) as [->|Hne].
          -- rewrite Nat.sub_diag in H2. discriminate.
          -- destruct (proj2 (IH (S s))) as [x [Hx Hin]].
             ++ split; [lia|]. replace (i - s)%nat with (S (i - S s)) in H2 by lia. auto.
             ++ exists x. auto. }
  specialize (G 0%nat). rewrite Nat.sub_0_r in G. rewrite G. split; [tauto|]. intros; split; [lia|auto].
Qed.

Lemma fold_min_le l x : (fold_left Nat.min l x <= x)%nat /\ (forall y, In y l -> fold_left Nat.min l x <= y)%nat
  /\ (fold_left Nat.min l x = x \/ In (fold_left Nat.min l x) l).
Proof.
  revert x; induction l as [|z l IH]; intros x; cbn [fold_left In].
  - repeat split; auto; tauto.
  - destruct (IH (Nat.min x z)) as (H1 & H2 & H3). repeat split; [lia| |].
    + intros y [->|Hy]; [lia|auto].
    + destruct H3 as [H3|H3]; auto. destruct (Nat.min_spec x z); lia.
Qed.
Lemma fold_max_ge l x : (x <= fold_left Nat.max l x)%nat /\ (forall y, In y l -> y <= fold_left Nat.max l x)%nat
  /\ (fold_left Nat.max l x = x \/ In (fold_left Nat.max l x) l).
Proof.
  revert x; induction l as [|z l IH]; intros x; cbn [fold_left In].
  - repeat split; auto; tauto.
  - destruct (IH (Nat.max x z)) as (H1 & H2 & H3). repeat split; [lia| |].
    + intros y [->|Hy]; [lia|auto].
    + destruct H3 as [H3|H3]; auto. destruct (Nat.max_spec x z); lia.
Qed.

Lemma nth_map {A B} (f : A -> B) l k d d' : (k < List.length l)%nat -> nth k (map f l) d' = f (nth k l d).
Proof.
  intros H. rewrite (nth_indep _ d' (f d)) by (rewrite map_length; auto). apply map_nth.
Qed.

Lemma at_map l k : (k < List.length l)%nat -> nth k (map Fin l) NaN = Fin (at_ l k).
Proof.
  intros H. unfold at_. rewrite (nth_indep _ NaN (Fin 0)) by (rewrite map_length; auto).
  apply map_nth.
Qed.

Lemma roll1_length {T} (l : list T) : List.length (roll1 l) = List.length l.
Proof.
  unfold roll1. destruct (rev l) as [|x t] eqn:E.
  - apply (f_equal (@rev T)) in E. rewrite rev_involutive in E. subst. reflexivity.
  - apply (f_equal (@rev T)) in E. rewrite rev_involutive in E. subst. simpl.
    rewrite removelast_last, app_length. simpl. lia.
Qed.
Lemma roll1_nth {T} (l : list T) k d : (S k < List.length l)%nat -> nth (S k) (roll1 l) d = nth k l d.
Proof.
  unfold roll1. destruct (rev l) as [|x t] eqn:E.
  - apply (f_equal (@rev T)) in E. rewrite rev_involutive in E. subst. simpl. lia.
  - apply (f_equal (@rev T)) in E. rewrite rev_involutive in E. subst. simpl.
    rewrite app_length. simpl. intros H. rewrite removelast_last, app_nth1; auto. lia.
Qed.

Lemma nth_combine {A B} (l : list A) (l' : list B) k a b :
  (k < List.length l)%nat -> (k < List.length l')%nat -> nth k (combine l l') (a, b) = (nth k l a, nth k l' b).
Proof.
  revert l' k; induction l as [|x l IH]; intros [|y l'] [|k] H1 H2; simpl in *; try lia; auto.
  apply IH; lia.
Qed.
Lemma nth_map2 {A B C} (f : A * B -> C) (l : list A) (l' : list B) k a b c :
  (k < List.length l)%nat -> (k < List.length l')%nat ->
  nth k (map f (combine l l')) c = f (nth k l a, nth k l' b).
Proof.
  intros H1 H2. rewrite (nth_indep _ c (f (a, b))) by (rewrite map_length, combine_length; lia).
  rewrite map_nth, nth_combine by auto. reflexivity.
Qed.

Lemma midpoints_length {T} {N : Num T} (l : list T) : List.length (midpoints l) = List.length l.
Proof. unfold midpoints. rewrite upd_length, map_length, combine_length, roll1_length. lia. Qed.

Lemma midpoints_0 {T} {N : Num T} (l : list T) d : (1 <= List.length l)%nat -> nth 0 (midpoints l) d = ofZ 0.
Proof.
  intros H. unfold midpoints. rewrite nth_upd, map_length, combine_length, roll1_length, Nat.min_id.
  replace (0 <? List.length l)%nat with true by (symmetry; apply Nat.ltb_lt; lia). reflexivity.
Qed.
Lemma midpoints_S (l : list R) k : (S k < List.length l)%nat ->
  nth (S k) (midpoints (map Fin l)) NaN = Fin ((at_ l k + at_ l (S k)) / 2).
Proof.
  intros H. unfold midpoints. rewrite nth_upd. cbn [Nat.eqb andb].
  rewrite (nth_map2 _ _ _ _ NaN NaN) by (rewrite ?roll1_length, map_length; auto).
  rewrite roll1_nth by (rewrite map_length; auto).
  rewrite !at_map by lia. cbn [fst snd]. flsimpl. rewrite fdiv_fin by lra. f_equal. lra.
Qed.

Definition layer_val (top ps : R) (l : list R) (k : nat) : fl :=
  if (1 <=? k)%nat && rleb ps (interface top l k) then NaN
  else Fin (lower_interface top ps l k - interface top l k).

Lemma increasing_le l i j : increasing l -> (i <= j)%nat -> (j < List.length l)%nat -> at_ l i <= at_ l j.
Proof.
  intros H Hij Hj. destruct (Nat.eq_dec i j) as [->|]; [lra|]. apply Rlt_le, H; lia.
Qed.

Lemma interface_mono top l i j : increasing l -> top <= at_ l 0 -> (i < j)%nat -> (j < List.length l)%nat ->
  interface top l i < interface top l j.
Proof.
  intros H Ht Hij Hj. destruct j as [|j]; [lia|]. destruct i as [|i]; simpl.
  - pose proof (H j (S j)). pose proof (increasing_le l 0 j H).
    assert (at_ l j < at_ l (S j)) by (apply H0; lia). assert (at_ l 0 <= at_ l j) by (apply H1; lia). lra.
  - assert (at_ l i < at_ l j) by (apply H; lia).
    assert (at_ l (S i) < at_ l (S j)) by (apply H; lia). lra.
Qed.

(** closed form of the column computation for levels listed from the top down *)
Lemma delta_pressure1D_asc (l : list R) ps top :
  increasing l -> (2 <= List.length l)%nat -> 0 <= top -> top <= at_ l 0 -> interface top l 1 < ps ->
  delta_pressure1D (map Fin l) (Fin ps) (Fin top)
  = Ok (map (layer_val top ps l) (seq 0 (List.length l))).
Proof.
  intros Hinc Hn Htop Htop0 Hps.
  set (n := List.length l) in *.
  assert (Hps0 : top < ps).
  { pose proof (interface_mono top l 0 1 Hinc Htop0 ltac:(lia) ltac:(lia)). simpl in *. lra. }
  assert (Hlen : List.length (map Fin l) = n) by apply map_length.
  unfold delta_pressure1D. flsimpl.
  rewrite (rltb_false top 0) by lra. rewrite (rltb_false ps top) by lra.
  rewrite (pyget_Z (map Fin l) 1 NaN) by lia. rewrite (pyget_Z (map Fin l) 0 NaN) by lia.
  change (Z.to_nat 1) with 1%nat. change (Z.to_nat 0) with 0%nat.
  rewrite !at_map by lia. cbn [bind]. cbn [fl_lt].
  rewrite (rltb_false (at_ l 1) (at_ l 0)) by (apply Rlt_le, Hinc; lia).
  set (mask := map (fun m : fl => fl_lt m (Fin ps)) (midpoints (map Fin l))).
  assert (Hmask0 : nth 0 mask false = true).
  { unfold mask. rewrite (nth_map _ _ _ NaN) by (rewrite midpoints_length; lia). rewrite midpoints_0 by lia. cbn. apply rltb_true. lra. }
  assert (HmaskS : forall k, (S k < n)%nat -> nth (S k) mask false = rltb (interface top l (S k)) ps).
  { intros k Hk. unfold mask.
    rewrite (nth_map _ _ _ NaN) by (rewrite midpoints_length; lia). rewrite midpoints_S by (fold n; lia). reflexivity. }
  assert (Hmlen : List.length mask = n).
  { unfold mask. rewrite map_length, midpoints_length; auto. }
  destruct (nonzero mask) as [|i0 rest] eqn:Enz.
  { assert (In 0%nat (nonzero mask)) by (apply nonzero_in; auto). rewrite Enz in H. destruct H. }
  destruct (fold_min_le rest i0) as (Hm1 & Hm2 & Hm3).
  destruct (fold_max_ge rest i0) as (HM1 & HM2 & HM3).
  set (s := fold_left Nat.min rest i0) in *. set (e := fold_left Nat.max rest i0) in *.
  assert (Hs : s = 0%nat).
  { assert (H0 : In 0%nat (i0 :: rest)) by (rewrite <- Enz; apply nonzero_in; auto).
    destruct H0 as [H0|H0]; [lia|]. specialize (Hm2 _ H0). lia. }
  assert (Hein : nth e mask false = true).
  { apply nonzero_in. rewrite Enz. destruct HM3 as [->|H]; simpl; auto. }
  assert (Hemax : forall k, nth k mask false = true -> (k <= e)%nat).
  { intros k Hk. apply nonzero_in in Hk. rewrite Enz in Hk. destruct Hk as [<-|Hk]; auto. }
  assert (Hen : (e < n)%nat).
  { destruct (Nat.lt_ge_cases e n) as [|Hge]; auto. rewrite nth_overflow in Hein by lia. discriminate. }
  assert (He1 : (1 <= e)%nat).
  { apply Hemax. rewrite HmaskS by lia. apply rltb_true. auto. }
  clearbody s e. subst s. clear Hm1 Hm2 Hm3 HM1 HM2 HM3 Enz rest.
  assert (Hbelow : forall k, (1 <= k <= e)%nat -> interface top l k < ps).
  { intros k Hk. destruct e as [|e']; [lia|]. rewrite HmaskS in Hein by lia.
    apply rltb_iff in Hein. destruct (Nat.eq_dec k (S e')) as [->|]; auto.
    pose proof (interface_mono top l k (S e') Hinc Htop0 ltac:(lia) ltac:(lia)). lra. }
  assert (Habove : forall k, (e < k < n)%nat -> ps <= interface top l k).
  { intros k Hk. destruct (Rle_lt_dec ps (interface top l k)) as [|Hlt]; auto.
    destruct k as [|k]; [lia|]. assert (S k <= e)%nat; [|lia].
    apply Hemax. rewrite HmaskS by lia. apply rltb_true; auto. }
  change (Z.of_nat 0) with 0%Z. cbn [Z.add].
  rewrite (pyget_Z (map Fin l) 0 NaN) by lia. rewrite (pyget_Z (map Fin l) 1 NaN) by lia.
  change (Z.to_nat 1) with 1%nat. change (Z.to_nat 0) with 0%nat. rewrite !at_map by lia.
  cbn [bind]. rewrite pyset_Z by (rewrite repeat_length; lia). cbn [bind].
  rewrite !pyslice_Z by (rewrite ?Hlen; lia).
  rewrite pysetslice_ok.
  2: { rewrite upd_length, repeat_length, ?Hlen. lia. }
  2: { rewrite upd_length, repeat_length, ?Hlen. lia. }
  2: { rewrite map_length, combine_length, !firstn_length, !skipn_length, Hlen. lia. }
  cbn [bind].
  rewrite (pyget_Z (map Fin l) (Z.of_nat e) NaN) by lia.
  rewrite (pyget_Z (map Fin l) (Z.of_nat e - 1) NaN) by lia. cbn [bind].
  rewrite !at_map by lia.
  match goal with |- context [pyset ?D _ _] => set (delta2 := D) end.
  assert (Hd2len : List.length delta2 = n).
  { unfold delta2. rewrite splice_length; rewrite ?upd_length, ?repeat_length, ?Hlen; auto; try lia.
    rewrite map_length, combine_length, !firstn_length, !skipn_length, Hlen. lia. }
  rewrite pyset_Z by lia. cbn [bind]. f_equal.
  apply (nth_ext _ _ NaN NaN).
  { rewrite upd_length, Hd2len, map_length, seq_length. reflexivity. }
  intros k Hk. rewrite upd_length, Hd2len in Hk.
  rewrite (nth_indep (map (layer_val top ps l) (seq 0 n)) NaN (layer_val top ps l 0))
    by (rewrite map_length, seq_length; auto).
  rewrite map_nth, seq_nth by auto. rewrite Nat.add_0_l.
  rewrite nth_upd, Hd2len. rewrite !Nat2Z.id.
  replace (e <? n)%nat with true by (symmetry; apply Nat.ltb_lt; lia). rewrite andb_true_r.
  destruct (Nat.eqb_spec k e) as [->|Hke].
  - (* bottom level *)
    flsimpl. rewrite fdiv_fin by lra. cbn [fl_sub].
    unfold layer_val, lower_interface. fold n.
    assert (interface top l e < ps) by (apply Hbelow; lia).
    rewrite (rleb_false ps) by auto. rewrite andb_false_r. f_equal.
    replace (Z.to_nat (Z.of_nat e - 1)) with (e - 1)%nat by lia.
    destruct e as [|e']; [lia|]. replace (S e' - 1)%nat with e' by lia.
    destruct (Nat.ltb_spec (S (S e')) n).
    + rewrite Rmin_right by (apply Habove; lia). simpl. lra.
    + simpl. lra.
  - unfold delta2. rewrite nth_splice.
    2: { rewrite upd_length, repeat_length, ?Hlen; lia. }
    2: { rewrite map_length, combine_length, !firstn_length, !skipn_length, Hlen. lia. }
    change (Z.to_nat 1) with 1%nat. change (Z.to_nat 2) with 2%nat. change (Z.to_nat 0) with 0%nat.
    replace (Z.to_nat (Z.of_nat e + 1)) with (e + 1)%nat by lia. rewrite ?Nat2Z.id.
    destruct (Nat.leb_spec 1 k) as [Hk1|Hk0]; cbn [andb].
    + destruct (Nat.ltb_spec k (1 + (e - 1))) as [Hke2|Hke2].
      * (* interior *)
        rewrite (nth_map2 _ _ _ _ NaN NaN)
          by (rewrite !firstn_length, !skipn_length, Hlen; lia).
        rewrite !nth_firstn by lia. rewrite !nth_skipn. rewrite !at_map by (fold n; lia).
        cbn [fst snd]. flsimpl. rewrite fdiv_fin by lra.
        unfold layer_val, lower_interface. fold n.
        assert (interface top l k < ps) by (apply Hbelow; lia).
        rewrite (rleb_false ps) by auto. rewrite andb_false_r.
        replace (S k <? n)%nat with true by (symmetry; apply Nat.ltb_lt; lia).
        rewrite Rmin_left by (apply Rlt_le, Hbelow; lia). f_equal.
        destruct k as [|k']; [lia|]. simpl.
        replace (S (S (k' - 0))) with (S (S k')) by lia. replace (k' - 0)%nat with k' by lia. lra.
      * (* underground *)
        rewrite nth_upd, repeat_length.
        replace (k =? 0)%nat with false by (symmetry; apply Nat.eqb_neq; lia). cbn [andb].
        rewrite nth_repeat. unfold layer_val.
        rewrite (rleb_true ps) by (apply Habove; lia).
        replace (1 <=? k)%nat with true by (symmetry; apply Nat.leb_le; lia). reflexivity.
    + (* top *)
      assert (k = 0)%nat by lia. subst k.
      rewrite nth_upd, repeat_length, Hlen.
      replace (0 <? n)%nat with true by (symmetry; apply Nat.ltb_lt; lia). cbn [Nat.eqb andb].
      cbn [fl_add]; rewrite fdiv_fin by lra. cbn [fl_sub]. unfold layer_val, lower_interface. fold n.
      cbn [Nat.leb andb]. replace (1 <? n)%nat with true by (symmetry; apply Nat.ltb_lt; lia).
      rewrite Rmin_left by lra. f_equal.
Qed.

Lemma at_rev l k : (k < List.length l)%nat -> at_ (rev l) k = at_ l (List.length l - 1 - k).
Proof. intros H. unfold at_. rewrite rev_nth by auto. f_equal. lia. Qed.

(** the descending call equals the reversed ascending call whenever the first two levels differ *)
Lemma delta_pressure1D_rev (l : list R) ps top :
  increasing l -> (2 <= List.length l)%nat ->
  delta_pressure1D (map Fin (rev l)) ps top
  = rmap (@rev fl) (delta_pressure1D (map Fin l) ps top).
Proof.
  intros Hinc Hn. unfold delta_pressure1D.
  assert (Hlen : List.length (map Fin l) = List.length l) by apply map_length.
  assert (Hlen' : List.length (map Fin (rev l)) = List.length l) by (rewrite map_length, rev_length; auto).
  destruct (top <? ofZ 0)%num; [reflexivity|].
  destruct (ngt top ps); [reflexivity|].
  rewrite (pyget_Z (map Fin l) 1 NaN) by lia. rewrite (pyget_Z (map Fin l) 0 NaN) by lia.
  rewrite (pyget_Z (map Fin (rev l)) 1 NaN) by lia. rewrite (pyget_Z (map Fin (rev l)) 0 NaN) by lia.
  change (Z.to_nat 1) with 1%nat. change (Z.to_nat 0) with 0%nat.
  rewrite !at_map by (rewrite ?rev_length; lia). rewrite !at_rev by lia.
  cbn [bind].
  assert (E1 : nlt (Fin (at_ l (List.length l - 1 - 1))) (Fin (at_ l (List.length l - 1 - 0))) = true).
  { flsimpl. apply rltb_true. apply Hinc; lia. }
  assert (E2 : nlt (Fin (at_ l 1)) (Fin (at_ l 0)) = false).
  { flsimpl. apply rltb_false, Rlt_le, Hinc; lia. }
  rewrite E1, E2. rewrite <- map_rev, rev_involutive.
  destruct (nonzero _) as [|i0 rest]; [reflexivity|].
  repeat (match goal with |- context [bind (?x) _] => destruct x; cbn [bind rmap]; [|reflexivity] end).
  reflexivity.
Qed.

(** ** consequences of the closed form *)
Definition layers (top ps : R) (l : list R) : list fl := map (layer_val top ps l) (seq 0 (List.length l)).

Lemma sum_finite_app l1 l2 : sum_finite (l1 ++ l2) = sum_finite l1 + sum_finite l2.
Proof. induction l1 as [|[r| | |] l1 IH]; simpl; lra. Qed.
Lemma sum_finite_rev l : sum_finite (rev l) = sum_finite l.
Proof.
  induction l as [|x l IH]; simpl; auto. rewrite sum_finite_app, IH. destruct x; simpl; lra.
Qed.

(** partial sums telescope: after m layers the running total is the lower interface reached so far *)
Lemma layers_partial_sum top ps l m :
  increasing l -> (2 <= List.length l)%nat -> top <= at_ l 0 -> interface top l 1 < ps ->
  (1 <= m <= List.length l)%nat ->
  sum_finite (map (layer_val top ps l) (seq 0 m)) =
  Rmin (lower_interface top ps l (m - 1)) ps - top.
Proof.
  intros Hinc Hn Ht Hps Hm. induction m as [|m IH]; [lia|].
  replace (S m - 1)%nat with m by lia.
  rewrite seq_S, map_app, sum_finite_app. simpl (0 + m)%nat.
  destruct (Nat.eq_dec m 0) as [->|Hm0].
  - simpl. unfold layer_val. cbn [Nat.leb andb]. unfold lower_interface.
    destruct (Nat.ltb_spec 1 (List.length l)); [|lia].
    rewrite (Rmin_left (interface top l 1) ps) by lra.
    rewrite Rmin_left by lra. simpl. lra.
  - rewrite IH by lia. cbn [map sum_finite].
    unfold layer_val, lower_interface.
    replace (S (m - 1)) with m by lia.
    replace (m <? List.length l)%nat with true by (symmetry; apply Nat.ltb_lt; lia).
    replace (1 <=? m)%nat with true by (symmetry; apply Nat.leb_le; lia). cbn [andb].
    destruct (rleb_spec ps (interface top l m)) as [Hu|Hu].
    + rewrite (Rmin_right (interface top l m) ps) by lra. rewrite Rmin_left by lra.
      destruct (Nat.ltb_spec (S m) (List.length l)).
      * pose proof (interface_mono top l m (S m) Hinc Ht ltac:(lia) ltac:(lia)).
        rewrite (Rmin_right (interface top l (S m)) ps) by lra. rewrite Rmin_left by lra. simpl; lra.
      * rewrite Rmin_left by lra. simpl; lra.
    + rewrite (Rmin_left (interface top l m) ps) by lra.
      rewrite (Rmin_left (interface top l m) ps) by lra. simpl.
      destruct (Nat.ltb_spec (S m) (List.length l)).
      * rewrite (Rmin_left (Rmin _ _) ps) by (apply Rmin_r). lra.
      * rewrite (Rmin_left ps ps) by lra. lra.
Qed.

Lemma layers_sum top ps l :
  increasing l -> (2 <= List.length l)%nat -> top <= at_ l 0 -> interface top l 1 < ps ->
  sum_finite (layers top ps l) = ps - top.
Proof.
  intros Hinc Hn Ht Hps. unfold layers.
  rewrite layers_partial_sum by (auto; lia).
  unfold lower_interface. replace (S (List.length l - 1)) with (List.length l) by lia.
  rewrite Nat.ltb_irrefl, Rmin_left by lra. lra.
Qed.

Lemma layers_nth top ps l k : (k < List.length l)%nat ->
  nth k (layers top ps l) NaN = layer_val top ps l k.
Proof.
  intros H. unfold layers.
  rewrite (nth_indep _ NaN (layer_val top ps l 0)) by (rewrite map_length, seq_length; auto).
  rewrite map_nth, seq_nth by auto. reflexivity.
Qed.

Lemma layer_val_pos top ps l k : increasing l -> (2 <= List.length l)%nat -> top <= at_ l 0 ->
  interface top l 1 < ps -> (k < List.length l)%nat -> ~ underground top ps l k ->
  exists r, layer_val top ps l k = Fin r /\ 0 < r /\ r = lower_interface top ps l k - interface top l k.
Proof.
  intros Hinc Hn Ht Hps Hk Hu. unfold layer_val.
  assert (E : (1 <=? k)%nat && rleb ps (interface top l k) = false).
  { apply andb_false_iff. destruct (Nat.leb_spec 1 k); auto. right.
    apply rleb_false. apply Rnot_le_lt. intros C. apply Hu. split; auto. }
  rewrite E. eexists; split; [reflexivity|]. split; auto.
  assert (Hi : interface top l k < ps).
  { destruct k as [|k].
    - pose proof (interface_mono top l 0 1 Hinc Ht ltac:(lia) ltac:(lia)). simpl in *; lra.
    - apply Rnot_le_lt. intros C. apply Hu. split; [lia|auto]. }
  unfold lower_interface. destruct (Nat.ltb_spec (S k) (List.length l)); [|lra].
  pose proof (interface_mono top l k (S k) Hinc Ht ltac:(lia) ltac:(lia)).
  apply Rgt_minus. unfold Rmin. destruct (Rle_dec _ _); lra.
Qed.

Lemma layer_val_nan top ps l k : underground top ps l k -> layer_val top ps l k = NaN.
Proof.
  intros [H1 H2]. unfold layer_val. rewrite (rleb_true ps) by auto.
  replace (1 <=? k)%nat with true by (symmetry; apply Nat.leb_le; auto). reflexivity.
Qed.

(** the defective region: only the topmost level is above ground *)
Lemma delta_pressure1D_single (l : list R) ps top :
  increasing l -> (2 <= List.length l)%nat -> 0 <= top -> top <= at_ l 0 -> top <= ps -> 0 < ps ->
  ps <= interface top l 1 ->
  delta_pressure1D (map Fin l) (Fin ps) (Fin top)
  = Ok (Fin (ps - (at_ l 0 + at_ l (List.length l - 1)) / 2) :: repeat NaN (List.length l - 1)).
Proof.
  intros Hinc Hn Htop Htop0 Htps Hps0 Hps.
  set (n := List.length l) in *.
  assert (Hlen : List.length (map Fin l) = n) by apply map_length.
  unfold delta_pressure1D. flsimpl.
  rewrite (rltb_false top 0) by lra. rewrite (rltb_false ps top) by lra.
  rewrite (pyget_Z (map Fin l) 1 NaN) by lia. rewrite (pyget_Z (map Fin l) 0 NaN) by lia.
  change (Z.to_nat 1) with 1%nat. change (Z.to_nat 0) with 0%nat.
  rewrite !at_map by lia. cbn [bind]. cbn [fl_lt].
  rewrite (rltb_false (at_ l 1) (at_ l 0)) by (apply Rlt_le, Hinc; lia).
  set (mask := map (fun m : fl => fl_lt m (Fin ps)) (midpoints (map Fin l))).
  assert (Hmlen : List.length mask = n).
  { unfold mask. rewrite map_length, midpoints_length; auto. }
  assert (Hmask0 : nth 0 mask false = true).
  { unfold mask. rewrite (nth_map _ _ _ NaN) by (rewrite midpoints_length; lia). rewrite midpoints_0 by lia. cbn. apply rltb_true. lra. }
  assert (HmaskS : forall k, nth (S k) mask false = false).
  { intros k. destruct (Nat.lt_ge_cases (S k) n) as [Hk|Hk].
    - unfold mask.
      rewrite (nth_map _ _ _ NaN) by (rewrite midpoints_length; lia). rewrite midpoints_S by (fold n; lia). cbn. apply rltb_false.
      destruct k as [|k]; [exact Hps|].
      pose proof (interface_mono top l 1 (S (S k)) Hinc Htop0 ltac:(lia) ltac:(lia)). simpl in *. lra.
    - apply nth_overflow. lia. }
  assert (Enz : forall i, In i (nonzero mask) -> i = 0%nat).
  { intros [|i] Hi; auto. apply nonzero_in in Hi. rewrite HmaskS in Hi. discriminate. }
  destruct (nonzero mask) as [|i0 rest] eqn:E.
  { assert (In 0%nat (nonzero mask)) by (apply nonzero_in; auto). rewrite E in H. destruct H. }
  destruct (fold_min_le rest i0) as (_ & _ & Hm3).
  destruct (fold_max_ge rest i0) as (_ & _ & HM3).
  set (s := fold_left Nat.min rest i0) in *. set (e := fold_left Nat.max rest i0) in *.
  assert (Hs : s = 0%nat) by (apply Enz; destruct Hm3 as [->|H]; simpl; auto).
  assert (He : e = 0%nat) by (apply Enz; destruct HM3 as [->|H]; simpl; auto).
  rewrite Hs, He. clear s e Hs He Hm3 HM3 E Enz.
  change (Z.of_nat 0) with 0%Z. cbn [Z.add Z.sub Z.opp].
  rewrite (pyget_Z (map Fin l) 0 NaN) by lia. rewrite (pyget_Z (map Fin l) 1 NaN) by lia.
  cbn [bind]. change (Z.pos_sub 1 1) with 0%Z.
  rewrite pyset_Z by (rewrite repeat_length; lia). cbn [bind].
  rewrite !pyslice_Z by (rewrite ?Hlen; lia).
  rewrite pysetslice_ok.
  2: { rewrite upd_length, repeat_length, ?Hlen. lia. }
  2: { rewrite upd_length, repeat_length, ?Hlen. lia. }
  2: { rewrite map_length, combine_length, !firstn_length, !skipn_length, Hlen. lia. }
  cbn [bind]. rewrite (pyget_neg (map Fin l) (-1) NaN) by lia. cbn [bind].
  rewrite Hlen. rewrite !at_map by (fold n; lia).
  change (Z.to_nat 0) with 0%nat. change (Z.to_nat 1) with 1%nat. change (Z.to_nat 2) with 2%nat.
  destruct n as [|[|n']] eqn:En; try lia. cbn [repeat upd firstn Nat.sub app Nat.add combine map skipn].
  rewrite pyset_Z by (cbn [List.length]; rewrite repeat_length; lia).
  cbn [bind]. change (Z.to_nat 0) with 0%nat. cbn [upd]. f_equal. f_equal.
  - cbn [fl_add]; rewrite fdiv_fin by lra. cbn [fl_sub]. f_equal.
    replace (Z.to_nat (-1 + Z.of_nat (S (S n')))) with (S n') by lia. reflexivity.
Qed.
