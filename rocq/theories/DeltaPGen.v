(** Closed form of the column computation over any number type. *)
From Coq Require Import List Bool Arith ZArith Lia.
From Verif Require Import PyBase Num Arr ArrFacts PyFacts DeltaP DeltaPFacts.
Import ListNotations.

Section Gen.
  Context {T : Type} {N : Num T}.
  Local Open Scope num_scope.
  Variables (l : list T) (ps top : T) (e : nat).
  Notation n := (List.length l).
  Notation at' k := (nth k l nnan).
  Definition mid (k : nat) : T := (at' k + at' (k - 1)) / ofZ 2.

  (** [e] is the last level whose upper interface is above the surface *)
  Definition layer_gen (k : nat) : T :=
    if Nat.eqb k e then ps - mid e
    else if Nat.eqb k 0 then (at' 0 + at' 1) / ofZ 2 - top
    else if Nat.ltb k e then (at' (k + 1) - at' (k - 1)) / ofZ 2
    else nnan.

  Lemma midpoints_gen k : (S k < n)%nat -> nth (S k) (midpoints l) nnan = mid (S k).
  Proof.
    intros H. unfold midpoints. rewrite nth_upd. cbn [Nat.eqb andb].
    rewrite (nth_map2 _ _ _ _ nnan nnan) by (rewrite ?roll1_length; auto).
    rewrite roll1_nth by auto. cbn [fst snd]. unfold mid. replace (S k - 1)%nat with k by lia. reflexivity.
  Qed.

  Hypotheses (Htop : (top <? ofZ 0) = false) (Hps : ngt top ps = false) (Hn : (2 <= n)%nat)
             (Hord : (at' 1 <? at' 0) = false) (H0 : (ofZ 0 <? ps) = true) (He : (1 <= e < n)%nat)
             (Hme : (mid e <? ps) = true) (Hmk : forall k, (e < k < n)%nat -> (mid k <? ps) = false).

  Lemma delta_pressure1D_gen : delta_pressure1D l ps top = Ok (map layer_gen (seq 0 n)).
  Proof.
    unfold delta_pressure1D. rewrite Htop, Hps. cbn [bind].
    rewrite (pyget_Z l 1 nnan) by lia. rewrite (pyget_Z l 0 nnan) by lia.
    change (Z.to_nat 1) with 1%nat. change (Z.to_nat 0) with 0%nat. cbn [bind]. rewrite Hord.
    set (mask := map (fun m => m <? ps) (midpoints l)).
    assert (Hmask0 : nth 0 mask false = true).
    { unfold mask. rewrite (nth_map _ _ _ nnan) by (rewrite midpoints_length; lia). rewrite midpoints_0 by lia. exact H0. }
    assert (HmaskS : forall k, (1 <= k < n)%nat -> nth k mask false = (mid k <? ps)).
    { intros k Hk. unfold mask. destruct k as [|k]; [lia|].
      rewrite (nth_map _ _ _ nnan) by (rewrite midpoints_length; lia). rewrite midpoints_gen by lia. reflexivity. }
    assert (Hmlen : List.length mask = n).
    { unfold mask. rewrite map_length, midpoints_length; auto. }
    destruct (nonzero mask) as [|i0 rest] eqn:Enz.
    { assert (In 0%nat (nonzero mask)) by (apply nonzero_in; auto). rewrite Enz in H. destruct H. }
    destruct (fold_min_le rest i0) as (Hm1 & Hm2 & Hm3).
    destruct (fold_max_ge rest i0) as (HM1 & HM2 & HM3).
    set (s := fold_left Nat.min rest i0) in *. set (e' := fold_left Nat.max rest i0) in *.
    assert (Hs : s = 0%nat).
    { assert (Hz : In 0%nat (i0 :: rest)) by (rewrite <- Enz; apply nonzero_in; auto).
      destruct Hz as [Hz|Hz]; [lia|]. specialize (Hm2 _ Hz). lia. }
    assert (Hein : nth e' mask false = true).
    { apply nonzero_in. rewrite Enz. destruct HM3 as [->|H]; simpl; auto. }
    assert (Hemax : forall k, nth k mask false = true -> (k <= e')%nat).
    { intros k Hk. apply nonzero_in in Hk. rewrite Enz in Hk. destruct Hk as [<-|Hk]; auto. }
    assert (Hen : (e' < n)%nat).
    { destruct (Nat.lt_ge_cases e' n) as [|Hge]; auto. rewrite nth_overflow in Hein by lia. discriminate. }
    assert (Ee : e' = e).
    { assert (e <= e')%nat by (apply Hemax; rewrite HmaskS by lia; exact Hme).
      destruct (Nat.eq_dec e' e) as [|D]; auto. rewrite HmaskS in Hein by lia. rewrite Hmk in Hein by lia. discriminate. }
    clearbody s e'. subst s e'. clear Hm1 Hm2 Hm3 HM1 HM2 HM3 Enz rest Hein Hemax Hen.
    change (Z.of_nat 0) with 0%Z. cbn [Z.add].
    rewrite (pyget_Z l 0 nnan) by lia. rewrite (pyget_Z l 1 nnan) by lia.
    change (Z.to_nat 1) with 1%nat. change (Z.to_nat 0) with 0%nat.
    cbn [bind]. rewrite pyset_Z by (rewrite repeat_length; lia). cbn [bind].
    rewrite !pyslice_Z by lia.
    rewrite pysetslice_ok.
    2: { rewrite upd_length, repeat_length. lia. }
    2: { rewrite upd_length, repeat_length. lia. }
    2: { rewrite map_length, combine_length, !firstn_length, !skipn_length. lia. }
    cbn [bind].
    rewrite (pyget_Z l (Z.of_nat e) nnan) by lia.
    rewrite (pyget_Z l (Z.of_nat e - 1) nnan) by lia. cbn [bind].
    match goal with |- context [pyset ?D _ _] => set (delta2 := D) end.
    assert (Hd2len : List.length delta2 = n).
    { unfold delta2. rewrite splice_length; rewrite ?upd_length, ?repeat_length; auto; try lia.
      rewrite map_length, combine_length, !firstn_length, !skipn_length. lia. }
    rewrite pyset_Z by lia. cbn [bind]. f_equal.
    apply (nth_ext _ _ nnan nnan).
    { rewrite upd_length, Hd2len, map_length, seq_length. reflexivity. }
    intros k Hk. rewrite upd_length, Hd2len in Hk.
    rewrite (nth_indep (map layer_gen (seq 0 n)) nnan (layer_gen 0)) by (rewrite map_length, seq_length; auto).
    rewrite map_nth, seq_nth by auto. rewrite Nat.add_0_l.
    rewrite nth_upd, Hd2len. rewrite !Nat2Z.id.
    replace (e <? n)%nat with true by (symmetry; apply Nat.ltb_lt; lia). rewrite andb_true_r. unfold layer_gen.
    destruct (Nat.eqb_spec k e) as [->|Hke].
    - unfold mid. replace (Z.to_nat (Z.of_nat e - 1)) with (e - 1)%nat by lia. reflexivity.
    - unfold delta2. rewrite nth_splice.
      2: { rewrite upd_length, repeat_length; lia. }
      2: { rewrite map_length, combine_length, !firstn_length, !skipn_length. lia. }
      change (Z.to_nat 1) with 1%nat. change (Z.to_nat 2) with 2%nat. change (Z.to_nat 0) with 0%nat.
      replace (Z.to_nat (Z.of_nat e + 1)) with (e + 1)%nat by lia. rewrite ?Nat2Z.id.
      destruct (Nat.leb_spec 1 k) as [Hk1|Hk0]; cbn [andb].
      + replace (k =? 0)%nat with false by (symmetry; apply Nat.eqb_neq; lia).
        replace (k <? 1 + (e - 1))%nat with (k <? e)%nat by (f_equal; lia).
        destruct (Nat.ltb_spec k e) as [Hke2|Hke2].
        * rewrite (nth_map2 _ _ _ _ nnan nnan) by (rewrite !firstn_length, !skipn_length; lia).
          rewrite !nth_firstn by lia. rewrite !nth_skipn. cbn [fst snd].
          replace (2 + (k - 1))%nat with (k + 1)%nat by lia. replace (0 + (k - 1))%nat with (k - 1)%nat by lia. reflexivity.
        * rewrite nth_upd, repeat_length.
          replace (k =? 0)%nat with false by (symmetry; apply Nat.eqb_neq; lia). cbn [andb].
          rewrite nth_repeat. reflexivity.
      + assert (k = 0%nat) as -> by lia. cbn [Nat.eqb]. rewrite nth_upd, repeat_length.
        replace (0 <? n)%nat with true by (symmetry; apply Nat.ltb_lt; lia). reflexivity.
  Qed.
End Gen.
