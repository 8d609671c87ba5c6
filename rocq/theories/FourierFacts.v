(** The filter masks of the Fourier model and the closed form of the filtered array. *)
From Coq Require Import Reals List Arith ZArith Lia Lra Bool String.
From Verif Require Import PyBase Num Arr ArrFacts NumFacts PyFacts ListFacts Hybrid Spherical Fourier SpecSum SumFacts SpecFourier FourierDft.
Import ListNotations.
Local Open Scope nat_scope.

Section Masks.
  Context {T : Type} {N : Num T}.
  Notation zero := (creal (ofZ 0) : T * T).
  Lemma zero_slice_length lo hi (X : list (T * T)) : List.length (zero_slice lo hi X) = List.length X.
  Proof. unfold zero_slice. rewrite map_length, combine_length, seq_length. lia. Qed.
  Lemma nth_zero_slice lo hi (X : list (T * T)) k : k < List.length X ->
    nth k (zero_slice lo hi X) zero = if Nat.leb (slice_lo (List.length X) lo) k && Nat.ltb k (slice_hi (List.length X) hi) then zero else nth k X zero.
  Proof.
    intros Hk. unfold zero_slice.
    rewrite (nth_map_in _ _ k (0, zero)) by (rewrite combine_length, seq_length; lia).
    rewrite combine_nth by apply seq_length. rewrite seq_nth by auto. reflexivity.
  Qed.
  (** [m] tells which bins survive *)
  Definition masks (X Y : list (T * T)) (m : nat -> bool) : Prop :=
    List.length Y = List.length X /\ forall k, k < List.length X -> nth k Y zero = if m k then nth k X zero else zero.
  Lemma masks_id X : masks X X (fun _ => true). Proof. split; auto. Qed.
  Lemma masks_slice X Y m lo hi m' : masks X Y m ->
    (forall k, k < List.length X -> m' k = m k && negb (Nat.leb (slice_lo (List.length X) lo) k && Nat.ltb k (slice_hi (List.length X) hi))) ->
    masks X (zero_slice lo hi Y) m'.
  Proof.
    intros [L H] E. split; [rewrite zero_slice_length; auto|]. intros k Hk. rewrite nth_zero_slice by lia. rewrite L, E, H by auto.
    destruct (m k), (_ && _); reflexivity.
  Qed.
  Lemma masks_ext X Y m m' : masks X Y m -> (forall k, k < List.length X -> m k = m' k) -> masks X Y m'.
  Proof. intros [L H] E. split; auto. intros k Hk. rewrite <- E; auto. Qed.

  Definition klow (l n k : nat) : bool := Nat.ltb (cycles n k) l.
  Definition khigh (h n k : nat) : bool := Nat.leb h (cycles n k).
  Definition kpass (l h n k : nat) : bool := Nat.leb l (cycles n k) && Nat.ltb (cycles n k) h.
  Definition kblock (l h n k : nat) : bool :=
    negb (Nat.leb l k && Nat.ltb k h) && negb (Nat.leb l (n - k) && Nat.ltb (n - k) h).
  Definition kall (fl : flags) (l h n k : nat) : bool :=
    (if f_low fl then klow l n k else true) && (if f_high fl then khigh h n k else true) &&
    (if f_pass fl then kpass l h n k else true) && (if f_block fl then kblock l h n k else true).
End Masks.

Ltac bools := repeat match goal with
  | |- context [Nat.leb ?a ?b] => destruct (Nat.leb_spec a b)
  | |- context [Nat.ltb ?a ?b] => destruct (Nat.ltb_spec a b)
  end; cbn [andb orb negb]; try reflexivity; try lia.
Lemma sb_pos n z : (0 <= z)%Z -> slice_bound n z = Nat.min (Z.to_nat z) n.
Proof. intros. unfold slice_bound. destruct (Z.ltb_spec z 0); lia. Qed.
Lemma sb_neg n z : (1 < z)%Z -> slice_bound n (1 - z) = (n + 1 - Z.to_nat z).
Proof. intros. unfold slice_bound. destruct (Z.ltb_spec (1 - z) 0); lia. Qed.

Section Apply.
  Context {T : Type} {N : Num T}.
  Variables (l h : Z) (X : list (T * T)).
  Hypothesis Hl : (0 <= l)%Z.
  Hypothesis Hh : (0 <= h)%Z.
  Notation n := (List.length X).
  Notation l' := (Z.to_nat l).
  Notation h' := (Z.to_nat h).
  Ltac step H := eapply masks_slice; [exact H|]; intros k Hk; cbn [slice_lo slice_hi]; rewrite ?sb_pos, ?sb_neg by auto; reflexivity.
  Ltac fin m := unfold kall, klow, khigh, kpass, kblock, cycles; cbn [f_low f_high f_pass f_block]; destruct (m _); cbn [andb]; try reflexivity; bools.

  Lemma stage_low Y m (b : bool) : masks X Y m ->
    masks X (if b then if (1 <? l)%Z then zero_slice (Some l) (Some (1 - l)%Z) Y else zero_slice (Some l) None Y else Y)
      (fun k => m k && if b then klow l' n k else true).
  Proof.
    intros H. destruct b; [|eapply masks_ext; [exact H|]; intros; rewrite andb_true_r; reflexivity].
    destruct (Z.ltb_spec 1 l); (eapply masks_slice; [exact H|]; intros k Hk; cbn [slice_lo slice_hi]; rewrite ?sb_pos, ?sb_neg by auto; f_equal; unfold klow, cycles; bools).
  Qed.
  Lemma stage_high Y m (b : bool) : masks X Y m ->
    masks X (if b then let W := zero_slice None (Some h) Y in if (1 <? h)%Z then zero_slice (Some (1 - h)%Z) None W else W else Y)
      (fun k => m k && if b then khigh h' n k else true).
  Proof.
    intros H. destruct b; [|eapply masks_ext; [exact H|]; intros; rewrite andb_true_r; reflexivity].
    cbv zeta. pose proof (masks_slice X Y m None (Some h) _ H (fun k _ => eq_refl)) as H1. cbn [slice_lo slice_hi] in H1. rewrite sb_pos in H1 by auto.
    destruct (Z.ltb_spec 1 h).
    - eapply masks_slice; [exact H1|]; intros k Hk; cbn [slice_lo slice_hi]; rewrite ?sb_pos, ?sb_neg by auto; rewrite <- andb_assoc; f_equal; unfold khigh, cycles; bools.
    - eapply masks_ext; [exact H1|]. intros k Hk. cbn beta. f_equal. unfold khigh, cycles. bools.
  Qed.
  Lemma stage_pass Y m (b : bool) : masks X Y m ->
    masks X (if b then let W := zero_slice None (Some l) Y in
                       let V := if (1 <? h)%Z then zero_slice (Some h) (Some (1 - h)%Z) W else zero_slice (Some h) None W in
                       if (1 <? l)%Z then zero_slice (Some (1 - l)%Z) None V else V else Y)
      (fun k => m k && if b then kpass l' h' n k else true).
  Proof.
    intros H. destruct b; [|eapply masks_ext; [exact H|]; intros; rewrite andb_true_r; reflexivity].
    cbv zeta. pose proof (masks_slice X Y m None (Some l) _ H (fun k _ => eq_refl)) as H1. cbn [slice_lo slice_hi] in H1. rewrite sb_pos in H1 by auto.
    assert (H2 : masks X (if (1 <? h)%Z then zero_slice (Some h) (Some (1 - h)%Z) (zero_slice None (Some l) Y) else zero_slice (Some h) None (zero_slice None (Some l) Y))
       (fun k => m k && (negb (Nat.ltb k l') && Nat.ltb (cycles n k) h'))).
    { destruct (Z.ltb_spec 1 h); (eapply masks_slice; [exact H1|]; intros k Hk; cbn [slice_lo slice_hi]; rewrite ?sb_pos, ?sb_neg by auto; rewrite <- andb_assoc; f_equal; unfold cycles; bools). }
    destruct (Z.ltb_spec 1 l).
    - eapply masks_slice; [exact H2|]; intros k Hk; cbn [slice_lo slice_hi]; rewrite ?sb_pos, ?sb_neg by auto; rewrite <- andb_assoc; f_equal; unfold kpass, cycles; bools.
    - eapply masks_ext; [exact H2|]. intros k Hk. cbn beta. f_equal. unfold kpass, cycles. bools.
  Qed.
  Lemma stage_block Y m (b : bool) : masks X Y m ->
    masks X (if b then let W := zero_slice (Some l) (Some h) Y in
                       if (1 <? l)%Z && (1 <? h)%Z then zero_slice (Some (1 - h)%Z) (Some (1 - l)%Z) W
                       else if (1 <? h)%Z then zero_slice (Some (1 - h)%Z) None W else W else Y)
      (fun k => m k && if b then kblock l' h' n k else true).
  Proof.
    intros H. destruct b; [|eapply masks_ext; [exact H|]; intros; rewrite andb_true_r; reflexivity].
    cbv zeta. pose proof (masks_slice X Y m (Some l) (Some h) _ H (fun k _ => eq_refl)) as H1. cbn [slice_lo slice_hi] in H1. rewrite !sb_pos in H1 by auto.
    destruct (Z.ltb_spec 1 l), (Z.ltb_spec 1 h); cbn [andb];
      first [ eapply masks_slice; [exact H1|]; intros k Hk; cbn [slice_lo slice_hi]; rewrite ?sb_pos, ?sb_neg by auto; rewrite <- andb_assoc; f_equal; unfold kblock; bools
            | eapply masks_ext; [exact H1|]; intros k Hk; cbn beta; f_equal; unfold kblock; bools ].
  Qed.
  Lemma apply_masks fl : masks X (apply_filters fl l h X) (kall fl l' h' n).
  Proof.
    unfold apply_filters. cbv zeta.
    eapply masks_ext; [apply stage_block, stage_pass, stage_high, stage_low, masks_id|].
    intros k Hk. unfold kall. cbn beta. rewrite andb_true_l. reflexivity.
  Qed.
End Apply.

Lemma kall_symmetric fl l h n : symmetric n (kall fl l h n).
Proof.
  intros k Hk. unfold mir. destruct (Nat.eqb_spec k 0) as [->|Hk0]; [reflexivity|].
  assert (E : cycles n (n - k) = cycles n k) by (unfold cycles; lia).
  unfold kall, klow, khigh, kpass, kblock. rewrite E. replace (n - (n - k)) with k by lia.
  f_equal. destruct (f_block fl); auto. apply andb_comm.
Qed.

Lemma nth_upd_same (i : list nat) a v : a < List.length i -> nth a (upd i a v) 0 = v.
Proof. intros H. rewrite nth_upd, Nat.eqb_refl. destruct (Nat.ltb_spec a (List.length i)); [reflexivity|lia]. Qed.
Lemma upd_upd (i : list nat) a v w : upd (upd i a v) a w = upd i a w.
Proof. revert a. induction i as [|x i IH]; intros [|a]; cbn; auto. f_equal. auto. Qed.
Lemma upd_self (i : list nat) a : upd i a (nth a i 0) = i.
Proof. revert a. induction i as [|x i IH]; intros [|a]; cbn; auto. f_equal. auto. Qed.
(** swapping an axis with axis 0 *)
Lemma swap0_hd ax (i : list nat) : ax < List.length i -> hd 0 (swap_nth 0 ax 0 i) = nth ax i 0.
Proof. destruct i as [|x i]; cbn; [lia|]. destruct ax; cbn; reflexivity. Qed.
Lemma swap0_column ax (i : list nat) t : ax < List.length i -> swap_nth 0 ax 0 (t :: tl (swap_nth 0 ax 0 i)) = upd i ax t.
Proof.
  destruct i as [|x i]; cbn [List.length]; [lia|]. intros H. destruct ax as [|a]; [reflexivity|].
  unfold swap_nth. cbn [nth upd tl]. rewrite nth_upd_same by lia. f_equal. apply upd_upd.
Qed.
Lemma swap0_inv ax (i : list nat) : ax < List.length i -> swap_nth 0 ax 0 (swap_nth 0 ax 0 i) = i.
Proof.
  destruct i as [|x i]; cbn [List.length]; [lia|]. intros H. destruct ax as [|a]; [reflexivity|].
  unfold swap_nth. cbn [nth upd]. rewrite nth_upd_same by lia. f_equal. rewrite upd_upd. apply upd_self.
Qed.
