(** The vapour pressure table of relhum. *)
From Coq Require Import Reals List Bool Arith ZArith Lra Lia String.
From Verif Require Import PyBase PyFacts Num NumFacts Arr Spec SpecMeteo Meteo ListFacts ExtrapFacts.
Import ListNotations.
Local Open Scope R_scope.

(** ** piecewise linear functions on nodes 0, 1, ..., n *)
Definition pl (a : nat -> R) (x : R) : R :=
  let k := Z.to_nat (Int_part x) in (INR k + 1 - x) * a k + (x - INR k) * a (S k).
Lemma int_part_bounds x : IZR (Int_part x) <= x < IZR (Int_part x) + 1.
Proof. destruct (base_Int_part x). lra. Qed.
Lemma int_part_nat x k : INR k <= x < INR k + 1 -> Int_part x = Z.of_nat k.
Proof.
  intros H. destruct (int_part_bounds x) as [A B]. rewrite INR_IZR_INZ in H.
  assert (IZR (Int_part x) < IZR (Z.of_nat k + 1)) by (rewrite plus_IZR; lra).
  assert (IZR (Z.of_nat k) < IZR (Int_part x + 1)) by (rewrite plus_IZR; lra).
  apply lt_IZR in H0, H1. lia.
Qed.
Lemma floor_nat x : 0 <= x -> exists k, Int_part x = Z.of_nat k /\ INR k <= x < INR k + 1.
Proof.
  intros H. destruct (int_part_bounds x) as [A B]. assert (0 <= Int_part x)%Z.
  { assert (-1 < Int_part x)%Z; [|lia]. apply lt_IZR. lra. }
  exists (Z.to_nat (Int_part x)). rewrite Z2Nat.id by auto. split; auto. rewrite INR_IZR_INZ, Z2Nat.id by auto. lra.
Qed.
Lemma pl_at a x k : INR k <= x < INR k + 1 -> pl a x = (INR k + 1 - x) * a k + (x - INR k) * a (S k).
Proof. intros H. unfold pl. rewrite (int_part_nat x k H), Nat2Z.id. reflexivity. Qed.
Lemma pl_node a k : pl a (INR k) = a k.
Proof. rewrite (pl_at a (INR k) k) by lra. ring. Qed.
Lemma mono_nat (a : nat -> R) n : (forall k, (k < n)%nat -> a k <= a (S k)) -> forall i j, (i <= j <= n)%nat -> a i <= a j.
Proof.
  intros H i j. induction j as [|j IH]; intros Hij; [assert (i = 0)%nat by lia; subst; lra|].
  destruct (Nat.eq_dec i (S j)); [subst; lra|]. specialize (IH ltac:(lia)). specialize (H j ltac:(lia)). lra.
Qed.
Lemma pl_between a k x n : (forall k, (k < n)%nat -> a k <= a (S k)) -> (k < n)%nat -> INR k <= x < INR k + 1 -> a k <= pl a x <= a (S k).
Proof. intros H Hk Hx. rewrite (pl_at a x k Hx). specialize (H k Hk). split; nra. Qed.
Lemma pl_mono a n x y : (forall k, (k < n)%nat -> a k <= a (S k)) -> 0 <= x -> x <= y -> y < INR n -> pl a x <= pl a y.
Proof.
  intros H Hx Hxy Hy. destruct (floor_nat x Hx) as (k & _ & Bk). destruct (floor_nat y ltac:(lra)) as (m & _ & Bm).
  assert (Hm : (m < n)%nat) by (apply INR_lt; lra).
  destruct (Nat.eq_dec k m) as [->|Hne].
  - rewrite (pl_at a x m Bk), (pl_at a y m Bm). specialize (H m Hm). nra.
  - assert (Hkm : (k < m)%nat). { assert (INR k < INR (S m)) by (rewrite S_INR; lra). apply INR_lt in H0. lia. }
    pose proof (pl_between a k x n H ltac:(lia) Bk). pose proof (pl_between a m y n H Hm Bm).
    pose proof (mono_nat a n H (S k) m ltac:(lia)). lra.
Qed.
Lemma pl_comb c a x : 0 <= x -> pl (fun k => c * INR k - a k) x = c * x - pl a x.
Proof. intros Hx. destruct (floor_nat x Hx) as (k & _ & Bk). rewrite !(pl_at _ x k Bk), S_INR. ring. Qed.
Lemma pl_lipschitz a n c x y : (forall k, (k < n)%nat -> a k <= a (S k) <= a k + c) -> 0 <= x -> x <= y -> y < INR n ->
  0 <= pl a y - pl a x <= c * (y - x).
Proof.
  intros H Hx Hxy Hy. pose proof (pl_mono a n x y ltac:(intros k Hk; apply H; auto) Hx Hxy Hy).
  pose proof (pl_mono (fun k => c * INR k - a k) n x y) as P. cbv beta in P.
  rewrite !pl_comb in P by lra. assert (c * x - pl a x <= c * y - pl a y); [|lra]. apply P; auto.
  intros k Hk. rewrite S_INR. specialize (H k Hk). lra.
Qed.

(** ** the table *)
Definition tab (k : nat) : R := nth k vapour_table 0.
Lemma table_z : vapour_table = map (fun z => IZR z / 100000) es_table_z.
Proof. unfold vapour_table, es_table_z. cbn [map]. repeat (apply f_equal2; [lra|]). reflexivity. Qed.
Lemma tab_z k : (k < 204)%nat -> tab k = IZR (nth k es_table_z 0%Z) / 100000.
Proof. intros H. unfold tab. rewrite table_z. rewrite (nth_map_in _ _ _ 0%Z) by (cbn; lia). reflexivity. Qed.
Fixpoint steps_ok (c : Z) (l : list Z) : bool :=
  match l with x :: ((y :: _) as r) => (x <=? y)%Z && (y <=? x + c)%Z && steps_ok c r | _ => true end.
Lemma steps_ok_nth c l : steps_ok c l = true -> forall k, (S k < List.length l)%nat -> (nth k l 0 <= nth (S k) l 0 <= nth k l 0 + c)%Z.
Proof.
  induction l as [|x l IH]; intros H k Hk; [cbn in Hk; lia|]. destruct l as [|y r]; [cbn in Hk; lia|].
  change ((x <=? y)%Z && (y <=? x + c)%Z && steps_ok c (y :: r) = true) in H.
  rewrite !andb_true_iff, !Z.leb_le in H. destruct k; [cbn [nth]; lia|]. apply (IH (proj2 H) k). cbn in *. lia.
Qed.
Lemma tab_steps k : (k < 203)%nat -> tab k <= tab (S k) <= tab k + 37800.
Proof.
  intros Hk. rewrite !tab_z by lia.
  pose proof (steps_ok_nth 3780000000 es_table_z ltac:(vm_compute; reflexivity) k ltac:(cbn; lia)) as [A B].
  apply IZR_le in A, B. rewrite plus_IZR in B. lra.
Qed.
Lemma tab_pos k : (k < 204)%nat -> 0 < tab k.
Proof.
  intros Hk. pose proof (mono_nat tab 203 (fun j H => proj1 (tab_steps j H)) 0 k ltac:(lia)) as M.
  assert (0 < tab 0) by (unfold tab; cbn; lra). lra.
Qed.

(** ** es *)
Definition clipT (t : R) : R := Rmin (Rmax t 173.16) 375.16.
Definition Esat (t : R) : R := pl tab (clipT t - 173.16) * 0.1.
Lemma clipT_range t : 173.16 <= clipT t <= 375.16.
Proof. unfold clipT, Rmin, Rmax. destruct (Rle_dec t 173.16); destruct (Rle_dec _ 375.16); lra. Qed.
Lemma clipT_mono s t : s <= t -> clipT s <= clipT t /\ clipT t - clipT s <= t - s.
Proof.
  intros H. unfold clipT, Rmin, Rmax. destruct (Rle_dec s 173.16); destruct (Rle_dec t 173.16);
  repeat match goal with |- context [Rle_dec ?a ?b] => destruct (Rle_dec a b) end; lra.
Qed.
Lemma INR203 : INR 203 = 203. Proof. rewrite INR_IZR_INZ. reflexivity. Qed.
Lemma Esat_mono s t : s <= t -> 0 <= Esat t - Esat s <= 3780 * (t - s).
Proof.
  intros H. unfold Esat. pose proof (clipT_mono s t H). pose proof (clipT_range s). pose proof (clipT_range t).
  pose proof (pl_lipschitz tab 203 37800 (clipT s - 173.16) (clipT t - 173.16) tab_steps ltac:(lra) ltac:(lra) ltac:(rewrite INR203; lra)).
  split; nra.
Qed.
Lemma Esat_pos t : 0 < Esat t.
Proof.
  pose proof (clipT_range t) as B. unfold Esat. destruct (floor_nat (clipT t - 173.16) ltac:(lra)) as (k & _ & Bk).
  assert (Hk : (k < 203)%nat) by (apply INR_lt; rewrite INR203; lra).
  pose proof (pl_between tab k _ 203 (fun j H => proj1 (tab_steps j H)) Hk Bk). pose proof (tab_pos k ltac:(lia)). lra.
Qed.
Lemma Esat_node k : (k <= 202)%nat -> Esat (173.16 + INR k) = nth k vapour_table 0 * 0.1.
Proof.
  intros Hk. unfold Esat. assert (E : clipT (173.16 + INR k) - 173.16 = INR k).
  { assert (INR k <= 202) by (rewrite <- (INR_IZR_INZ 202%nat : INR 202 = 202); apply le_INR; auto).
    pose proof (pos_INR k). unfold clipT. rewrite Rmax_left, Rmin_left by lra. lra. }
  rewrite E, pl_node. reflexivity.
Qed.
Lemma Esat_linear k x : (k <= 201)%nat -> 0 <= x <= 1 ->
  Esat (173.16 + INR k + x) = (1 - x) * Esat (173.16 + INR k) + x * Esat (173.16 + INR (S k)).
Proof.
  intros Hk Hx. rewrite !Esat_node by lia. fold (tab k) (tab (S k)). destruct (Rle_lt_or_eq_dec x 1 (proj2 Hx)) as [H| ->].
  - unfold Esat. assert (E : clipT (173.16 + INR k + x) - 173.16 = INR k + x).
    { assert (INR k <= 201) by (rewrite <- (INR_IZR_INZ 201%nat : INR 201 = 201); apply le_INR; auto).
      pose proof (pos_INR k). unfold clipT. rewrite Rmax_left, Rmin_left by lra. lra. }
    rewrite E, (pl_at tab _ k) by lra. ring.
  - replace (173.16 + INR k + 1) with (173.16 + INR (S k)) by (rewrite S_INR; lra). rewrite Esat_node by lia. fold (tab (S k)). ring.
Qed.
Lemma Esat_clip t : Esat t = Esat (clipT t).
Proof. unfold Esat. replace (clipT (clipT t)) with (clipT t); auto. pose proof (clipT_range t). unfold clipT at 2. rewrite Rmax_left, Rmin_left by lra. reflexivity. Qed.

Lemma es_cell_fin t : es_cell (Fin t) = Ok (Fin (Esat t)).
Proof.
  unfold es_cell. cbv zeta. unfold nclip, mintemp, maxtemp. flsimpl. declit.
  rewrite nmax_fin, nmin_fin.
  replace (17316 / 100) with 173.16 by lra. replace (37516 / 100) with 375.16 by lra. fold (clipT t).
  cbn [fl_sub fl_toZ oget bind].
  pose proof (clipT_range t) as B.
  destruct (floor_nat (clipT t - 173.16) ltac:(lra)) as (k & Ek & Bk).
  assert (Hk : (k < 203)%nat) by (apply INR_lt; rewrite INR203; lra).
  assert (Et : Rtruncz (clipT t - 173.16) = Z.of_nat k) by (unfold Rtruncz, Rfloor; destruct (Rlt_dec (clipT t - 173.16) 0); [lra|auto]).
  rewrite Et. cbn [oget bind].
  assert (G : forall j, (j < 204)%nat -> pyget (@es_table fl NumFl) (Z.of_nat j) = Ok (Fin (tab j))).
  { intros j Hj. rewrite (pyget_nat _ j NaN) by (unfold es_table; rewrite map_length; cbn; lia).
    unfold es_table. rewrite (nth_map_in _ _ _ 0%Z) by (cbn; lia). rewrite tab_z by auto. reflexivity. }
  rewrite G by lia. cbn [bind]. replace (Z.of_nat k + 1)%Z with (Z.of_nat (S k)) by lia. rewrite G by lia. cbn [bind fl_add fl_sub fl_mul].
  rewrite <- !INR_IZR_INZ. unfold Esat. rewrite (pl_at tab _ k Bk). do 2 apply f_equal. field_simplify_eq. lra.
Qed.
Lemma es_cell_nan : es_cell NaN = Err IndexError.
Proof. reflexivity. Qed.
