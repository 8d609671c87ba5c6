(** Index bookkeeping lemmas for [Arr]. *)
From Coq Require Import List Bool Arith ZArith Lia String.
From Verif Require Import PyBase Num Arr.
Import ListNotations.

Lemma inb_nil : inb [] [].
Proof. constructor. Qed.

Lemma inb_length s i : inb s i -> List.length i = List.length s.
Proof. intros H. induction H; simpl; congruence. Qed.

Lemma inb_cons n s i idx : inb (n :: s) (i :: idx) <-> (i < n)%nat /\ inb s idx.
Proof.
  split.
  - intros H. inversion H; subst; auto.
  - intros [H1 H2]. constructor; auto.
Qed.

Lemma inb_app s1 s2 i1 i2 : inb s1 i1 -> inb s2 i2 -> inb (s1 ++ s2) (i1 ++ i2).
Proof. intros. apply Forall2_app; auto. Qed.

Lemma all_idx_inb s i : In i (all_idx s) <-> inb s i.
Proof.
  revert i; induction s as [|n s IH]; intros i; simpl.
  - split; [intros [H|[]]; subst; constructor | intros H; inversion H; auto].
  - rewrite in_flat_map. split.
    + intros [k [Hk Hi]]. apply in_seq in Hk. apply in_map_iff in Hi.
      destruct Hi as [j [Hj Hin]]. subst. constructor; [lia | apply IH; auto].
    + intros H. inversion H as [|k n' j s' Hk Hj]; subst.
      exists k. split; [apply in_seq; lia|]. apply in_map. apply IH; auto.
Qed.

Lemma flat_map_length_const {A B} (f : A -> list B) (l : list A) c :
  (forall x, In x l -> List.length (f x) = c) -> List.length (flat_map f l) = List.length l * c.
Proof.
  induction l as [|x l IH]; intros H; simpl; auto.
  rewrite app_length, H, IH; simpl; auto. intros; apply H; simpl; auto.
Qed.

Lemma all_idx_length s : List.length (all_idx s) = size s.
Proof.
  induction s as [|n s IH]; simpl; auto.
  rewrite (flat_map_length_const _ _ (size s)).
  - rewrite seq_length; auto.
  - intros x _. rewrite map_length; auto.
Qed.

Lemma flat_bound s i : inb s i -> flat s i < size s.
Proof.
  revert i; induction s as [|n s IH]; intros i H; inversion H as [|k n' j s' Hk Hj]; subst; simpl; auto.
  specialize (IH _ Hj). nia.
Qed.

Lemma nth_flat_map_const {A B} (f : A -> list B) (l : list A) c d dA k r :
  (forall x, In x l -> List.length (f x) = c) -> k < List.length l -> r < c ->
  nth (k * c + r) (flat_map f l) d = nth r (f (nth k l dA)) d.
Proof.
  revert k; induction l as [|x l IH]; intros k Hc Hk Hr; simpl in Hk; [lia|].
  simpl. destruct k as [|k].
  - simpl. rewrite app_nth1; auto. rewrite Hc; simpl; auto.
  - rewrite app_nth2; rewrite Hc by (simpl; auto); [|nia].
    replace (S k * c + r - c) with (k * c + r) by nia.
    apply IH; auto; [intros; apply Hc; simpl; auto | lia].
Qed.

Lemma nth_flat s i : inb s i -> nth (flat s i) (all_idx s) [] = i.
Proof.
  revert i; induction s as [|n s IH]; intros i H; inversion H as [|k n' j s' Hk Hj]; subst; simpl; auto.
  rewrite (nth_flat_map_const _ _ (size s) _ 0).
  - rewrite seq_nth by auto. simpl.
    pose proof (flat_bound _ _ Hj) as Hb.
    rewrite (nth_indep _ [] (k :: [])) by (rewrite map_length, all_idx_length; auto).
    rewrite map_nth. f_equal. apply IH; auto.
  - intros x _. rewrite map_length. apply all_idx_length.
  - rewrite seq_length; auto.
  - apply flat_bound; auto.
Qed.

Lemma nth_ravel {T} (d : T) (a : arr T) i :
  inb (shp a) i -> nth (flat (shp a) i) (ravel a) d = get a i.
Proof.
  intros H. unfold ravel.
  rewrite (nth_indep _ d (get a [])) by (rewrite map_length, all_idx_length; apply flat_bound; auto).
  rewrite map_nth. rewrite nth_flat; auto.
Qed.

Lemma ravel_length {T} (a : arr T) : List.length (ravel a) = size (shp a).
Proof. unfold ravel. rewrite map_length. apply all_idx_length. Qed.

Lemma size_app s1 s2 : size (s1 ++ s2) = size s1 * size s2.
Proof. induction s1 as [|n s1 IH]; simpl; [lia | rewrite IH; lia]. Qed.

Lemma flat_app s1 s2 i1 i2 : List.length i1 = List.length s1 ->
  flat (s1 ++ s2) (i1 ++ i2) = flat s1 i1 * size s2 + flat s2 i2.
Proof.
  revert i1; induction s1 as [|n s1 IH]; intros [|i i1] H; simpl in *; try discriminate; auto.
  rewrite IH by lia. rewrite size_app. lia.
Qed.

(** concatenation of equally long rows: reading at row r, column c *)
Lemma nth_concat {T} (d : T) (rows : list (list T)) n r c :
  Forall (fun x => List.length x = n) rows -> r < List.length rows -> c < n ->
  nth (r * n + c) (List.concat rows) d = nth c (nth r rows []) d.
Proof.
  revert r; induction rows as [|x rows IH]; intros r Hf Hr Hc; simpl in Hr; [lia|].
  inversion Hf as [|x' rows' Hx Hrows]; subst x' rows'. simpl.
  destruct r as [|r].
  - simpl. rewrite app_nth1; auto. lia.
  - rewrite app_nth2 by lia. replace (S r * n + c - List.length x) with (r * n + c) by lia.
    apply IH; auto. lia.
Qed.

Lemma mapM_Ok_iff {A B} (f : A -> res B) l ys :
  mapM f l = Ok ys <-> Forall2 (fun x y => f x = Ok y) l ys.
Proof.
  revert ys; induction l as [|x l IH]; intros ys; simpl.
  - split; intros H; [injection H as <-; constructor | inversion H; auto].
  - destruct (f x) as [y|e] eqn:E; simpl.
    + destruct (mapM f l) as [zs|e] eqn:E2; simpl.
      * split; intros H.
        -- injection H as <-. constructor; auto. apply IH; auto.
        -- inversion H as [|? y' ? ys' H1 H2]; subst. rewrite E in H1. injection H1 as <-.
           apply IH in H2. injection H2 as <-. auto.
      * split; intros H; [discriminate|].
        inversion H as [|? y' ? ys' H1 H2]; subst. apply IH in H2. discriminate.
    + split; intros H; [discriminate|].
      inversion H as [|? y' ? ys' H1 H2]; subst. congruence.
Qed.

(** a loop fails iff some body fails, with the error of the first failing element *)
Lemma mapM_Err_iff {A B} (f : A -> res B) l e :
  mapM f l = Err e <->
  exists l1 x l2, l = l1 ++ x :: l2 /\ f x = Err e /\ Forall (fun y => exists z, f y = Ok z) l1.
Proof.
  induction l as [|x l IH]; simpl.
  - split; [discriminate|]. intros [l1 [x [l2 [H _]]]]. destruct l1; discriminate.
  - destruct (f x) as [y|e'] eqn:E; simpl.
    + destruct (mapM f l) as [zs|e2] eqn:E2; simpl.
      * split; [discriminate|]. intros (l1 & x0 & l2 & H & Hx & Hf).
        destruct l1 as [|w l1]; simpl in H; injection H as -> ->; [congruence|].
        assert (Ok zs = Err e) as C; [|discriminate].
        apply IH. exists l1, x0, l2. inversion Hf; auto.
      * split.
        -- intros H. injection H as ->. destruct (proj1 IH eq_refl) as (l1 & x0 & l2 & H & Hx & Hf).
           exists (x :: l1), x0, l2. subst. repeat split; auto. constructor; eauto.
        -- intros (l1 & x0 & l2 & H & Hx & Hf).
           destruct l1 as [|w l1]; simpl in H; injection H as -> ->; [congruence|].
           apply IH. exists l1, x0, l2. inversion Hf; auto.
    + split.
      * intros H. injection H as ->. exists [], x, l. auto.
      * intros (l1 & x0 & l2 & H & Hx & Hf).
        destruct l1 as [|w l1]; simpl in H; injection H as -> ->; [congruence|].
        inversion Hf as [|? ? [z Hz] ?]; congruence.
Qed.

Lemma upd_length {A} (l : list A) j v : List.length (upd l j v) = List.length l.
Proof. revert j; induction l; intros [|j]; simpl; auto. Qed.

Lemma nth_upd {A} (l : list A) j v k d :
  nth k (upd l j v) d = if Nat.eqb k j && Nat.ltb j (List.length l) then v else nth k l d.
Proof.
  revert j k; induction l as [|x l IH]; intros j k; simpl.
  - destruct k, j; simpl; rewrite ?andb_false_r; auto.
  - destruct j as [|j], k as [|k]; simpl; auto. rewrite IH. reflexivity.
Qed.
